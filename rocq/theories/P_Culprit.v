(** Shares that the library rejects: C183-C185. *)
From Coq Require Import ZArith Ascii String List Lia.
From stdpp Require Import base list strings gmap.
From Verif Require Import Base L_Base S_Threshold M_Common S_Common L_Common L_Common2 S_Culprit L_Culprit P_Common
  M_Json M_Http S_Http.

Lemma kind_round c : c <> OtherContent -> exists i n, content_round c = Some (i, n) /\ kind_name c n.
Proof. intros H. destruct c; try contradiction; eexists _, _; (split; [reflexivity|]); cbn; tauto. Qed.
Lemma kind_name_fun c n n' : kind_name c n -> kind_name c n' -> n = n'.
Proof. unfold kind_name. cbn. intros H H'. destruct c; intuition congruence. Qed.
Lemma keys_known E C cs : Forall (fun x => exists pk, member_key E C (cu_id x) pk) cs ->
  exists pks, AccPubKeysFromPartyIDs E C (map cu_id cs) = Some pks /\ Forall2 (fun x pk => member_key E C (cu_id x) pk) cs pks.
Proof.
  induction 1 as [|x cs (pk & key & Hk & Hp) _ IH]; [exists []; split; [reflexivity|constructor]|].
  destruct IH as (pks & Ha & Hf). exists (pk :: pks). cbn [map AccPubKeysFromPartyIDs]. rewrite Hk, Hp, Ha.
  split; [reflexivity|]. constructor; [exists key; auto|exact Hf].
Qed.

(** The state after the library rejected the share. *)
Lemma work_rejects E C tr k j c cs :
  share_waits E C tr k j c -> exists i n, kind_name c n /\
  run E C (tr ++ [LWork k (Some cs)]) =
  processInvalidMsgBlame E C (i, n, j_ident j) cs
    (set_log (fun l => l ++ [j]) (set_pending (fun l => delete k l) (run E C tr))) /\
  content_round c = Some (i, n).
Proof.
  intros (Hc & Hj & Hp & Ho). destruct (kind_round c Ho) as (i & n & Hr & Hn). exists i, n. split; [exact Hn|].
  split; [|exact Hr]. rewrite run_snoc. unfold step. rewrite Hc. unfold work. rewrite Hj. unfold GetMsgRound. rewrite Hp, Hr. reflexivity.
Qed.

(** ** C183. Whoever the library names as guilty of a bad share is blamed, in order and
    with the key, on top of what was blamed before. The evidence is a broadcast of the
    round that the guilty party signed and the node received, or nothing; there is evidence
    if the share came in a broadcast of the guilty party for this round. *)
Theorem C183_culprits_are_blamed E C tr k j c cs :
  (forall id, id ∈ dom (cf_parties C) -> no_dash id) ->
  share_waits E C tr k j c ->
  Forall (fun x => exists pk, member_key E C (cu_id x) pk) cs ->
  let s' := run E C (tr ++ [LWork k (Some cs)]) in
  bl_reason (s_blame s') = "tss share verification failed"%string /\
  (exists nodes, bl_nodes (s_blame s') = bl_nodes (s_blame (run E C tr)) ++ nodes /\
    Forall2 (fun x n => member_key E C (cu_id x) (n_pub n) /\
      (no_evidence n /\
       ~ (is_broadcast (j_wire j) /\ sent_by (j_wire j) (cu_id x) /\ kind_name c (w_round (j_wire j))) \/
       exists w, shows n w /\ authentic E C (handled E C tr) w (cu_id x) /\ is_broadcast w /\
                                  kind_name c (w_round w))) cs nodes) /\
  s_accepted s' = s_accepted (run E C tr).
Proof.
  intros Hd Hw Hcs. cbv zeta. destruct (work_rejects E C tr k j c cs Hw) as (i & n & Hn & Hrun & _). rewrite Hrun. clear Hrun.
  unfold processInvalidMsgBlame. destruct (keys_known E C cs Hcs) as (pks & Ha & Hf). rewrite Ha. cbn -[kind_name].
  split; [reflexivity|]. split; [|reflexivity]. eexists. split; [reflexivity|].
  clear Ha Hcs. induction Hf as [|x pk cs pks Hm _ IH]; [constructor|]. cbn [zip_with]. constructor; [|exact IH].
  split; [exact Hm|]. cbn [fst snd].
  destruct (s_stored (run E C tr) !! cache_key (cu_id x) n) as [w|] eqn:Hst.
  2:{ left. split; [split; reflexivity|]. intros (Hb & Hs & Hkn). destruct Hw as (_ & Hj & _).
    destruct (proj2 (kept_run E C tr) j (elem_of_list_lookup_2 _ _ _ Hj) _ Hs Hb) as [w Hw].
    rewrite (kind_name_fun _ _ _ Hkn Hn) in Hw. congruence. }
  right. exists w. split; [split; reflexivity|].
  destruct (i_stored _ _ _ _ (inv_run E C tr) _ _ Hst) as (id & (Hauth & Hb & [Hsent Hname]) & _).
  destruct Hm as (key & Hk & _).
  assert (Hdom : id ∈ dom (cf_parties C)) by (destruct Hauth as (_ & _ & kb' & Hk' & _); apply elem_of_dom; eauto).
  assert (Hdom' : cu_id x ∈ dom (cf_parties C)) by (apply elem_of_dom; eauto).
  apply cache_key_inj in Hname as [<- <-]; auto.
Qed.
Print Assumptions C183_culprits_are_blamed.


(** The unicast flag of the blame follows the kind of the rejected share. *)
Theorem C183_unicast_flag E C tr k j c cs :
  share_waits E C tr k j c ->
  (bl_unicast (s_blame (run E C (tr ++ [LWork k (Some cs)]))) = true <->
   In c [KGRound2Message1; KGRound2Message2; SignRound1Message1; SignRound1Message2; SignRound2Message;
         SignRound3Message; SignRound4Message]).
Proof.
  intros Hw. destruct (work_rejects E C tr k j c cs Hw) as (i & n & _ & Hrun & Hr). rewrite Hrun. clear Hrun.
  unfold processInvalidMsgBlame.
  match goal with |- context [match ?a with Some _ => _ | None => _ end] => destruct a end; cbn [set_blame s_blame SetBlame bl_unicast];
  (destruct c; cbn in Hr; try discriminate; injection Hr as <- <-; vm_compute;
   (split; [intros H; try discriminate H; tauto|intros H; intuition discriminate])).
Qed.
Print Assumptions C183_unicast_flag.

(** A guilty party the node does not know: the reason is set and nobody is blamed. *)
Theorem C183_unknown_culprit E C tr k j c cs x :
  share_waits E C tr k j c -> x ∈ cs -> (forall pk, ~ member_key E C (cu_id x) pk) ->
  let s' := run E C (tr ++ [LWork k (Some cs)]) in
  bl_reason (s_blame s') = "tss share verification failed"%string /\
  bl_nodes (s_blame s') = bl_nodes (s_blame (run E C tr)).
Proof.
  intros Hw Hx Hn. cbv zeta. destruct (work_rejects E C tr k j c cs Hw) as (i & n & _ & Hrun & _). rewrite Hrun. clear Hrun.
  unfold processInvalidMsgBlame.
  destruct (AccPubKeysFromPartyIDs E C (map cu_id cs)) as [pks|] eqn:Ha.
  - exfalso. apply (AccPubKeys_spec E C) in Ha. revert pks Ha. induction Hx as [x cs|x y cs _ IH]; intros pks Ha.
    + cbn in Ha. inversion Ha as [|? pk ? ? (kb & H1 & H2)]; subst. apply (Hn pk). exists kb. auto.
    + cbn in Ha. inversion Ha; subst. eapply IH; eauto.
  - cbn. rewrite app_nil_r. split; reflexivity.
Qed.
Print Assumptions C183_unknown_culprit.

(** From then on no share in the name of the guilty party is handed to the library,
    except those that already wait. *)
Theorem C183_culprit_is_ignored E C tr k j c cs x tr2 :
  share_waits E C tr k j c -> x ∈ cs -> cu_same x = true ->
  shares_of (cu_id x) (run E C (tr ++ LWork k (Some cs) :: tr2)) ⊆+ shares_of (cu_id x) (run E C tr).
Proof.
  intros Hw Hx Hs. destruct (work_rejects E C tr k j c cs Hw) as (i & n & _ & Hrun & _).
  assert (Hrr : run E C (tr ++ LWork k (Some cs) :: tr2) = foldl (step E C) (run E C (tr ++ [LWork k (Some cs)])) tr2).
  { unfold run. rewrite !foldl_app. reflexivity. }
  rewrite Hrr. clear Hrr.
  assert (Hm : marked (cu_id x) (run E C (tr ++ [LWork k (Some cs)])) = true).
  { rewrite Hrun. unfold marked, processInvalidMsgBlame.
    match goal with |- context [match ?a with Some _ => _ | None => _ end] => destruct a end;
    cbn [set_blame set_culprits s_culprits]; rewrite existsb_app; apply orb_true_intro; right; apply existsb_exists;
      exists x; (split; [apply elem_of_list_In, Hx|rewrite Hs, String.eqb_refl; reflexivity]). }
  destruct (marked_run E C (cu_id x) _ tr2 Hm) as [_ H2]. rewrite H2. rewrite Hrun.
  destruct Hw as (_ & Hj & _). unfold shares_of.
  assert (Hl : forall s', s_log s' = s_log (run E C tr) ++ [j] -> s_pending s' = delete k (s_pending (run E C tr)) ->
    List.filter (fun j => String.eqb (j_from j) (cu_id x)) (s_log s' ++ s_pending s') ⊆+
    List.filter (fun j => String.eqb (j_from j) (cu_id x)) (s_log (run E C tr) ++ s_pending (run E C tr))).
  { intros s' H1 H3. rewrite H1, H3. apply filter_sub. rewrite <- app_assoc. apply submseteq_app; [reflexivity|].
    cbn. rewrite <- delete_Permutation by exact Hj. reflexivity. }
  unfold processInvalidMsgBlame.
  match goal with |- context [match ?a with Some _ => _ | None => _ end] => destruct a end; apply Hl; reflexivity.
Qed.
Print Assumptions C183_culprit_is_ignored.

(** *** A concrete case: party 1's share is rejected, and its later one not looked at *)
Definition bad_share : list label :=
  [recv "p1" (share (toy_wire "1" true "KGRound1Message" "good1"));
   recv "p3" (ver "1-KGRound1Message" "good1"); LLoop].
Example C183_case :
  exists j, share_waits toy_env (toy_cfg 4 "p2") bad_share 0 j KGRound1Message /\
    is_broadcast (j_wire j) /\ sent_by (j_wire j) "1" /\ kind_name KGRound1Message (w_round (j_wire j)) /\
    (exists pk, member_key toy_env (toy_cfg 4 "p2") "1" pk) /\
    (forall pk, ~ member_key toy_env (toy_cfg 4 "p2") "9" pk) /\
    length (shares_of "1" (run toy_env (toy_cfg 4 "p2") (bad_share ++ LWork 0 (Some [Culprit "1" true]) ::
      [LFinish; recv "p1" (share (toy_wire "1" true "KGRound1Message" "other1"));
       recv "p3" (ver "1-KGRound1Message" "other1"); LLoop]))) = 1.
Proof.
  eexists. split; [split; [reflexivity|]; split; [vm_compute; reflexivity|]; split; [reflexivity|discriminate]|].
  split; [eexists _, _; reflexivity|]. split; [eexists _, _; reflexivity|]. split; [cbn; tauto|].
  split; [exists "1"%string, (to_bytes "1"); split; reflexivity|].
  split; [intros pk (key & H & _); vm_compute in H; discriminate|]. vm_compute. reflexivity.
Qed.

(** ** C184. The blame for a bad share does not always carry the guilty party's message:
    there is none without a broadcast of that round. *)
Theorem C184_no_evidence_without_broadcast E C tr k j c cs nodes :
  (forall id, id ∈ dom (cf_parties C) -> no_dash id) ->
  share_waits E C tr k j c ->
  (forall w id, got (handled E C tr) w -> sent_by w id -> kind_name c (w_round w) -> ~ is_broadcast w) ->
  Forall (fun x => exists pk, member_key E C (cu_id x) pk) cs ->
  bl_nodes (s_blame (run E C (tr ++ [LWork k (Some cs)]))) = bl_nodes (s_blame (run E C tr)) ++ nodes ->
  Forall no_evidence nodes.
Proof.
  intros Hd Hw Hn Hcs Hb. destruct (C183_culprits_are_blamed E C tr k j c cs Hd Hw Hcs) as (_ & (nodes' & Hb' & Hf) & _).
  rewrite Hb' in Hb. apply app_inv_head in Hb as ->.
  clear -Hf Hn. induction Hf as [|x n cs nodes (_ & [[H _]|(w & _ & (Hg & Hs & _) & Hb & Hk)]) _ IH]; constructor; auto.
  exfalso. exact (Hn w _ Hg Hs Hk Hb).
Qed.
Print Assumptions C184_no_evidence_without_broadcast.

(** The share of the second round of a key generation goes from one party to another;
    the node holds the guilty party's signature of it, and shows nothing. *)
Definition one_env : env := Env of_bytes
  (fun key data sig => bool_decide (sig = key ++ data))
  (fun b => Some [Bulk b "s" (Some (Routing (FId "1") [] (String.eqb (of_bytes b) "one")))])
  (fun b _ _ => Some (if String.eqb (of_bytes b) "one" then KGRound1Message else KGRound2Message1)) (fun k => Some (of_bytes k)) (fun _ => true).
Definition bad_one : list label :=
  [recv "p1" (share (toy_wire "1" false "KGRound2Message1" "two")); LLoop].
Theorem C184_bad_share_is_shown_refuted :
  exists E C tr k j w,
    share_waits E C tr k j KGRound2Message1 /\ goes_to_one KGRound2Message1 /\
    j_wire j = w /\ authentic E C (handled E C tr) w "1" /\ j_from j = "1"%string /\
    exists n, bl_nodes (s_blame (run E C (tr ++ [LWork k (Some [Culprit "1" true])]))) = [n] /\
      member_key E C "1" (n_pub n) /\ no_evidence n.
Proof.
  exists one_env, (toy_cfg 4 "p2"), bad_one, 0. eexists _, _.
  split; [split; [reflexivity|]; split; [vm_compute; reflexivity|]; split; [reflexivity|discriminate]|].
  split; [left; reflexivity|]. split; [reflexivity|]. split.
  { split.
    - exists "p1"%string. eexists. split; [exists [], [], []; eexists; split; [reflexivity|split; reflexivity]|]. left. eexists. reflexivity.
    - split; [eexists _, _; reflexivity|]. exists (to_bytes "1"). split; reflexivity. }
  split; [reflexivity|]. eexists. split; [vm_compute; reflexivity|]. split; [exists (to_bytes "1"); split; reflexivity|].
  split; reflexivity.
Qed.
Print Assumptions C184_bad_share_is_shown_refuted.

(** ** C185. The field is_broadcast of an answer does not say whether the bad share was a
    broadcast: it is false for a broadcast and true for a share sent to one party. *)
Theorem C185_is_broadcast_field_refuted :
  exists E C tr1 tr2 j1 j2,
    share_waits E C tr1 0 j1 KGRound1Message /\ ~ goes_to_one KGRound1Message /\
    member "is_broadcast" (blame_json (s_blame (run E C (tr1 ++ [LWork 0 (Some [Culprit "1" true])])))) (JBool false) /\
    share_waits E C tr2 0 j2 KGRound2Message1 /\ goes_to_one KGRound2Message1 /\
    member "is_broadcast" (blame_json (s_blame (run E C (tr2 ++ [LWork 0 (Some [Culprit "1" true])])))) (JBool true).
Proof.
  exists one_env, (toy_cfg 4 "p2"),
    [recv "p1" (share (toy_wire "1" true "KGRound1Message" "one")); recv "p3" (ver "1-KGRound1Message" "one"); LLoop], bad_one.
  eexists _, _.
  split; [split; [reflexivity|]; split; [vm_compute; reflexivity|]; split; [reflexivity|discriminate]|].
  split; [intros [H|[H|[H|[]]]]; discriminate|].
  split.
  { match goal with |- member _ (blame_json ?b) _ => assert (Hb : bl_unicast b = false) by (vm_compute; reflexivity);
      generalize dependent b end. intros b Hb. unfold blame_json. rewrite Hb.
    exists [("fail_reason"%string, JStr (bl_reason b))]. eexists. split; [reflexivity|].
    destruct (bl_nodes b); cbn; rewrite ?elem_of_cons, elem_of_nil; intuition discriminate. }
  split; [split; [reflexivity|]; split; [vm_compute; reflexivity|]; split; [reflexivity|discriminate]|].
  split; [left; reflexivity|].
  { match goal with |- member _ (blame_json ?b) _ => assert (Hb : bl_unicast b = true) by (vm_compute; reflexivity);
      generalize dependent b end. intros b Hb. unfold blame_json. rewrite Hb.
    exists [("fail_reason"%string, JStr (bl_reason b))]. eexists. split; [reflexivity|].
    destruct (bl_nodes b); cbn; rewrite ?elem_of_cons, elem_of_nil; intuition discriminate. }
Qed.
Print Assumptions C185_is_broadcast_field_refuted.
