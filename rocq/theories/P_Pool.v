(** C179, C180: a signing request on all the nodes of a pool. *)
From Coq Require Import ZArith NArith Ascii String List Lia.
From stdpp Require Import base sets list strings sorting.
From Verif Require Import Base L_Base M_Conv M_Semver M_Server M_Base64 M_Batch S_Batch L_Batch
  M_Notifier S_Notifier M_Join M_Common M_Blame M_KeySign S_KeySign L_KeySign M_Proto S_Proto L_Proto P_Proto
  M_Pool S_Pool L_Pool L_Pool2 L_Pool3 P_KeySign.

(** ** C179 *)

(** Whatever happens, also with lost notifications, timeouts and failed ceremonies:
    the signatures of an answer were produced by the ceremony of some node for the
    same request - this node, or one that told it. *)
Theorem C179_signatures_come_from_some_node E J ok lossy tr air q r er :
  pool_run E J ok lossy tr air -> intact E J tr -> oldJoinParty (sj_version (J q)) <> None ->
  k_result (at_node E J tr q) = Some (r, er) -> rp_sigs r <> [] ->
  exists p endCh d rest, (p, KGSigned (CEnd endCh)) ∈ tr /\ endCh ≡ₚ d ++ rest /\ carries (sj_msgs (J q)) d r /\
    sj_id (J p) = sj_id (J q) /\ (p = q \/ exists ps, pool_peers (E p) (J p) ps /\ q ∈ ps /\ q <> se_self (E p)).
Proof.
  intros Hr Hi Hv Hres Hne.
  assert (Hfrom : forall p d ps, (Some d, ps) ∈ k_bcasts (at_node E J tr p) ->
    exists endCh rest, (p, KGSigned (CEnd endCh)) ∈ tr /\ endCh ≡ₚ d ++ rest).
  { intros p d ps Hin. destruct (C101_signatures_come_from_the_ceremony _ _ _ _ _ Hin) as (endCh & rest & Hl & Hp).
    apply mine_in in Hl. eauto. }
  destruct (result_cases _ _ _ _ _ Hres) as (w & gr & ge & Hw & Hg & Heq). destruct w as [w|].
  - injection Heq as -> ->. destruct (waited_for (E q) (J q) (mine q tr) w) as (d & Hd & (Hdn & _) & Hc); [right; exact Hw|].
    apply mine_in in Hd. destruct (data_origin _ _ _ _ _ _ Hr Hi q d Hd Hdn) as (p & ps & Hb & Hq & Hs & Hid).
    destruct (Hfrom p d ps Hb) as (endCh & rest & Hin & Hp). exists p, endCh, d, rest.
    split; [exact Hin|]. split; [exact Hp|]. split; [exact Hc|]. split; [exact Hid|]. right. exists ps.
    split; [apply (C101_broadcasts _ _ _ _ _ Hb)|]. split; assumption.
  - destruct (C99_answers _ _ _ _ _ Hv Hres) as (_ & [(d & Hd & Hc)|[(-> & _)|(_ & Ho)]]); [|destruct Hne; reflexivity|].
    + (* the answer is the node's own *)
      pose proof (ki_g _ _ _ (krun_inv (E q) (J q) (mine q tr))) as Hgi. unfold g_inv in Hgi.
      fold (at_node E J tr q) in Hg. unfold at_node in Hg. rewrite Hg in Hgi. destruct ge.
      * injection Heq as -> ->. inversion Hgi as [l ps r' Hp Hl Hc' Hj Hb|b ps Hp Hj Hb|b ps Hp Hjb Hj Hb|onl Hx Hj Hb|Hx Hj Hb|p k ps Hp Hk Hk' Hj Hb];
          subst; try (destruct Hne; reflexivity).
        destruct (Hfrom q l ps) as (endCh & rest & Hin & Hp'); [unfold at_node; rewrite <- Hb; left|].
        exists q, endCh, l, rest. auto 6.
      * injection Heq as -> ->. destruct Hne. reflexivity.
      * injection Heq as -> ->. destruct Hne. reflexivity.
      * destruct Hgi as [Hgi _]. contradiction.
    + inversion Ho as [l ps r' Hp Hl Hc' Hj Hb|b ps Hp Hj Hb|b ps Hp Hjb Hj Hb|onl Hx Hj Hb|Hx Hj Hb|p k ps Hp Hk Hk' Hj Hb];
        subst; try (destruct Hne; reflexivity).
      destruct (Hfrom q l ps) as (endCh & rest & Hin & Hp'); [unfold at_node; rewrite <- Hb; left|].
      exists q, endCh, l, rest. auto 6.
Qed.
Print Assumptions C179_signatures_come_from_some_node.

(** ** C180 *)

Section C180.
  Context (E : string -> senv) (J : string -> sjob) (sha : bytes -> string) (keys peers : list string).
  Context (pool : string) (strs signers : list string) (h : Z) (v : string) (ms : list bytes).
  Context (party : list string) (l : list ecsig).

  (** Everything the theorems below suppose: one request; signatures for its
      messages that can be sent; a party of members of the pool that, where the
      request names the signers, are named. *)
  Definition signing_pool : Prop :=
    one_request E J sha keys peers pool strs signers h v /\ payloads strs ms /\
    signature_set E peers pool ms l /\ readable E J peers l /\
    party <> [] /\ (forall q, q ∈ party -> q ∈ peers /\ listed (E q) (J q)).

  Context (H : signing_pool).
  Notation run := (pool_run E J (goes_well E J peers party l) False).

  (** Every node that answers, member of the party or not, answers with the
      signatures. *)
  Theorem C180_right_answers tr air q r er :
    run tr air -> q ∈ peers -> k_result (at_node E J tr q) = Some (r, er) ->
    er = GNone /\ signed_answer (E q) pool ms l r.
  Proof.
    destruct H as (H1 & H2 & H3 & H4 & H5 & H6). intros Hr Hq Hres.
    destruct (pool_answer E J sha keys peers pool strs signers h v ms party l H1 H2 H3 H4
      (fun q Hq => proj1 (H6 q Hq)) (fun q Hq => proj2 (H6 q Hq)) tr air q r er Hr Hq Hres) as [He Hg].
    split; [exact He|]. apply (good_answer E J sha keys peers pool strs signers h v ms party l H1 H2 H3 (fun q Hq => proj1 (H6 q Hq)) (fun q Hq => proj2 (H6 q Hq)) q r Hq Hg).
  Qed.

  (** While a node has not answered, some node of the pool can go on. *)
  Theorem C180_never_stuck tr air q :
    run tr air -> q ∈ peers -> k_result (at_node E J tr q) = None ->
    exists p lab air', run (tr ++ [(p, lab)]) air' /\ p ∈ peers /\ at_node E J (tr ++ [(p, lab)]) p <> at_node E J tr p.
  Proof.
    destruct H as (H1 & H2 & H3 & H4 & H5 & H6). intros Hr Hq Hres.
    destruct (pool_progress E J sha keys peers pool strs signers h v ms party l H1 H2 H3 H4 H5
      (fun q Hq => proj1 (H6 q Hq)) (fun q Hq => proj2 (H6 q Hq)) tr air q Hr Hq Hres) as (p & lab & air' & Hr' & Hp & Hst).
    exists p, lab, air'. split; [exact Hr'|]. split; [exact Hp|]. rewrite at_node_same. exact Hst.
  Qed.

  (** Wherever the run is, it can be completed: all the nodes answer. *)
  Theorem C180_always_finishes tr air :
    run tr air -> exists tr' air', run (tr ++ tr') air' /\
      forall q, q ∈ peers -> exists r, k_result (at_node E J (tr ++ tr') q) = Some (r, GNone) /\ signed_answer (E q) pool ms l r.
  Proof.
    pose proof H as (H1 & H2 & H3 & H4 & H5 & H6). intros Hr.
    destruct (pool_finishes E J sha keys peers pool strs signers h v ms party l H1 H2 H3 H4 H5
      (fun q Hq => proj1 (H6 q Hq)) (fun q Hq => proj2 (H6 q Hq)) tr air Hr) as (tr' & air' & Hr' & Hall).
    exists tr', air'. split; [exact Hr'|]. intros q Hq.
    destruct (k_result (at_node E J (tr ++ tr') q)) as [[r er]|] eqn:Hres; [|destruct (Hall q Hq Hres)].
    destruct (C180_right_answers _ _ _ _ _ Hr' Hq Hres) as [-> Ha]. eauto.
  Qed.

  (** When the messages have different integers the nodes all answer the same. *)
  Theorem C180_same_answer tr air q q' r r' er er' :
    NoDup (MsgToHashInt <$> ms) -> run tr air -> q ∈ peers -> q' ∈ peers ->
    k_result (at_node E J tr q) = Some (r, er) -> k_result (at_node E J tr q') = Some (r', er') -> r = r'.
  Proof.
    intros Hnd Hr Hq Hq' Hres Hres'. pose proof H as (H1 & H2 & H3 & H4 & H5 & H6).
    assert (Hl : forall q, q ∈ party -> listed (E q) (J q)) by (intros x Hx; apply (H6 x Hx)).
    assert (Hs : forall q, q ∈ party -> q ∈ peers) by (intros x Hx; apply (H6 x Hx)).
    destruct (pool_answer E J sha keys peers pool strs signers h v ms party l H1 H2 H3 H4 Hs Hl tr air q r er Hr Hq Hres)
      as [_ (d & Hd & S1 & S2 & S3 & S4)].
    destruct (pool_answer E J sha keys peers pool strs signers h v ms party l H1 H2 H3 H4 Hs Hl tr air q' r' er' Hr Hq' Hres')
      as [_ (d' & Hd' & T1 & T2 & T3 & T4)].
    destruct (same_id E J sha keys peers pool strs signers h v H1 q q' Hq Hq') as [_ Hm].
    destruct (the_nodes E J sha keys peers pool strs signers h v ms party l H1 H2 H3 Hl q Hq) as ([] & _ & Hms & _).
    assert (Hv : (fun g => be_val (sg_M g)) <$> d = MsgToHashInt <$> sj_msgs (J q)) by (apply (good_values (J q) l); assumption).
    assert (Hv' : (fun g => be_val (sg_M g)) <$> d' = MsgToHashInt <$> sj_msgs (J q)) by (apply (good_values (J q) l); assumption).
    assert (Hdd : d = d').
    { apply list_eq. intros k.
      assert (Hk : ((fun g => be_val (sg_M g)) <$> d) !! k = ((fun g => be_val (sg_M g)) <$> d') !! k) by (rewrite Hv, Hv'; reflexivity).
      rewrite !list_lookup_fmap in Hk. destruct (d !! k) as [g|] eqn:Hg, (d' !! k) as [g'|] eqn:Hg'; try discriminate; [|reflexivity].
      cbn in Hk. injection Hk as Hk. f_equal.
      assert (Hin : g' ∈ d).
      { rewrite (proj1 Hd), <- (proj1 Hd'). apply (elem_of_list_lookup_2 _ _ _ Hg'). }
      apply elem_of_list_lookup in Hin as [i Hi].
      assert (Hn : NoDup ((fun g => be_val (sg_M g)) <$> d)).
      { rewrite Hv. rewrite (fmap_Permutation MsgToHashInt _ _ Hms). exact Hnd. }
      assert (i = k) as ->; [|congruence].
      apply (NoDup_lookup _ i k (be_val (sg_M g')) Hn); rewrite list_lookup_fmap; [rewrite Hi; reflexivity|rewrite Hg; cbn; congruence]. }
    subst d'. destruct r as [rs st bl], r' as [rs' st' bl']. cbn in *. subst. f_equal.
    apply list_eq. intros k. destruct (rs !! k) as [x|] eqn:Hx.
    - destruct (S4 k x Hx) as (m & g & A1 & A2 & ->).
      destruct (rs' !! k) as [x'|] eqn:Hx'; [|apply lookup_ge_None in Hx'; apply lookup_lt_Some in Hx; lia].
      destruct (T4 k x' Hx') as (m' & g' & B1 & B2 & ->). rewrite <- Hm in B1. congruence.
    - apply lookup_ge_None in Hx. symmetry. apply lookup_ge_None. lia.
  Qed.
End C180.
Print Assumptions C180_right_answers.
Print Assumptions C180_never_stuck.
Print Assumptions C180_always_finishes.
Print Assumptions C180_same_answer.

(** The notifications are protocol buffers (M_Proto): signatures that tss-lib made
    can be written and read back, so that the supposition holds on the wire. *)
Theorem C180_readable_on_the_wire E J peers l id point verify :
  (forall p, p ∈ peers -> se_n (E p) = proto_env (point p) (verify p) /\ sj_id (J p) = id) ->
  text id -> sized (to_bytes id) -> Forall sized_sig l -> Forall made l -> readable E J peers l.
Proof.
  intros Hn Ht Hs Hz Hm. split.
  - intros p q d Hp Hq Hd. destruct (Hn p Hp) as [-> ->]. destruct (Hn q Hq) as [-> _].
    assert (Hz' : Forall sized_sig d) by (rewrite Hd; exact Hz).
    assert (Hm' : Forall made d) by (rewrite Hd; exact Hm).
    destruct (marshal_sigs_ok (point p) (verify p) d Hz' Hm') as (bs & Hb & HF & H2).
    destruct (notify_roundtrip (KsMsg id bs true) Ht Hs HF) as (b & Hb' & Hu).
    exists b. split; [unfold notification; rewrite Hb; exact Hb'|].
    unfold decode_notification. cbn [ne_unmarshal proto_env]. rewrite Hu. cbn [km_sigs km_success km_id].
    destruct bs as [|b0 bs]; [inversion H2; reflexivity|]. cbn [length Nat.ltb Nat.leb andb].
    assert (Hun : forall bs d, Forall2 (fun b s => sig_unmarshal b = Some s) bs d -> unmarshal_sigs (proto_env (point q) (verify q)) bs = Some d).
    { clear. induction 1 as [|b s bs d Hbs HF IH]; [reflexivity|]. cbn [unmarshal_sigs ne_unmarshal_sig proto_env]. rewrite Hbs, IH. reflexivity. }
    rewrite (Hun _ _ H2). reflexivity.
  - intros p q b Hp Hq. destruct (Hn p Hp) as [-> ->]. destruct (Hn q Hq) as [-> _].
    destruct (notify_roundtrip (KsMsg id [] false) Ht Hs ltac:(constructor)) as (b' & Hb' & Hu).
    unfold notification. cbn [ne_marshal proto_env]. rewrite Hb'. intros [= <-].
    unfold decode_notification. cbn [ne_unmarshal proto_env]. rewrite Hu. reflexivity.
Qed.
Print Assumptions C180_readable_on_the_wire.

(** ** A pool *)

(** Three nodes; pa and pb sign the messages A and B, pc is told. *)
Definition pool_sig (b : bytes) : ecsig := EcSig (Some ["s"%char]) ["000"%char] b b b.
Definition pool_sha (b : bytes) : string := String "x" (of_bytes b).
Definition pool_node (p : string) : senv := {|
  se_sha := pool_sha;
  se_key := fun k => Some (to_bytes k);
  se_peer := fun b => Some (String "p" (of_bytes b));
  se_pub := fun p => match p with String "p" k => Some k | _ => None end;
  se_self := p;
  se_state := fun pool => Some (LState ["a"; "b"; "c"]%string match p with String _ k => k | _ => "" end);
  se_n := proto_env (fun _ => Some (1, 1)%N) (fun _ m r _ => N.eqb (be_val m) r) |}.
Definition pool_job (p : string) : sjob := the_job (pool_node p) req_msgs [] "0.14.0"%string.
Definition pool_all : list string := ["pa"; "pb"; "pc"]%string.
Definition pool_party : list string := ["pa"; "pb"]%string.
Definition pool_sigs : list ecsig := [pool_sig mA; pool_sig mB].

Lemma pool_job_prepared p : p ∈ pool_all -> prepare (pool_node p) "pool" req_msgs [] 10 "0.14.0" = inr (pool_job p).
Proof.
  intros Hp. repeat (apply elem_of_cons in Hp as [->|Hp]; [vm_compute; reflexivity|]). inversion Hp.
Qed.
Lemma pool_holds : signing_pool pool_node pool_job pool_sha ["a"; "b"; "c"]%string pool_all "pool" req_msgs [] 10 "0.14.0" [mA; mB] pool_party pool_sigs.
Proof.
  split; [|split; [|split; [|split; [|split]]]].
  - split; try discriminate; [intros k Hk; inversion Hk|].
    intros p Hp. pose proof (pool_job_prepared p Hp) as Hpre. split; [reflexivity|]. split; [reflexivity|]. split; [exact Hpre|].
    repeat (apply elem_of_cons in Hp as [->|Hp]; [split; [vm_compute; reflexivity|]; split; [repeat constructor|vm_compute; reflexivity]|]). inversion Hp.
  - repeat constructor.
  - split.
    + exists pool_sigs. split; [reflexivity|]. repeat constructor.
    + intros q g m Hq Hg Hm. repeat (apply elem_of_cons in Hg as [->|Hg]; [|try (inversion Hg; fail)]);
        repeat (apply elem_of_cons in Hm as [->|Hm]; [|try (inversion Hm; fail)]);
        intros Hv; try (vm_compute in Hv; discriminate); (split; [discriminate|]; exists (1, 1)%N; split; reflexivity).
  - apply (C180_readable_on_the_wire _ _ _ _ (sj_id (pool_job "pa")) (fun _ _ => Some (1, 1)%N) (fun _ _ m r _ => N.eqb (be_val m) r)).
    + intros p Hp. split; [reflexivity|]. repeat (apply elem_of_cons in Hp as [->|Hp]; [vm_compute; reflexivity|]). inversion Hp.
    + apply text_ok_iff. vm_compute. reflexivity.
    + vm_compute. reflexivity.
    + repeat constructor.
    + repeat constructor; (eexists; split; [reflexivity|discriminate]).
  - discriminate.
  - intros q Hq. repeat (apply elem_of_cons in Hq as [->|Hq]; [split; [unfold pool_all; set_solver|intros Ho; vm_compute in Ho; discriminate]|]). inversion Hq.
Qed.

(** The suppositions are met, and all three nodes answer in some run. *)
Example C180_case :
  exists tr air, pool_run pool_node pool_job (goes_well pool_node pool_job pool_all pool_party pool_sigs) False tr air /\
    forall q, q ∈ pool_all -> exists r, k_result (at_node pool_node pool_job tr q) = Some (r, GNone) /\
      signed_answer (pool_node q) "pool" [mA; mB] pool_sigs r.
Proof.
  destruct (C180_always_finishes _ _ _ _ _ _ _ _ _ _ _ _ _ pool_holds [] []) as (tr & air & Hr & Hall); [constructor|].
  exists tr, air. split; [exact Hr|exact Hall].
Qed.
Example C180_same_case : NoDup (MsgToHashInt <$> [mA; mB]).
Proof. vm_compute. repeat constructor; set_solver. Qed.

(** In it pc, outside the party, answers what it was told. *)
Example C179_case :
  exists tr air r er, pool_run pool_node pool_job (goes_well pool_node pool_job pool_all pool_party pool_sigs) False tr air /\
    intact pool_node pool_job tr /\ k_result (at_node pool_node pool_job tr "pc") = Some (r, er) /\ rp_sigs r <> [] /\
    oldJoinParty (sj_version (pool_job "pc")) <> None.
Proof.
  destruct C180_case as (tr & air & Hr & Hall). destruct (Hall "pc"%string) as (r & Hres & Hs & _ & pairs & Hp & _ & _ & Hrs); [unfold pool_all; set_solver|].
  exists tr, air, r, GNone. split; [exact Hr|]. split.
  - destruct pool_holds as (H1 & H2 & H3 & H4 & H5 & H6).
    apply (pinv_intact pool_node pool_job pool_sha ["a"; "b"; "c"]%string pool_all "pool" req_msgs [] 10 "0.14.0" [mA; mB] pool_party pool_sigs) with (air := air);
      try assumption; try (intros q Hq; apply (H6 q Hq)).
    apply (run_pinv pool_node pool_job pool_sha ["a"; "b"; "c"]%string pool_all "pool" req_msgs [] 10 "0.14.0" [mA; mB] pool_party pool_sigs H1 H2 H3 H4
      (fun q Hq => proj1 (H6 q Hq)) (fun q Hq => proj2 (H6 q Hq)) tr air Hr).
  - split; [exact Hres|]. split; [|vm_compute; discriminate].
    rewrite Hrs. destruct pairs as [|x pairs]; [apply Permutation_nil in Hp; discriminate|discriminate].
Qed.
