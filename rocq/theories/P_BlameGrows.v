(** What a step of a ceremony does to the blame: C207. *)
From Coq Require Import ZArith Ascii String List Lia.
From stdpp Require Import base list strings gmap.
From Verif Require Import Base L_Base S_Threshold M_Common S_Common L_Common P_Common.

(** Nothing is blamed, or at most one node is, for a failed hash check. *)
Definition hash_blame (b b' : blame) : Prop :=
  b' = b \/
  bl_reason b' = "hash check failed"%string /\ exists l, bl_nodes b' = bl_nodes b ++ l /\ length l <= 1.

Lemma updateLocal_blame E C w key s : s_blame (fst (updateLocal E C w key s)) = s_blame s.
Proof. unfold updateLocal, SetLastUnicastPeer. repeat case_match; reflexivity. Qed.
Lemma request_blame peers msg rq s : s_blame (fst (processRequestMsgFromPeer peers msg rq s)) = s_blame s.
Proof. unfold processRequestMsgFromPeer, send. repeat case_match; reflexivity. Qed.
Lemma requestShare_blame E ord votes th key t s : s_blame (fst (requestShareFromPeer E ord votes th key t s)) = s_blame s.
Proof. unfold requestShareFromPeer. cbv zeta. repeat case_match; try rewrite request_blame; reflexivity. Qed.
Lemma applyShare_blame E C o1 o2 it w owner bc key t s :
  hash_blame (s_blame s) (s_blame (fst (applyShare E C o1 o2 it w owner bc key t s))).
Proof.
  unfold applyShare. cbv zeta. destruct (hashCheck C o1 it owner (cf_threshold C)) as [r it1].
  assert (G : hash_blame (s_blame s) (s_blame (fst match TssWrongShareBlame E C owner with
        | None => (set_blame (SetBlame HashCheckFail [] (negb bc)) (set_cache (<[key := it1]>) s), RErr "error in getting the blame nodes")
        | Some pk => (set_blame (SetBlame HashCheckFail [Node pk (w_body w) (w_sig w)] (negb bc)) (set_cache (<[key := it1]>) s), RErr "error in processing hash check")
        end))).
  { destruct (TssWrongShareBlame E C owner); right; (split; [reflexivity|]); eexists; (split; [reflexivity|]); cbn; lia. }
  destruct r; try exact G; left; [rewrite updateLocal_blame|cbn [fst]|rewrite requestShare_blame]; reflexivity.
Qed.
Lemma processVerMsg_blame E C o1 o2 peer v t s :
  hash_blame (s_blame s) (s_blame (fst (processVerMsg E C o1 o2 peer v t s))).
Proof.
  unfold processVerMsg. cbv zeta.
  match goal with |- context [match it_msg (Item ?a ?b ?c) with _ => _ end] => generalize (Item a b c) end. intros it.
  match goal with |- context [set_cache ?f s] => set (s2 := set_cache f s); change (s_blame s) with (s_blame s2) end. clearbody s2.
  destruct (it_msg it) as [w|]; [|left; apply requestShare_blame].
  destruct (w_routing w) as [[[| |owner] to bc]|]; try (left; reflexivity). apply applyShare_blame.
Qed.
Lemma receiver_blame E C w owner t s : s_blame (receiverBroadcastHashToPeers E C w owner t s) = s_blame s.
Proof. unfold receiverBroadcastHashToPeers, send. cbv zeta. repeat case_match; reflexivity. Qed.
Lemma processTSSMsg_blame E C o1 o2 w t fwd s :
  hash_blame (s_blame s) (s_blame (fst (processTSSMsg E C o1 o2 w t fwd s))).
Proof.
  unfold processTSSMsg. cbv zeta. destruct (w_routing w) as [[[| |owner] to bc]|]; try (left; reflexivity).
  destruct (cf_parties C !! owner); [|left; reflexivity]. destruct (verifySignature _ _ _ _ _); [|left; reflexivity].
  destruct bc; [|left; apply updateLocal_blame].
  set (s1 := if fwd then s else receiverBroadcastHashToPeers E C w owner t s).
  assert (H1 : s_blame s1 = s_blame s) by (subst s1; destruct fwd; [reflexivity|apply receiver_blame]).
  clearbody s1. rewrite <- H1. clear H1.
  match goal with |- context [set_cache ?f s1] => set (s2 := set_cache f s1); change (s_blame s1) with (s_blame s2) end.
  clearbody s2.
  match goal with |- context [match it_msg (Item ?a ?b ?c) with _ => _ end] => generalize (Item a b c) end.
  intros it. destruct (it_msg it) as [w'|]; [|left; reflexivity].
  destruct (w_routing w') as [[[| |owner'] to' bc']|]; try (left; reflexivity). apply applyShare_blame.
Qed.
Lemma one_message_blame E C o1 o2 m peer s :
  hash_blame (s_blame s) (s_blame (fst (ProcessOneMessage E C o1 o2 m peer s))).
Proof.
  unfold ProcessOneMessage. cbv zeta. destruct m as [t [w|]|t [v|]|[[]|]|[c|]| |]; try (left; reflexivity).
  - apply processTSSMsg_blame.
  - repeat case_match; try (left; reflexivity); apply processVerMsg_blame.
  - repeat case_match; left; reflexivity.
  - destruct (c_msg c) as [w|].
    + case_match; [|left; reflexivity].
      match goal with |- context [processTSSMsg ?E ?C ?o1 ?o2 ?w ?t ?f ?s'] => exact (processTSSMsg_blame E C o1 o2 w t f s') end.
    + case_match; left; [apply request_blame|reflexivity].
Qed.
Lemma update_one_blame E C b rest key w s : s_blame (fst (update_one E C b rest key w s)) = s_blame s.
Proof. unfold update_one. repeat case_match; reflexivity. Qed.
Lemma keys_length E C ids l : AccPubKeysFromPartyIDs E C ids = Some l -> length l = length ids.
Proof.
  revert l. induction ids as [|id ids IH]; cbn; intros l H; [injection H as <-; reflexivity|].
  repeat case_match; try discriminate. injection H as <-. cbn. f_equal. apply IH. reflexivity.
Qed.

(** ** C207. A step leaves the blame as it is, or appends to the nodes and gives the reason
    for what it did: a message was handled and a hash check failed, then one node is named
    at most; or the library rejected a share, then none is named or as many as it found
    guilty. *)
Theorem C207_a_step_and_the_blame E C tr l :
  let b := s_blame (run E C tr) in
  let b' := s_blame (run E C (tr ++ [l])) in
  b' = b \/
  (exists o1 o2 p m, l = LRecv o1 o2 p m) /\ bl_reason b' = "hash check failed"%string /\
    (exists ns, bl_nodes b' = bl_nodes b ++ ns /\ length ns <= 1) \/
  (exists k cs, l = LWork k (Some cs) /\ bl_reason b' = "tss share verification failed"%string /\
    exists ns, bl_nodes b' = bl_nodes b ++ ns /\ (ns = [] \/ length ns = length cs)).
Proof.
  cbv zeta. rewrite run_snoc. set (s := run E C tr). clearbody s. unfold step. destruct (s_crash s); [left; reflexivity|].
  destruct l as [o1 o2 p m| | |k res|k].
  - destruct (s_cur s); [left; reflexivity|].
    destruct (one_message_blame E C o1 o2 m p s) as [H|[Hr Hn]]; [left; exact H|]. right. left. split; [eauto|]. auto.
  - left. repeat case_match; try reflexivity. apply update_one_blame.
  - left. unfold update_finish. repeat case_match; reflexivity.
  - unfold work. destruct (s_pending s !! k) as [j|]; [|left; reflexivity]. cbv zeta.
    destruct (GetMsgRound _ _ _ _ _) as [r|]; [|left; reflexivity]. destruct res as [cs|]; [|left; reflexivity].
    right. right. exists k, cs. split; [reflexivity|]. unfold processInvalidMsgBlame. cbv zeta.
    destruct (AccPubKeysFromPartyIDs E C (map cu_id cs)) as [pks|] eqn:Ha; (split; [reflexivity|]); eexists; (split; [reflexivity|]); [right|left; reflexivity].
    apply keys_length in Ha. rewrite map_length in Ha. rewrite zip_with_length. lia.
  - left. unfold accept, UpdateAcceptShare. repeat case_match; reflexivity.
Qed.
Print Assumptions C207_a_step_and_the_blame.

(** Hence at every moment of a ceremony, before a timeout, the reason is one of the two
    texts or empty, and whoever is blamed is blamed with a reason. *)
Theorem C207_blamed_with_a_reason E C tr :
  let b := s_blame (run E C tr) in
  (bl_reason b = "" /\ bl_nodes b = [] \/ bl_reason b = "hash check failed" \/ bl_reason b = "tss share verification failed")%string.
Proof.
  cbv zeta. induction tr as [|l tr IH] using rev_ind; [left; split; reflexivity|].
  destruct (C207_a_step_and_the_blame E C tr l) as [->|[(_ & H & _)|(k & cs & _ & H & _)]]; auto.
Qed.
Print Assumptions C207_blamed_with_a_reason.

(** Nobody who was blamed is taken off the list. *)
Theorem C207_the_blamed_stay E C tr tr' :
  exists ns, bl_nodes (s_blame (run E C (tr ++ tr'))) = bl_nodes (s_blame (run E C tr)) ++ ns.
Proof.
  induction tr' as [|l tr' (ns & IH)] using rev_ind; [exists []; rewrite !app_nil_r; reflexivity|]. rewrite app_assoc.
  destruct (C207_a_step_and_the_blame E C (tr ++ tr') l) as [->|[(_ & _ & ms & -> & _)|(k & cs & _ & _ & ms & -> & _)]];
    [exists ns; exact IH| |]; exists (ns ++ ms); rewrite IH, app_assoc; reflexivity.
Qed.
Print Assumptions C207_the_blamed_stay.

(** *** A concrete case: two unrelated reports, and a rejected share *)
Definition hash_fails : list label :=
  [recv "p1" (share (toy_wire "1" true "KGRound1Message" "good1"));
   recv "p3" (ver "1-KGRound1Message" "x"); recv "p4" (ver "1-KGRound1Message" "y")].
Definition share_fails : list label :=
  [recv "p1" (share (toy_wire "1" true "KGRound1Message" "good1"));
   recv "p3" (ver "1-KGRound1Message" "good1"); LLoop; LWork 0 (Some [Culprit "1" true])].
Example C207_case :
  (bl_reason (s_blame (run toy_env (toy_cfg 5 "p2") hash_fails)) = "hash check failed" /\
   length (bl_nodes (s_blame (run toy_env (toy_cfg 5 "p2") hash_fails))) = 1 /\
   bl_reason (s_blame (run toy_env (toy_cfg 4 "p2") share_fails)) = "tss share verification failed" /\
   length (bl_nodes (s_blame (run toy_env (toy_cfg 4 "p2") share_fails))) = 1)%string.
Proof. vm_compute. repeat split. Qed.
