(** C161: what a ceremony stores on behalf of one peer is not bounded. *)
From Coq Require Import ZArith Ascii String List Lia.
From stdpp Require Import base list strings gmap.
From Verif Require Import Base L_Base M_Common S_Common L_Common L_Common2 L_Common3 L_Common4 L_Memory P_Common.

Definition junk_key (i : nat) : string := of_bytes (replicate i "x"%char).
Definition junk (p : string) (i : nat) : label :=
  LRecv [] [] p (MVer TSSKeyGenVerMsg (Some (Confirm "" (junk_key i) "h"))).
Lemma junk_no_dash i : no_dash (junk_key i).
Proof.
  unfold no_dash, junk_key. rewrite to_of_bytes. intros X. apply elem_of_replicate in X as [X _]. discriminate X.
Qed.
Lemma junk_inj i j : junk_key i = junk_key j -> i = j.
Proof.
  intros X. apply of_bytes_inj in X. apply (f_equal length) in X. rewrite !replicate_length in X. exact X.
Qed.

(** At any moment of any ceremony between two messages: any peer, member or not, can with
    [N] confirmations make the node hold at least [N] entries, and whatever happens
    afterwards they stay until the ceremony is over. *)
Theorem C161_memory_per_peer_refuted :
  forall E C tr p N,
    s_crash (run E C tr) = false -> s_cur (run E C tr) = None ->
    exists lbs,
      length lbs = N /\
      Forall (fun l => exists v, l = LRecv [] [] p (MVer TSSKeyGenVerMsg (Some v))) lbs /\
      s_crash (run E C (tr ++ lbs)) = false /\ s_cur (run E C (tr ++ lbs)) = None /\
      forall tr', N <= size (s_cache (run E C (tr ++ lbs ++ tr'))).
Proof.
  intros E C tr p N Hc Hu. exists (map (junk p) (seq 0 N)).
  split; [rewrite map_length, seq_length; reflexivity|]. split.
  { apply Forall_forall. intros l X. apply elem_of_list_In, in_map_iff in X as (i & <- & _). eexists. reflexivity. }
  assert (A : s_crash (run E C (tr ++ map (junk p) (seq 0 N))) = false /\
              s_cur (run E C (tr ++ map (junk p) (seq 0 N))) = None /\
              forall i, i < N -> is_Some (s_cache (run E C (tr ++ map (junk p) (seq 0 N))) !! junk_key i)).
  { induction N as [|N (IH1 & IH2 & IH3)]; [cbn; rewrite app_nil_r; split; [auto|split; [auto|intros i X; lia]]|].
    rewrite seq_S, map_app, app_assoc. cbn [Nat.add map].
    destruct (ver_step E C (tr ++ map (junk p) (seq 0 N)) [] [] p TSSKeyGenVerMsg (Confirm "" (junk_key N) "h")
                (junk_no_dash N) IH1 IH2) as (X1 & X2 & X3).
    fold (junk p N) in X1, X2, X3. split; [exact X1|]. split; [exact X2|].
    intros i L. destruct (decide (i = N)) as [->|Ne]; [exact X3|].
    apply run_keeps_key; [apply junk_no_dash|]. apply IH3. lia. }
  destruct A as (A1 & A2 & A3). split; [exact A1|]. split; [exact A2|].
  intros tr'. rewrite app_assoc.
  set (m := s_cache _).
  assert (X : (list_to_set (map junk_key (seq 0 N)) : gset string) ⊆ dom m).
  { intros k Y. apply elem_of_list_to_set, elem_of_list_In, in_map_iff in Y as (i & <- & Y). apply in_seq in Y.
    apply elem_of_dom. apply run_keeps_key; [apply junk_no_dash|]. apply A3. lia. }
  apply subseteq_size in X. rewrite size_dom in X. etransitivity; [|exact X].
  rewrite size_list_to_set.
  - rewrite map_length, seq_length. reflexivity.
  - clear. change (map junk_key (seq 0 N)) with (junk_key <$> seq 0 N). apply NoDup_fmap_2.
    + intros i j X. apply junk_inj, X.
    + apply NoDup_ListNoDup, seq_NoDup.
Qed.
Print Assumptions C161_memory_per_peer_refuted.

(** The hypotheses hold in the middle of a ceremony. *)
Example C161_example :
  let s := run toy_env (toy_cfg 4 "p2") [recv "p1" (share (toy_wire "1" true "KGRound1Message" "good1"))] in
  s_crash s = false /\ s_cur s = None /\
  size (s_cache (run toy_env (toy_cfg 4 "p2") (map (junk "mallory") (seq 0 3)))) = 3.
Proof. vm_compute. auto. Qed.
