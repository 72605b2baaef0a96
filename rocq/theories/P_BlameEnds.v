(** The blame of a ceremony that timed out: C207. *)
From Coq Require Import ZArith NArith Ascii String List Lia.
From stdpp Require Import base list strings gmap.
From Verif Require Import Base M_Conv M_Common M_Blame S_Blame P_Common P_Blame P_Timeout P_Reason P_BlameGrows.
Local Open Scope string_scope.
Local Open Scope list_scope.

Definition times_out_to E C local o s s' : Prop :=
  (exists last, keygenTimeout E C local last o s = Some s') \/ (exists last, keysignTimeout E C local last o s = Some s').

Lemma add_stays ns b : exists l, bl_nodes (AddBlameNodes ns b) = bl_nodes b ++ l.
Proof.
  cbn [AddBlameNodes bl_nodes]. generalize (bl_nodes b). induction ns as [|n ns IH]; intros a; [exists []; rewrite app_nil_r; reflexivity|].
  cbn [fold_left]. destruct (IH (add_node a n)) as [l ->]. unfold add_node. case_match; [exists l; reflexivity|].
  exists (n :: l). rewrite <- app_assoc. reflexivity.
Qed.
Lemma timeout_stays E C local around bround rounds o s s' :
  timeout_blame E C local around bround rounds o s = Some s' -> exists l, bl_nodes (s_blame s') = bl_nodes (s_blame s) ++ l.
Proof.
  unfold timeout_blame. destruct (nodes_of id (GetUnicastBlame _ _ _ _ _ _ _ _)) as [u|]; [|discriminate]. cbv zeta.
  match goal with |- context [set_blame (SetBlame ?r u true) s] => set (s1 := if (_ && _)%bool then set_blame (SetBlame r u true) s else s) end.
  assert (H1 : exists l, bl_nodes (s_blame s1) = bl_nodes (s_blame s) ++ l).
  { subst s1. destruct (_ && _)%bool; [exists u; reflexivity|exists []; rewrite app_nil_r; reflexivity]. }
  clearbody s1. destruct H1 as [l1 H1].
  destruct (nodes_of id (GetBroadcastBlame _ _ _ _ _ _ _)) as [b|]; [|discriminate].
  assert (H2 : exists l, bl_nodes (s_blame (set_blame (AddBlameNodes b) s1)) = bl_nodes (s_blame s) ++ l).
  { destruct (add_stays b (s_blame s1)) as [l2 H2]. exists (l1 ++ l2). cbn [set_blame s_blame]. rewrite H2, H1, <- app_assoc. reflexivity. }
  set (s2 := set_blame (AddBlameNodes b) s1) in *. clearbody s2. destruct H2 as [l2 H2].
  destruct (bl_nodes (s_blame s2)) as [|n ns] eqn:Hn; [|intros [= <-]; exists l2; rewrite Hn; exact H2].
  destruct (TssMissingShareBlame _ _ _ _ _ _ _ _) as [[m uni]|e|]; [|intros [= <-]; exists l2; rewrite Hn; exact H2|discriminate].
  destruct (_ && _)%bool; intros [= <-]; [|exists l2; rewrite Hn; exact H2].
  symmetry in H2. apply app_eq_nil in H2 as [-> _]. eexists. reflexivity.
Qed.

(** After a timeout too, the nodes blamed before are still there, first and in order; if
    there were any, or a reason was given, the reason is still the one given then. The reason
    is one of three texts or empty. *)
Theorem C207_after_a_timeout E C tr local o s' :
  times_out_to E C local o (run E C tr) s' ->
  let b := s_blame (run E C tr) in
  let b' := s_blame s' in
  (exists l, bl_nodes b' = bl_nodes b ++ l) /\
  (bl_reason b = "hash check failed" \/ bl_reason b = "tss share verification failed" -> bl_reason b' = bl_reason b) /\
  (bl_nodes b <> [] -> bl_reason b' = "hash check failed" \/ bl_reason b' = "tss share verification failed") /\
  (bl_reason b' = "" \/ bl_reason b' = "Tss timeout" \/ bl_reason b' = "hash check failed" \/ bl_reason b' = "tss share verification failed").
Proof.
  intros H. cbv zeta. pose proof (C207_blamed_with_a_reason E C tr) as Hr. cbv zeta in Hr. revert Hr H.
  generalize (run E C tr). intros s Hr H.
  assert (G : (exists l, bl_nodes (s_blame s') = bl_nodes (s_blame s) ++ l) /\
              (bl_reason (s_blame s) <> "" -> bl_reason (s_blame s') = bl_reason (s_blame s)) /\
              (bl_reason (s_blame s) = "" -> bl_reason (s_blame s') = "Tss timeout" \/ bl_reason (s_blame s') = "")).
  { destruct H as [[[ty|] H]|[[[ty bc]|] H]]; try discriminate.
    - split; [eapply timeout_stays; exact H|]. apply timeout_reason in H as [H1 H2]. split; [exact H1|]. intros H0. destruct (H2 H0); tauto.
    - injection H as <-. split; [exists []; rewrite app_nil_r; reflexivity|tauto].
    - split; [eapply timeout_stays; exact H|]. apply timeout_reason in H as [H1 H2]. split; [exact H1|]. intros H0. destruct (H2 H0); tauto. }
  destruct G as (Gn & Gk & Ge). split; [exact Gn|].
  destruct Hr as [[Hr Hn]|[Hr|Hr]].
  - rewrite Hr in *. split; [intros [?|?]; discriminate|]. split; [intros N; contradiction|]. destruct (Ge eq_refl); auto.
  - rewrite Hr in *. rewrite (Gk ltac:(discriminate)). tauto.
  - rewrite Hr in *. rewrite (Gk ltac:(discriminate)). tauto.
Qed.
Print Assumptions C207_after_a_timeout.

(** *** A concrete case: the hash check of party 1's message failed, then time is up *)
Example C207_timeout_case : exists s',
  times_out_to toy_env (toy_cfg 5 "p2") "2" b_orders (run toy_env (toy_cfg 5 "p2") hash_fails) s' /\
  bl_nodes (s_blame (run toy_env (toy_cfg 5 "p2") hash_fails)) <> [] /\ bl_reason (s_blame s') = "hash check failed".
Proof.
  assert (H : (fun s => bl_reason (s_blame s)) <$> keygenTimeout toy_env (toy_cfg 5 "p2") "2" (Some "KGRound1Message") b_orders
    (run toy_env (toy_cfg 5 "p2") hash_fails) = Some "hash check failed") by (vm_compute; reflexivity).
  destruct (keygenTimeout _ _ _ _ _ _) as [s'|] eqn:Hk in H; [|discriminate]. injection H as H.
  exists s'. split; [left; eauto|]. split; [vm_compute; discriminate|exact H].
Qed.
