(** C108: what can be said instead: the messages of the local party are handled in their
    order, each once, and only those of the last moment can be left over. *)
From Coq Require Import NArith List Lia.
From stdpp Require Import base list.
From Verif Require Import Base M_Loop P_Loop.

(** The messages the local party has produced, in their order. *)
Definition produced {M A} (ls : list (llabel M A)) : list M :=
  flat_map (fun x => match x with LEmit m => [m] | _ => [] end) ls.

Theorem C108_in_order {M A} T need (ls : list (llabel M A)) :
  produced ls = l_sent (lrun T need ls) ++ l_out (lrun T need ls).
Proof.
  unfold produced. induction ls as [|x ls IH] using rev_ind; [reflexivity|]. rewrite lrun_snoc, flat_map_app, IH.
  set (s := lrun T need ls). destruct x; cbn [flat_map app lstep l_sent l_out]; rewrite ?app_nil_r; try reflexivity;
    try (rewrite <- app_assoc; reflexivity); (destruct (l_res s); [reflexivity|]).
  - destruct (_ || _)%bool; reflexivity.
  - destruct (l_out s) as [|a r] eqn:Hs; [rewrite Hs, app_nil_r; reflexivity|]. cbn [l_sent l_out]. rewrite <- app_assoc. reflexivity.
  - destruct (l_end s); reflexivity.
  - destruct (l_err s); reflexivity.
  - destruct (l_quit s); reflexivity.
  - destruct (N.leb _ _); reflexivity.
Qed.
Print Assumptions C108_in_order.

(** Whenever time passes everything produced before has been handled. *)
Theorem C108_sent_when_time_passes {M A} T need (ls : list (llabel M A)) n :
  lrun T need (ls ++ [LTick n]) <> lrun T need ls ->
  l_sent (lrun T need ls) = produced ls.
Proof.
  intros H. rewrite (C108_in_order T need ls). rewrite lrun_snoc in H.
  destruct (l_res (lrun T need ls)) as [r|] eqn:Hr; [exfalso; apply H; cbn [lstep]; rewrite Hr; reflexivity|].
  destruct (ready (lrun T need ls)) eqn:E; [exfalso; apply H; cbn [lstep]; rewrite Hr, E; reflexivity|].
  apply ready_spec in E as [-> _]. rewrite app_nil_r. reflexivity.
Qed.
Print Assumptions C108_sent_when_time_passes.

(** Once the loop has ended nothing more is handled. *)
Theorem C108_after_the_end {M A} T need (ls ls' : list (llabel M A)) :
  l_res (lrun T need ls) <> None -> l_sent (lrun T need (ls ++ ls')) = l_sent (lrun T need ls).
Proof.
  intros H. assert (X : l_sent (lrun T need (ls ++ ls')) = l_sent (lrun T need ls) /\
                        l_res (lrun T need (ls ++ ls')) = l_res (lrun T need ls)); [|tauto].
  induction ls' as [|x ls' [I1 I2]] using rev_ind; [rewrite app_nil_r; auto|].
  rewrite app_assoc, lrun_snoc. destruct (l_res (lrun T need ls)) as [r|]; [|congruence].
  destruct x; cbn [lstep l_sent l_res]; auto; rewrite I2; auto.
Qed.
Print Assumptions C108_after_the_end.

Example C108_order_example :
  let ls : list (llabel nat nat) := [LEmit 1; LEmit 2; LTakeOut true; LTakeOut true; LTick 3; LEmit 3; LFinish 9; LTakeEnd] in
  produced ls = [1; 2; 3] /\ l_sent (lrun 5 1 ls) = [1; 2] /\ l_out (lrun 5 1 ls) = [3] /\
  l_res (lrun 5 1 ls) = Some (LDone [9]) /\
  l_clock (lrun 5 1 (take 5 ls)) <> l_clock (lrun 5 1 (take 4 ls)).
Proof. vm_compute. split; [reflexivity|]. split; [reflexivity|]. split; [reflexivity|]. split; [reflexivity|discriminate]. Qed.
