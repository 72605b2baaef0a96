(** Property theorem C01: the threshold computed in float64 is exact. *)
From Coq Require Import ZArith Lia.
From Verif Require Import M_Threshold S_Threshold L_Threshold.
Local Open Scope Z_scope.

Theorem C01_threshold_exact :
  forall n,
    (n < 0 -> GetThreshold n = None) /\
    (0 <= n <= 2 ^ 50 ->
       exists t, GetThreshold n = Some t /\ threshold_is n t /\ (1 <= n -> 0 <= t < n)).
Proof.
  intros n. split.
  - intros H. unfold GetThreshold. destruct (Z.ltb_spec n 0); [reflexivity|lia].
  - intros H. exists (threshold_of n). split; [exact (GetThreshold_spec n H)|].
    pose proof (threshold_of_is n) as T. split; [exact T|]. unfold threshold_is in T. lia.
Qed.
Print Assumptions C01_threshold_exact.

(** The specification determines the threshold. *)
Theorem C01_threshold_unique :
  forall n t t', threshold_is n t -> threshold_is n t' -> t = t'.
Proof. exact threshold_is_unique. Qed.
Print Assumptions C01_threshold_unique.

Example C01_example :
  GetThreshold 4 = Some 2 /\ GetThreshold 6 = Some 3 /\ GetThreshold 100 = Some 66 /\
  GetThreshold (-1) = None.
Proof. repeat split; vm_compute; reflexivity. Qed.
