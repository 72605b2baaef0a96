(** Specification of the threshold: the smallest integer not below 2n/3, minus
    one, in plain integer arithmetic. *)
From Coq Require Import ZArith.

(** [t] is ceil(2n/3) - 1. *)
Definition threshold_is (n t : Z) : Prop :=
  (3 * t < 2 * n /\ 2 * n <= 3 * (t + 1))%Z.

(** The same, computed; used by the models of the code that calls GetThreshold. *)
Definition threshold_of (n : Z) : Z := ((2 * n + 2) / 3 - 1)%Z.
