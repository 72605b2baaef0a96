(** The streams recorded under an id, and histories in which no stream is added under an
    id while a release of this id is in progress. *)
From Coq Require Import Ascii String List.
From stdpp Require Import base list strings gmap.
From Verif Require Import Base M_Comm M_Slices.

Definition recorded (id : string) (s : xstate) : list nat := contents (x_heap s) (x_map s !! id).
Definition in_progress (k : nat) (s : xstate) : Prop := exists c, x_calls s !! k = Some c.
Definition undisturbed (grow : nat -> nat) (ls : list xlabel) : Prop :=
  forall ls1 id st ls2 k c, ls = ls1 ++ XAdd id st :: ls2 ->
    x_calls (x_run grow ls1 x_init) !! k = Some c -> r_id c <> id.
