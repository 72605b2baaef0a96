(** Vocabulary for the worker goroutines of [M_Workers]. *)
From Coq Require Import ZArith Ascii String List.
From stdpp Require Import base list.
From Verif Require Import Base M_Workers.

(** How many worker goroutines exist *)
Definition exists_still (w : wstat) : bool := match w with WIdle | WBusy _ => true | WEnded => false end.
Definition alive_in (c : call) : nat := length (List.filter exists_still (cl_workers c)).
Definition alive (s : wstate) : nat := list_sum (map alive_in s).

(** How many messages were refused *)
Definition refused (c : call) : bool := match cl_stat c with CFailed => true | _ => false end.
Definition refusals (s : wstate) : nat := length (List.filter refused s).

(** No message is being handled *)
Definition between_messages (s : wstate) : Prop := Forall (fun c => cl_stat c = CDone \/ cl_stat c = CFailed) s.

(** [i] occurs [k] times *)
Definition occurrences (i : nat) (l : list nat) : nat := length (List.filter (Nat.eqb i) l).

Definition is_message (l : wlabel) : bool := match l with WCall _ => true | _ => false end.

(** Every step of [tr] does something, and none of them is a new message *)
Fixpoint busy_run (n : nat) (s : wstate) (tr : list wlabel) : Prop :=
  match tr with
  | [] => True
  | l :: tr' => is_message l = false /\ wstep n s l <> s /\ busy_run n (wstep n s l) tr'
  end.
(** Nothing can happen any more until the next message *)
Definition at_rest (n : nat) (s : wstate) : Prop :=
  forall l, is_message l = false -> wstep n s l = s.
