(** Vocabulary for C15-C18, C72-C75. *)
From Coq Require Import Ascii String List.
From stdpp Require Import base list strings gmap.
From Verif Require Import Base.

(** Histories of subscriptions: type, message id, channel. *)
Inductive sub_op := Sub (t : nat) (m : string) (c : nat) | Cancel (t : nat) (m : string).

(** The channel most recently subscribed for exactly (t, m) and not cancelled since. *)
Inductive subscribed (t : nat) (m : string) : list sub_op -> nat -> Prop :=
  | sub_now h c : subscribed t m (h ++ [Sub t m c]) c
  | sub_other h t' m' c' c : (t', m') <> (t, m) -> subscribed t m h c -> subscribed t m (h ++ [Sub t' m' c']) c
  | sub_kept h t' m' c : (t', m') <> (t, m) -> subscribed t m h c -> subscribed t m (h ++ [Cancel t' m']) c.

(** Histories of the stream manager. *)
Inductive stream_op := Add (m : string) (st : option nat) | Release (m : string).

(** The streams recorded under [m] since its last release, oldest first. *)
Fixpoint recorded_acc (m : string) (h : list stream_op) (acc : list nat) : list nat :=
  match h with
  | [] => acc
  | Add m' (Some st) :: h' => recorded_acc m h' (if decide (m' = m) then acc ++ [st] else acc)
  | Add _ None :: h' => recorded_acc m h' acc
  | Release m' :: h' => recorded_acc m h' (if decide (m' = m) then [] else acc)
  end.
Definition recorded (m : string) (h : list stream_op) : list nat := recorded_acc m h [].
