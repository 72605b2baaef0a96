(** Vocabulary for the private key input. *)
From Coq Require Import NArith Ascii String List.
From stdpp Require Import base list strings.
From Verif Require Import Base M_Base64.

(** The hexadecimal digits. *)
Definition digits : bytes := to_bytes "0123456789abcdef".
Definition digits_upper : bytes := to_bytes "0123456789ABCDEF".
Definition hex_digit_of (c : ascii) (n : nat) : Prop := digits !! n = Some c \/ digits_upper !! n = Some c.
(** A text spells bytes, two digits each, the higher one first. *)
Inductive spells : bytes -> bytes -> Prop :=
  | sp_nil : spells [] []
  | sp_byte c d x y text b : hex_digit_of c x -> hex_digit_of d y -> spells text b ->
      spells (c :: d :: text) (ascii_of_nat (x * 16 + y) :: b).
(** What the operator types for these bytes. *)
Definition typed (s : string) (b : bytes) : Prop := exists text, DecodeString s = Some text /\ spells text b.
(** The text is not of that kind. *)
Definition not_typed (s : string) : Prop := forall b, ~ typed s b.
(** Capacities the runtime may choose. *)
Definition runtime (cap : nat -> nat) : Prop := forall n, n <= cap n.
