(** Vocabulary for the properties of keys as text, points and peer ids. *)
From Coq Require Import ZArith NArith Ascii String List.
From stdpp Require Import base list strings.
From Verif Require Import Base.

(** A point of secp256k1: y^2 = x^3 + 7 modulo the prime of its field. *)
Definition field_prime : Z := 2 ^ 256 - 2 ^ 32 - 977.
Definition curve_point (x y : Z) : Prop :=
  (0 <= x < field_prime /\ 0 <= y < field_prime /\ (field_prime | y * y - (x * x * x + 7)))%Z.
(** A public key of 33 bytes: the parity of y, then x. *)
Definition encodes (key : bytes) (x y : Z) : Prop :=
  exists f r, key = f :: r /\ length r = 32 /\ be_val r = Z.to_N x /\ byte_val f = (if Z.odd y then 3 else 2)%N.

(** A public key of 65 bytes: x and y in full. The first byte is 4 or 5, or else 6 or 7
    by the parity of y. *)
Definition encodes_long (key : bytes) (x y : Z) : Prop :=
  exists f rx ry, key = f :: rx ++ ry /\ length rx = 32 /\ length ry = 32 /\
    be_val rx = Z.to_N x /\ be_val ry = Z.to_N y /\
    (byte_val f = 4 \/ byte_val f = 5 \/ byte_val f = if Z.odd y then 7 else 6)%N.

(** The same text with small letters instead of capital letters *)
Definition small_letter (c d : ascii) : Prop :=
  ((65 <= byte_val c <= 90 -> byte_val d = byte_val c + 32) /\ (~ 65 <= byte_val c <= 90 -> d = c))%N.
Definition small_letters (k l : string) : Prop := Forall2 small_letter (to_bytes k) (to_bytes l).

(** In how many places two texts differ *)
Fixpoint differences (a b : bytes) : nat :=
  match a, b with
  | c :: a, d :: b => (if Ascii.eqb c d then 0 else 1) + differences a b
  | _, _ => 0
  end.
