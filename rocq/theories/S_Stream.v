(** The frame format: four bytes, little endian, giving the length, then the
    payload. *)
From Coq Require Import ZArith NArith Ascii String List.
From stdpp Require Import base list strings.
From Verif Require Import Base.

(** [h] is the little-endian base-256 representation of [n] in four bytes. *)
Definition header_of (n : N) (h : bytes) : Prop :=
  exists b0 b1 b2 b3, h = [b0; b1; b2; b3] /\
    n = (byte_val b0 + 256 * (byte_val b1 + 256 * (byte_val b2 + 256 * byte_val b3)))%N.

Definition frame (msg f : bytes) : Prop :=
  exists h, header_of (N.of_nat (length msg)) h /\ f = h ++ msg.

(** The most a reader accepts. *)
Definition limit : N := 20000000.
