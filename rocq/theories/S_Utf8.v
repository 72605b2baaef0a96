(** Vocabulary for text: UTF-8 as in RFC 3629. *)
From Coq Require Import NArith Ascii String List.
From stdpp Require Import base list strings.
From Verif Require Import Base.

Local Open Scope N_scope.

Inductive utf8_char : bytes -> Prop :=
  | utf8_one c : byte_val c < 0x80 -> utf8_char [c]
  | utf8_two n a b : 0x80 <= n < 0x800 ->
      byte_val a = 0xC0 + n / 64 -> byte_val b = 0x80 + n mod 64 -> utf8_char [a; b]
  | utf8_three n a b c : 0x800 <= n < 0x10000 -> ~ (0xD800 <= n <= 0xDFFF) ->
      byte_val a = 0xE0 + n / 4096 -> byte_val b = 0x80 + n / 64 mod 64 -> byte_val c = 0x80 + n mod 64 ->
      utf8_char [a; b; c]
  | utf8_four n a b c d : 0x10000 <= n <= 0x10FFFF ->
      byte_val a = 0xF0 + n / 262144 -> byte_val b = 0x80 + n / 4096 mod 64 ->
      byte_val c = 0x80 + n / 64 mod 64 -> byte_val d = 0x80 + n mod 64 ->
      utf8_char [a; b; c; d].
Definition utf8_text (b : bytes) : Prop := exists l, b = concat l /\ Forall utf8_char l.
Definition text (s : string) : Prop := utf8_text (to_bytes s).

(** The code point a character stands for. *)
Definition code_point (ch : bytes) : N :=
  match ch with
  | [a] => byte_val a
  | [a; b] => (byte_val a - 0xC0) * 64 + (byte_val b - 0x80)
  | [a; b; c] => ((byte_val a - 0xE0) * 64 + (byte_val b - 0x80)) * 64 + (byte_val c - 0x80)
  | [a; b; c; d] =>
      (((byte_val a - 0xF0) * 64 + (byte_val b - 0x80)) * 64 + (byte_val c - 0x80)) * 64 + (byte_val d - 0x80)
  | _ => 0
  end.
Definition encodes (n : N) (ch : bytes) : Prop := utf8_char ch /\ code_point ch = n.

(** Bytes with everything that is no character replaced by U+FFFD, a byte at a time. *)
Definition replacement : bytes := ["239"; "191"; "189"]%char.
Inductive repaired : bytes -> bytes -> Prop :=
  | rep_nil : repaired [] []
  | rep_char ch b b' : utf8_char ch -> repaired b b' -> repaired (ch ++ b) (ch ++ b')
  | rep_byte c b b' : (forall ch r, utf8_char ch -> c :: b <> ch ++ r) -> repaired b b' ->
      repaired (c :: b) (replacement ++ b').
