(** Canonical base64 (RFC 4648, sections 3.2, 3.3 and 3.5): only characters of the
    alphabet, padded to a multiple of four, unused bits zero. *)
From Coq Require Import NArith Ascii String List.
From stdpp Require Import base list strings.
From Verif Require Import Base.

(** The alphabet and the value of a character, as the table of RFC 4648. *)
Definition rfc_alphabet : bytes :=
  to_bytes "ABCDEFGHIJKLMNOPQRSTUVWXYZabcdefghijklmnopqrstuvwxyz0123456789+/".
Definition stands_for (c : ascii) (n : nat) : Prop := rfc_alphabet !! n = Some c.

Inductive canonical : bytes -> Prop :=
  | can_nil : canonical []
  | can_one a b na nb :
      stands_for a na -> stands_for b nb -> nb `mod` 16 = 0 -> canonical [a; b; "="%char; "="%char]
  | can_two a b c na nb nc :
      stands_for a na -> stands_for b nb -> stands_for c nc -> nc `mod` 4 = 0 ->
      canonical [a; b; c; "="%char]
  | can_more a b c d r na nb nc nd :
      stands_for a na -> stands_for b nb -> stands_for c nc -> stands_for d nd ->
      canonical r -> canonical (a :: b :: c :: d :: r).

(** What a base64 text stands for, read leniently (RFC 4648, sections 3.1 to 3.5): line
    ends (CR and LF) count for nothing; then come characters of the alphabet and at most
    two "=", a multiple of four in all. The payload is the bits of the characters cut
    into bytes; the bits left over are not looked at. *)
Fixpoint bits (k n : nat) : list bool :=
  match k with O => [] | S k' => bits k' (n / 2) ++ [Nat.odd n] end.
Inductive line_ends_out : bytes -> bytes -> Prop :=
  | leo_nil : line_ends_out [] []
  | leo_end c s t : c = "010"%char \/ c = "013"%char -> line_ends_out s t -> line_ends_out (c :: s) t
  | leo_keep c s t : c <> "010"%char -> c <> "013"%char -> line_ends_out s t -> line_ends_out (c :: s) (c :: t).
Definition decodes_to (s payload : bytes) : Prop :=
  exists cs values pads unused,
    line_ends_out s (cs ++ replicate pads "="%char) /\
    Forall2 stands_for cs values /\
    pads < 3 /\ (length cs + pads) `mod` 4 = 0 /\
    concat (map (bits 6) values) = concat (map (fun x => bits 8 (nat_of_ascii x)) payload) ++ unused /\
    length unused < 8.
