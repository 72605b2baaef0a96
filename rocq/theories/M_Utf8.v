(** The parts of Go's unicode/utf8 and strings/bytes handling that the libraries for
    protocol buffers and JSON use: Valid, DecodeRune and the replacement of what is no
    UTF-8. The library is modelled from knowledge of its source; it is not part of /repo. *)
From Coq Require Import NArith Ascii String List.
From stdpp Require Import base list strings.
From Verif Require Import Base.

Local Open Scope N_scope.

(** unicode/utf8 Valid *)
Definition cont (c : ascii) : bool := (128 <=? byte_val c) && (byte_val c <=? 191).
Definition within (lo hi : N) (c : ascii) : bool := (lo <=? byte_val c) && (byte_val c <=? hi).
Fixpoint utf8_valid (b : bytes) : bool :=
  match b with
  | [] => true
  | c0 :: r0 =>
      if byte_val c0 <? 128 then utf8_valid r0
      else match r0 with
      | [] => false
      | c1 :: r1 =>
          if within 194 223 c0 then cont c1 && utf8_valid r1
          else match r1 with
          | [] => false
          | c2 :: r2 =>
              if within 224 239 c0 then
                let lo := if byte_val c0 =? 224 then 160 else 128 in
                let hi := if byte_val c0 =? 237 then 159 else 191 in
                within lo hi c1 && cont c2 && utf8_valid r2
              else match r2 with
              | [] => false
              | c3 :: r3 =>
                  let lo := if byte_val c0 =? 240 then 144 else 128 in
                  let hi := if byte_val c0 =? 244 then 143 else 191 in
                  within 240 244 c0 && within lo hi c1 && cont c2 && cont c3 && utf8_valid r3
              end
          end
      end
  end.
Definition text_ok (s : string) : bool := utf8_valid (to_bytes s).

(** unicode/utf8 DecodeRune: the number of bytes of the character at the beginning; 0:
    there is none (RuneError of width one) *)
Definition rune_len (b : bytes) : nat :=
  match b with
  | [] => 0%nat
  | c0 :: r0 =>
      if byte_val c0 <? 128 then 1%nat
      else match r0 with
      | [] => 0%nat
      | c1 :: r1 =>
          if within 194 223 c0 then if cont c1 then 2%nat else 0%nat
          else match r1 with
          | [] => 0%nat
          | c2 :: r2 =>
              if within 224 239 c0 then
                let lo := if byte_val c0 =? 224 then 160 else 128 in
                let hi := if byte_val c0 =? 237 then 159 else 191 in
                if (within lo hi c1 && cont c2)%bool then 3%nat else 0%nat
              else match r2 with
              | [] => 0%nat
              | c3 :: r3 =>
                  let lo := if byte_val c0 =? 240 then 144 else 128 in
                  let hi := if byte_val c0 =? 244 then 143 else 191 in
                  if (within 240 244 c0 && within lo hi c1 && cont c2 && cont c3)%bool then 4%nat else 0%nat
              end
          end
      end
  end.

(** U+FFFD *)
Definition rune_error : bytes := ["239"; "191"; "189"]%char.
(** Every byte that begins no character is replaced; [skip]: bytes left of the
    character before. *)
Fixpoint coerce_from (skip : nat) (b : bytes) : bytes :=
  match b with
  | [] => []
  | c :: r =>
      match skip with
      | S k => coerce_from k r
      | O =>
          match rune_len b with
          | O => rune_error ++ coerce_from 0 r
          | S n => take (S n) b ++ coerce_from n r
          end
      end
  end.
Definition coerce (b : bytes) : bytes := coerce_from 0 b.
