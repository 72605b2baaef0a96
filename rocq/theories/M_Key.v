(** conversion/key_provider.go:90-112: the private key the operator types in. *)
From Coq Require Import NArith Ascii String List.
From stdpp Require Import base list strings.
From Verif Require Import Base M_Base64.

(** encoding/hex (not in /repo): fromHexChar *)
Definition fromHexChar (c : ascii) : option N :=
  let n := byte_val c in
  if (N.leb 48 n && N.leb n 57)%bool then Some (n - 48)%N
  else if (N.leb 97 n && N.leb n 102)%bool then Some (n - 87)%N
  else if (N.leb 65 n && N.leb n 70)%bool then Some (n - 55)%N
  else None.
(** hex.Decode; [None]: an invalid character or an odd number of them *)
Fixpoint hex_decode (b : bytes) : option bytes :=
  match b with
  | [] => Some []
  | [_] => None
  | x :: y :: r =>
      match fromHexChar x, fromHexChar y, hex_decode r with
      | Some a, Some b, Some l => Some (ascii_of_N (a * 16 + b) :: l)
      | _, _, _ => None
      end
  end.

Inductive kres := KErr | KPanic | KKey (b : bytes).

(** conversion/key_provider.go:90-102 (GetPriKey). hex.DecodeString decodes in place:
    the array behind its result holds the decoded bytes, then what is left of the text,
    then zeros up to the capacity the runtime gave the text, [cap] of its length. A
    slice expression may go up to the capacity. *)
Definition GetPriKey (cap : nat -> nat) (priKeyString : string) : kres :=
  match DecodeString priKeyString with
  | None => KErr
  | Some text =>
      match hex_decode text with
      | None => KErr
      | Some raw =>
          let c := cap (length text) in
          if Nat.leb 32 c then
            KKey (take 32 (raw ++ drop (length raw) text ++ replicate (c - length text) "000"%char))
          else KPanic
      end
  end.

(** conversion/key_provider.go:104-112 (GetPriKeyRawBytes) on a key of this type: copy
    into 32 bytes *)
Definition GetPriKeyRawBytes (pk : bytes) : bytes := take 32 (pk ++ replicate (32 - length pk) "000"%char).
