(** Go's encoding/base64 StdEncoding: EncodeToString and DecodeString (used at
    tss/keysign.go:228-235 and 336-341). *)
From Coq Require Import NArith Ascii String List.
From stdpp Require Import base list strings.
From Verif Require Import Base.

Local Open Scope N_scope.

(** encodeStd: the sixty-four characters. *)
Definition b64_char (n : N) : ascii :=
  ascii_of_N
    (if n <? 26 then 65 + n
     else if n <? 52 then 97 + (n - 26)
     else if n <? 62 then 48 + (n - 52)
     else if n =? 62 then 43 else 47).

(** decodeMap; [None] is 0xFF. *)
Definition b64_val (c : ascii) : option N :=
  let n := byte_val c in
  if (65 <=? n) && (n <=? 90) then Some (n - 65)
  else if (97 <=? n) && (n <=? 122) then Some (n - 97 + 26)
  else if (48 <=? n) && (n <=? 57) then Some (n - 48 + 52)
  else if n =? 43 then Some 62
  else if n =? 47 then Some 63
  else None.

Definition b64_pad : ascii := "="%char.

(** Encoding.Encode: three bytes at a time, the rest padded. *)
Fixpoint b64_encode (b : bytes) : bytes :=
  match b with
  | [] => []
  | [x] =>
      [b64_char (byte_val x / 4); b64_char (byte_val x mod 4 * 16); b64_pad; b64_pad]
  | [x; y] =>
      [b64_char (byte_val x / 4); b64_char (byte_val x mod 4 * 16 + byte_val y / 16);
       b64_char (byte_val y mod 16 * 4); b64_pad]
  | x :: y :: z :: r =>
      b64_char (byte_val x / 4) :: b64_char (byte_val x mod 4 * 16 + byte_val y / 16) ::
      b64_char (byte_val y mod 16 * 4 + byte_val z / 64) :: b64_char (byte_val z mod 64) ::
      b64_encode r
  end.

Definition is_newline (c : ascii) : bool := (byte_val c =? 10) || (byte_val c =? 13).

(** Encoding.decodeQuantum repeated: four characters at a time. Padding ends the
    input; the unused bits of the last quantum are dropped (StdEncoding is not
    strict). [None]: CorruptInputError. *)
Fixpoint b64_quanta (s : bytes) : option bytes :=
  match s with
  | [] => Some []
  | a :: b :: c :: d :: r =>
      match b64_val a, b64_val b with
      | Some va, Some vb =>
          match b64_val c with
          | Some vc =>
              match b64_val d with
              | Some vd =>
                  match b64_quanta r with
                  | Some t =>
                      Some (ascii_of_N (va * 4 + vb / 16) :: ascii_of_N (vb mod 16 * 16 + vc / 4) ::
                            ascii_of_N (vc mod 4 * 64 + vd) :: t)
                  | None => None
                  end
              | None =>
                  if Ascii.eqb d b64_pad then
                    match r with
                    | [] => Some [ascii_of_N (va * 4 + vb / 16); ascii_of_N (vb mod 16 * 16 + vc / 4)]
                    | _ => None
                    end
                  else None
              end
          | None =>
              if (Ascii.eqb c b64_pad && Ascii.eqb d b64_pad)%bool then
                match r with
                | [] => Some [ascii_of_N (va * 4 + vb / 16)]
                | _ => None
                end
              else None
          end
      | _, _ => None
      end
  | _ => None
  end.

(** Line ends are skipped wherever they stand. *)
Definition b64_decode (s : bytes) : option bytes :=
  b64_quanta (List.filter (fun c => negb (is_newline c)) s).

(** StdEncoding.EncodeToString and DecodeString *)
Definition EncodeToString (b : bytes) : string := of_bytes (b64_encode b).
Definition DecodeString (s : string) : option bytes := b64_decode (to_bytes s).
