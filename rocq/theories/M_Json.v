(** encoding/json, up to filling a structure: the compact text of a value, and reading
    any text back. The library is modelled from knowledge of its source (Go 1.15, which
    the Dockerfile names); it is not part of /repo. *)
From Coq Require Import ZArith NArith Ascii String List.
From stdpp Require Import base list strings.
From Verif Require Import Base M_Semver M_Utf8.

Inductive json :=
  | JNull
  | JBool (b : bool)
  | JNum (z : Z)
  | JStr (s : string)
  | JArr (l : list json)
  | JObj (l : list (string * json))
  | JReal.
(** [JNum] is a whole number, written without a fraction and an exponent. [JReal] is any
    other number: nothing here is stored as one, and no field takes one, so that its value
    does not matter. *)

Definition quote : ascii := """"%char.
Definition backslash : ascii := "\"%char.
Definition hex_digit (n : N) : ascii := ascii_of_N (if N.ltb n 10 then 48 + n else 87 + n)%N.
(** encoding/json encode.go (encodeState.string with escapeHTML): quotes and
    backslashes, control characters and the characters < > & are escaped, and so are
    U+2028 and U+2029. A byte that begins no character is written as the escape of
    U+FFFD. *)
Definition escape_char (c : ascii) : bytes :=
  if decide (c = quote) then [backslash; quote]
  else if decide (c = backslash) then [backslash; backslash]
  else if decide (c = "010"%char) then [backslash; "n"%char]
  else if decide (c = "013"%char) then [backslash; "r"%char]
  else if decide (c = "009"%char) then [backslash; "t"%char]
  else if (N.ltb (byte_val c) 32 || bool_decide (c = "<"%char) || bool_decide (c = ">"%char) || bool_decide (c = "&"%char))%bool then
    [backslash; "u"%char; "0"%char; "0"%char; hex_digit (byte_val c / 16); hex_digit (byte_val c mod 16)]
  else [c].
Definition escape_rune (ch : bytes) : bytes :=
  if decide (ch = ["226"; "128"; "168"]%char) then to_bytes "\u2028"
  else if decide (ch = ["226"; "128"; "169"]%char) then to_bytes "\u2029"
  else match ch with [c] => escape_char c | _ => ch end.
Fixpoint escape_from (skip : nat) (b : bytes) : bytes :=
  match b with
  | [] => []
  | c :: r =>
      match skip with
      | S k => escape_from k r
      | O =>
          match rune_len b with
          | O => to_bytes "\ufffd" ++ escape_from 0 r
          | S n => escape_rune (take (S n) b) ++ escape_from n r
          end
      end
  end.
Definition escape (b : bytes) : bytes := escape_from 0 b.
Definition json_string (s : string) : bytes := quote :: escape (to_bytes s) ++ [quote].
Definition json_num (z : Z) : bytes :=
  match z with
  | Zneg p => "-"%char :: to_bytes (itoa (Npos p))
  | _ => to_bytes (itoa (Z.to_N z))
  end.

Fixpoint commas (l : list bytes) : bytes :=
  match l with
  | [] => []
  | [x] => x
  | x :: r => x ++ ","%char :: commas r
  end.
(** json.Marshal *)
Fixpoint json_enc (v : json) : bytes :=
  match v with
  | JNull => to_bytes "null"
  | JBool true => to_bytes "true"
  | JBool false => to_bytes "false"
  | JNum z => json_num z
  | JStr s => json_string s
  | JArr l => "["%char :: commas (map json_enc l) ++ ["]"%char]
  | JObj l => "{"%char :: commas (map (fun kv => json_string (fst kv) ++ ":"%char :: json_enc (snd kv)) l) ++ ["}"%char]
  | JReal => to_bytes "0.5"
  end.

(** ** Reading *)

(** encoding/json scanner.go (isSpace) *)
Definition is_space (c : ascii) : bool :=
  bool_decide (c = " "%char \/ c = "009"%char \/ c = "010"%char \/ c = "013"%char).
Fixpoint skip_ws (b : bytes) : bytes :=
  match b with
  | c :: r => if is_space c then skip_ws r else b
  | [] => []
  end.

Definition hex_val (c : ascii) : option N :=
  let n := byte_val c in
  if is_digit c then Some (n - 48)%N
  else if (N.leb 97 n && N.leb n 102)%bool then Some (n - 87)%N
  else if (N.leb 65 n && N.leb n 70)%bool then Some (n - 55)%N
  else None.
(** encoding/json decode.go (getu4), after the backslash and the u *)
Definition hex4 (h1 h2 h3 h4 : ascii) : option N :=
  match hex_val h1, hex_val h2, hex_val h3, hex_val h4 with
  | Some a1, Some a2, Some a3, Some a4 => Some (((a1 * 16 + a2) * 16 + a3) * 16 + a4)%N
  | _, _, _, _ => None
  end.
(** unicode/utf16: the first and the second half of a pair, and DecodeRune *)
Definition is_high (u : N) : bool := (N.leb 55296 u && N.ltb u 56320)%bool.
Definition is_low (u : N) : bool := (N.leb 56320 u && N.ltb u 57344)%bool.
Definition pair_rune (u v : N) : N := ((u - 55296) * 1024 + (v - 56320) + 65536)%N.
(** unicode/utf8 EncodeRune; half a pair gives U+FFFD *)
Definition utf8 (n : N) : bytes :=
  if N.ltb n 128 then [ascii_of_N n]
  else if N.ltb n 2048 then [ascii_of_N (192 + n / 64); ascii_of_N (128 + n mod 64)]
  else if (is_high n || is_low n)%bool then rune_error
  else if N.ltb n 65536 then [ascii_of_N (224 + n / 4096); ascii_of_N (128 + n / 64 mod 64); ascii_of_N (128 + n mod 64)]
  else [ascii_of_N (240 + n / 262144); ascii_of_N (128 + n / 4096 mod 64); ascii_of_N (128 + n / 64 mod 64); ascii_of_N (128 + n mod 64)].
(** encoding/json decode.go (unquote), the escapes of one character *)
Definition unescape (c : ascii) : option ascii :=
  if decide (c = quote) then Some quote
  else if decide (c = backslash) then Some backslash
  else if decide (c = "/"%char) then Some "/"%char
  else if decide (c = "b"%char) then Some "008"%char
  else if decide (c = "f"%char) then Some "012"%char
  else if decide (c = "n"%char) then Some "010"%char
  else if decide (c = "r"%char) then Some "013"%char
  else if decide (c = "t"%char) then Some "009"%char
  else None.
(** encoding/json decode.go (unquote): the text up to the closing quote, and what follows
    it. The library replaces bytes that begin no character on the way; here that is done
    afterwards ([coerce]), which is the same because an escape gives whole characters. *)
Fixpoint str_body (b : bytes) : option (bytes * bytes) :=
  match b with
  | [] => None
  | c :: r =>
      if decide (c = quote) then Some ([], r)
      else if decide (c = backslash) then
        match r with
        | [] => None
        | e :: r' =>
            if decide (e = "u"%char) then
              match r' with
              | h1 :: h2 :: h3 :: h4 :: r'' =>
                  match hex4 h1 h2 h3 h4 with
                  | None => None
                  | Some u =>
                      let one := match str_body r'' with Some (s, t) => Some (utf8 u ++ s, t) | None => None end in
                      match r'' with
                      | b1 :: b2 :: g1 :: g2 :: g3 :: g4 :: r3 =>
                          if decide (b1 = backslash /\ b2 = "u"%char /\ is_high u = true) then
                            match hex4 g1 g2 g3 g4 with
                            | Some v =>
                                if is_low v then
                                  match str_body r3 with Some (s, t) => Some (utf8 (pair_rune u v) ++ s, t) | None => None end
                                else one
                            | None => one
                            end
                          else one
                      | _ => one
                      end
                  end
              | _ => None
              end
            else match unescape e, str_body r' with
            | Some x, Some (s, t) => Some (x :: s, t)
            | _, _ => None
            end
        end
      else if N.ltb (byte_val c) 32 then None
      else match str_body r with
      | Some (s, t) => Some (c :: s, t)
      | None => None
      end
  end.
(** The string a text stands for. *)
Definition str_val (s : bytes) : string := of_bytes (coerce s).

Fixpoint span_digits (b : bytes) : bytes * bytes :=
  match b with
  | c :: r => if is_digit c then let '(d, t) := span_digits r in (c :: d, t) else ([], b)
  | [] => ([], [])
  end.
(** encoding/json scanner.go: the digits before the point, the fraction and the exponent *)
Definition num_abs (b : bytes) : option (N * bytes) :=
  let '(d, t) := span_digits b in
  match d with
  | [] => None
  | _ => if hasLeadingZeroes d then None else Some (dec_val d, t)
  end.
Definition digits1 (b : bytes) : option bytes :=
  let '(d, t) := span_digits b in match d with [] => None | _ => Some t end.
(** whether there is one, and what follows *)
Definition num_frac (b : bytes) : option (bool * bytes) :=
  match b with
  | c :: r =>
      if decide (c = "."%char) then match digits1 r with Some t => Some (true, t) | None => None end
      else Some (false, b)
  | [] => Some (false, b)
  end.
Definition num_exp (b : bytes) : option (bool * bytes) :=
  match b with
  | c :: r =>
      if decide (c = "e"%char \/ c = "E"%char) then
        match digits1 match r with s :: r' => if decide (s = "+"%char \/ s = "-"%char) then r' else r | [] => r end with
        | Some t => Some (true, t)
        | None => None
        end
      else Some (false, b)
  | [] => Some (false, b)
  end.
Definition num_rest (z : Z) (t : bytes) : option (json * bytes) :=
  match num_frac t with
  | Some (f, t1) =>
      match num_exp t1 with
      | Some (e, t2) => Some (if (f || e)%bool then JReal else JNum z, t2)
      | None => None
      end
  | None => None
  end.
Definition num_body (b : bytes) : option (json * bytes) :=
  match b with
  | [] => None
  | c :: r =>
      if decide (c = "-"%char) then
        match num_abs r with Some (n, t) => num_rest (- Z.of_N n) t | None => None end
      else match num_abs b with Some (n, t) => num_rest (Z.of_N n) t | None => None end
  end.
Fixpoint strip (p b : bytes) : option bytes :=
  match p, b with
  | [], _ => Some b
  | x :: p', y :: b' => if decide (x = y) then strip p' b' else None
  | _ :: _, [] => None
  end.

(** encoding/json decode.go (Decoder.value, array, object) and the grammar of
    scanner.go, with fuel for the depth *)
Fixpoint jval (n : nat) (b : bytes) : option (json * bytes) :=
  match n with
  | O => None
  | S n =>
      match skip_ws b with
      | [] => None
      | c :: r =>
          if decide (c = quote) then
            match str_body r with Some (s, t) => Some (JStr (str_val s), t) | None => None end
          else if decide (c = "["%char) then
            match strip ["]"%char] (skip_ws r) with
            | Some t => Some (JArr [], t)
            | None => match jelems n r with Some (l, t) => Some (JArr l, t) | None => None end
            end
          else if decide (c = "{"%char) then
            match strip ["}"%char] (skip_ws r) with
            | Some t => Some (JObj [], t)
            | None => match jfields n r with Some (l, t) => Some (JObj l, t) | None => None end
            end
          else match strip (to_bytes "null") (c :: r), strip (to_bytes "true") (c :: r), strip (to_bytes "false") (c :: r) with
          | Some t, _, _ => Some (JNull, t)
          | _, Some t, _ => Some (JBool true, t)
          | _, _, Some t => Some (JBool false, t)
          | _, _, _ => num_body (c :: r)
          end
      end
  end
with jelems (n : nat) (b : bytes) : option (list json * bytes) :=
  match n with
  | O => None
  | S n =>
      match jval n b with
      | None => None
      | Some (v, t) =>
          match strip ["]"%char] (skip_ws t), strip [","%char] (skip_ws t) with
          | Some t', _ => Some ([v], t')
          | _, Some t' => match jelems n t' with Some (l, t'') => Some (v :: l, t'') | None => None end
          | _, _ => None
          end
      end
  end
with jfields (n : nat) (b : bytes) : option (list (string * json) * bytes) :=
  match n with
  | O => None
  | S n =>
      match strip [quote] (skip_ws b) with
      | None => None
      | Some r =>
          match str_body r with
          | None => None
          | Some (k, t) =>
              match strip [":"%char] (skip_ws t) with
              | None => None
              | Some t0 =>
                  match jval n t0 with
                  | None => None
                  | Some (v, t1) =>
                      match strip ["}"%char] (skip_ws t1), strip [","%char] (skip_ws t1) with
                      | Some t', _ => Some ([(str_val k, v)], t')
                      | _, Some t' =>
                          match jfields n t' with Some (l, t'') => Some ((str_val k, v) :: l, t'') | None => None end
                      | _, _ => None
                      end
                  end
              end
          end
      end
  end.
(** How deep arrays and objects stand in one another. A text in which they stand deeper
    than 10000 is refused (encoding/json scanner.go, maxNestingDepth); the library stops
    at the bracket that goes too deep, here the value is looked at once it is read. *)
Fixpoint nesting (v : json) : N :=
  match v with
  | JArr l => 1 + fold_right N.max 0%N (map nesting l)
  | JObj l => 1 + fold_right N.max 0%N (map (fun kv => nesting (snd kv)) l)
  | _ => 0
  end.
Definition max_nesting : N := 10000.
(** json.Unmarshal, up to filling the structure: one value and nothing after it *)
Definition json_dec (b : bytes) : option json :=
  match jval (2 * length b + 2) b with
  | Some (v, t) =>
      match skip_ws t with
      | [] => if N.leb (nesting v) max_nesting then Some v else None
      | _ => None
      end
  | None => None
  end.
