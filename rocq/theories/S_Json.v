(** Vocabulary for JSON texts: the grammar of RFC 8259 and what the texts stand for. *)
From Coq Require Import ZArith NArith Ascii String List.
From stdpp Require Import base list strings.
From Verif Require Import Base S_Utf8 M_Json.

Local Open Scope N_scope.

Definition blank (c : ascii) : Prop := byte_val c = 0x20 \/ byte_val c = 0x09 \/ byte_val c = 0x0A \/ byte_val c = 0x0D.
Definition blanks (b : bytes) : Prop := Forall blank b.

(** ** Strings *)

Definition dquote : ascii := """"%char.
Definition reverse_solidus : ascii := "\"%char.
(** a hexadecimal decimal_digit in either case, and four of them *)
Inductive digit16 : ascii -> N -> Prop :=
  | d16_digit c n : n < 10 -> byte_val c = 0x30 + n -> digit16 c n
  | d16_lower c n : 10 <= n < 16 -> byte_val c = 0x61 + (n - 10) -> digit16 c n
  | d16_upper c n : 10 <= n < 16 -> byte_val c = 0x41 + (n - 10) -> digit16 c n.
Inductive unit16 : bytes -> N -> Prop :=
  | unit16_intro a b c d i j k l : digit16 a i -> digit16 b j -> digit16 c k -> digit16 d l ->
      unit16 [a; b; c; d] (4096 * i + 256 * j + 16 * k + l).
(** the letter after the backslash, and the character it stands for *)
Definition short (e c : ascii) : Prop :=
  In (e, byte_val c)
    [(dquote, 0x22); (reverse_solidus, 0x5C); ("/"%char, 0x2F); ("b"%char, 0x08); ("f"%char, 0x0C); ("n"%char, 0x0A);
     ("r"%char, 0x0D); ("t"%char, 0x09)].
Definition first_half (u : N) : Prop := 0xD800 <= u <= 0xDBFF.
Definition second_half (u : N) : Prop := 0xDC00 <= u <= 0xDFFF.
Definition escaped (h : bytes) : bytes := reverse_solidus :: "u"%char :: h.

(** The text between the quotes, and the bytes it stands for. Half a pair of escapes
    stands for U+FFFD. *)
Inductive string_text : bytes -> bytes -> Prop :=
  | st_end : string_text [] []
  | st_raw c t v : 0x20 <= byte_val c -> c <> dquote -> c <> reverse_solidus -> string_text t v ->
      string_text (c :: t) (c :: v)
  | st_short e c t v : short e c -> string_text t v -> string_text (reverse_solidus :: e :: t) (c :: v)
  | st_unit h u ch t v : unit16 h u -> encodes u ch -> string_text t v -> string_text (escaped h ++ t) (ch ++ v)
  | st_pair h g u w ch t v : unit16 h u -> first_half u -> unit16 g w -> second_half w ->
      encodes (0x10000 + 0x400 * (u - 0xD800) + (w - 0xDC00)) ch -> string_text t v ->
      string_text (escaped h ++ escaped g ++ t) (ch ++ v)
  | st_lone h u t v : unit16 h u -> first_half u \/ second_half u ->
      (forall g w r, first_half u -> unit16 g w -> second_half w -> t <> escaped g ++ r) ->
      string_text t v -> string_text (escaped h ++ t) (replacement ++ v).
(** Bytes of the text that are no UTF-8 stand for U+FFFD too. *)
Definition string_value (t : bytes) (s : string) : Prop := exists v, string_text t v /\ repaired v (to_bytes s).

(** ** Numbers *)

Definition decimal_digit (c : ascii) : Prop := 0x30 <= byte_val c <= 0x39.
Definition digits (d : bytes) : Prop := d <> [] /\ Forall decimal_digit d.
Definition decimal (d : bytes) : N := fold_left (fun a c => 10 * a + (byte_val c - 0x30)) d 0.
Definition whole (d : bytes) (n : N) : Prop :=
  digits d /\ (forall r, d = "0"%char :: r -> r = []) /\ n = decimal d.
Definition fraction (f : bytes) : Prop := f = [] \/ exists d, f = "."%char :: d /\ digits d.
Definition exponent (e : bytes) : Prop :=
  e = [] \/ exists c s d, e = c :: s ++ d /\ (c = "e"%char \/ c = "E"%char) /\ (s = [] \/ s = ["+"%char] \/ s = ["-"%char]) /\ digits d.
Inductive number : json -> bytes -> Prop :=
  | num_whole d n : whole d n -> number (JNum (Z.of_N n)) d
  | num_negative d n : whole d n -> number (JNum (- Z.of_N n)) ("-"%char :: d)
  | num_real s d n f e : s = [] \/ s = ["-"%char] -> whole d n -> fraction f -> exponent e -> f ++ e <> [] ->
      number JReal (s ++ d ++ f ++ e).

(** ** Values *)

Inductive value : json -> bytes -> Prop :=
  | v_null : value JNull (to_bytes "null")
  | v_true : value (JBool true) (to_bytes "true")
  | v_false : value (JBool false) (to_bytes "false")
  | v_num v b : number v b -> value v b
  | v_str t s : string_value t s -> value (JStr s) (dquote :: t ++ [dquote])
  | v_arr0 w : blanks w -> value (JArr []) ("["%char :: w ++ ["]"%char])
  | v_arr l b : elements l b -> value (JArr l) ("["%char :: b ++ ["]"%char])
  | v_obj0 w : blanks w -> value (JObj []) ("{"%char :: w ++ ["}"%char])
  | v_obj l b : jmembers l b -> value (JObj l) ("{"%char :: b ++ ["}"%char])
with elements : list json -> bytes -> Prop :=
  | els_one w v b w' : blanks w -> value v b -> blanks w' -> elements [v] (w ++ b ++ w')
  | els_more w v b w' l b' : blanks w -> value v b -> blanks w' -> elements l b' ->
      elements (v :: l) (w ++ b ++ w' ++ ","%char :: b')
with jmembers : list (string * json) -> bytes -> Prop :=
  | mem_one k x b : jmember k x b -> jmembers [(k, x)] b
  | mem_more k x b l b' : jmember k x b -> jmembers l b' -> jmembers ((k, x) :: l) (b ++ ","%char :: b')
with jmember : string -> json -> bytes -> Prop :=
  | member_intro w t k w1 w2 v b w3 : blanks w -> string_value t k -> blanks w1 -> blanks w2 -> value v b -> blanks w3 ->
      jmember k v (w ++ (dquote :: t ++ [dquote]) ++ w1 ++ ":"%char :: w2 ++ b ++ w3).
(** Arrays and objects stand at most [n] deep in one another. *)
Inductive nested : nat -> json -> Prop :=
  | ne_null n : nested n JNull
  | ne_bool n b : nested n (JBool b)
  | ne_num n z : nested n (JNum z)
  | ne_str n s : nested n (JStr s)
  | ne_arr n l : Forall (nested n) l -> nested (S n) (JArr l)
  | ne_obj n l : Forall (fun kv => nested n (snd kv)) l -> nested (S n) (JObj l)
  | ne_real n : nested n JReal.
(** Not deeper than the library reads. *)
Definition shallow (v : json) : Prop := exists n, N.of_nat n <= 10000 /\ nested n v.

(** A text is a value between blanks. *)
Definition document (v : json) (b : bytes) : Prop :=
  shallow v /\ exists w x w', blanks w /\ value v x /\ blanks w' /\ b = w ++ x ++ w'.

(** A text begins with a value, whatever follows it. *)
Definition begins (v : json) (b : bytes) : Prop :=
  shallow v /\ exists w x r, blanks w /\ value v x /\ b = w ++ x ++ r.

(** ** Values made of text *)
Inductive json_texts : json -> Prop :=
  | jt_null : json_texts JNull
  | jt_bool b : json_texts (JBool b)
  | jt_num z : json_texts (JNum z)
  | jt_str s : text s -> json_texts (JStr s)
  | jt_arr l : Forall json_texts l -> json_texts (JArr l)
  | jt_obj l : Forall (fun kv => text (fst kv) /\ json_texts (snd kv)) l -> json_texts (JObj l)
  | jt_real : json_texts JReal.
