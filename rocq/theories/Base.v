(** Go primitives used by every part of the model.

    - byte strings and strings;
    - [sort.Strings] (byte-wise lexicographic order);
    - [strconv.Itoa] on non-negative integers;
    - iteration order of a Go map. *)
From Coq Require Import ZArith NArith Ascii String List.
From stdpp Require Import base list strings gmap sorting.

Set Default Proof Using "Type".

(** ** Byte strings: Go's []byte. *)
Notation bytes := (list ascii).

(** Conversions []byte(s) and string(b). *)
Definition to_bytes (s : string) : bytes := list_ascii_of_string s.
Definition of_bytes (b : bytes) : string := string_of_list_ascii b.

(** The numeric value of a byte. *)
Definition byte_val (c : ascii) : N := N_of_ascii c.

(** Big-endian value of a byte list: [new(big.Int).SetBytes]. *)
Fixpoint be_val_acc (acc : N) (b : bytes) : N :=
  match b with
  | [] => acc
  | c :: b' => be_val_acc (acc * 256 + byte_val c) b'
  end.
Definition be_val (b : bytes) : N := be_val_acc 0 b.

(** ** Byte-wise lexicographic comparison of strings, Go's [<=] on strings. *)
Fixpoint bytes_leb (a b : bytes) : bool :=
  match a, b with
  | [], _ => true
  | _ :: _, [] => false
  | x :: a', y :: b' =>
      if N.ltb (byte_val x) (byte_val y) then true
      else if N.eqb (byte_val x) (byte_val y) then bytes_leb a' b'
      else false
  end.

Definition str_leb (a b : string) : bool := bytes_leb (to_bytes a) (to_bytes b).
Definition str_le (a b : string) : Prop := str_leb a b = true.

Global Instance str_le_dec : RelDecision str_le.
Proof. intros a b. unfold str_le. apply _. Defined.

(** Go's [sort.Strings]: the order is total and antisymmetric, so the sorted
    permutation is unique and the sorting algorithm does not matter; merge sort
    is used here. *)
Definition sort_strings (l : list string) : list string := merge_sort str_le l.

(** [strings.Join] and plain concatenation. *)
Fixpoint concat_strings (l : list string) : string :=
  match l with
  | [] => EmptyString
  | s :: l' => String.append s (concat_strings l')
  end.
Fixpoint join_strings (sep : string) (l : list string) : string :=
  match l with
  | [] => EmptyString
  | [s] => s
  | s :: l' => String.append s (String.append sep (join_strings sep l'))
  end.

(** ** [strconv.Itoa] for n >= 0 (most significant digit first). *)
Definition digit (d : N) : ascii := ascii_of_N (48 + d).
Fixpoint itoa_fuel (fuel : nat) (n : N) (acc : bytes) : bytes :=
  match fuel with
  | O => acc
  | S f =>
      let acc' := digit (n mod 10) :: acc in
      if N.ltb n 10 then acc' else itoa_fuel f (n / 10) acc'
  end.
(** [S (N.size_nat n)] digits always suffice. *)
Definition itoa (n : N) : string := of_bytes (itoa_fuel (S (N.size_nat n)) n []).

(** ** Map iteration order.

    Go leaves the iteration order of a map unspecified.  An order is a list of
    insertion positions: [permute ks l] inserts the elements one after the other
    at the given positions.  Every order gives a permutation and every
    permutation is given by some order (lemmas in [L_Base.v]). *)
Definition order := list nat.
Definition insert_at {A} (k : nat) (x : A) (l : list A) : list A :=
  take k l ++ x :: drop k l.
Fixpoint permute {A} (ks : order) (l : list A) {struct l} : list A :=
  match l with
  | [] => []
  | x :: l' =>
      match ks with
      | [] => x :: l'
      | k :: ks' => insert_at k x (permute ks' l')
      end
  end.
