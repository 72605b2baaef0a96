(** Semantic versions (semver.org, 2.0.0) as structured values and the string each
    of them is written as. Numbers are bounded by the library's uint64. *)
From Coq Require Import NArith Ascii String List.
From stdpp Require Import base list strings.
From Verif Require Import Base M_Semver.

Definition id_chars : bytes :=
  to_bytes "0123456789ABCDEFGHIJKLMNOPQRSTUVWXYZabcdefghijklmnopqrstuvwxyz-".
Definition digits : bytes := to_bytes "0123456789".

Definition identifier (s : bytes) : Prop := s <> [] /\ forall c, c ∈ s -> c ∈ id_chars.
Definition number (n : N) : Prop := (n < 2 ^ 64)%N.
(** A textual pre-release identifier is not made of digits only. *)
Definition pre_ok (p : prver) : Prop :=
  match p with PrNum n => number n | PrStr s => identifier s /\ exists c, c ∈ s /\ c ∉ digits end.

Definition version_ok (v : version) : Prop :=
  number (v_major v) /\ number (v_minor v) /\ number (v_patch v) /\
  Forall pre_ok (v_pre v) /\ Forall identifier (v_build v).

Definition write_pre (p : prver) : string :=
  match p with PrNum n => itoa n | PrStr s => of_bytes s end.
(** major.minor.patch[-pre][+build] *)
Definition write_version (v : version) : string :=
  concat_strings [itoa (v_major v); "."; itoa (v_minor v); "."; itoa (v_patch v);
    match v_pre v with [] => "" | l => String.append "-" (join_strings "." (map write_pre l)) end;
    match v_build v with [] => "" | l => String.append "+" (join_strings "." (map of_bytes l)) end].

(** The string is this version. *)
Definition is_version (s : string) (v : version) : Prop := version_ok v /\ s = write_version v.

(** Lower than 0.14.0 in the order of semver.org, item 11: the numbers decide, and
    a pre-release comes before its release. *)
Definition before_0_14_0 (v : version) : Prop :=
  v_major v = 0%N /\ ((v_minor v < 14)%N \/ v_minor v = 14%N /\ v_patch v = 0%N /\ v_pre v <> []).

(** Lexicographic order, a proper prefix coming first. *)
Definition lex {A} (R : A -> A -> Prop) (a b : list A) : Prop :=
  exists p, (exists x r, a = p /\ b = p ++ x :: r) \/
            (exists x y r r', a = p ++ x :: r /\ b = p ++ y :: r' /\ R x y).
Definition byte_lt (x y : ascii) : Prop := (byte_val x < byte_val y)%N.

(** semver.org, item 11.4: numbers numerically, texts in ASCII order, numbers
    before texts. *)
Inductive id_lt : prver -> prver -> Prop :=
  | id_num m n : (m < n)%N -> id_lt (PrNum m) (PrNum n)
  | id_text x y : lex byte_lt x y -> id_lt (PrStr x) (PrStr y)
  | id_mixed m y : id_lt (PrNum m) (PrStr y).
(** semver.org, item 11. Build metadata does not take part. *)
Definition precedes (v w : version) : Prop :=
  (v_major v < v_major w)%N \/
  v_major v = v_major w /\
  ((v_minor v < v_minor w)%N \/
   v_minor v = v_minor w /\
   ((v_patch v < v_patch w)%N \/
    v_patch v = v_patch w /\
    v_pre v <> [] /\ (v_pre w = [] \/ lex id_lt (v_pre v) (v_pre w)))).
(** Equal but for the build metadata. *)
Definition same_precedence (v w : version) : Prop :=
  v_major v = v_major w /\ v_minor v = v_minor w /\ v_patch v = v_patch w /\ v_pre v = v_pre w.
