(** Versions: conversion/tss_helper.go:47-57 (VersionLTCheck) and the library it
    calls, github.com/blang/semver v3.5.1 (semver.go: Parse, NewPRVersion, Compare),
    written down function by function. *)
From Coq Require Import NArith Ascii String List.
From stdpp Require Import base list strings.
From Verif Require Import Base.

Definition is_digit (c : ascii) : bool := (N.leb 48 (byte_val c) && N.leb (byte_val c) 57)%bool.
Definition is_alpha (c : ascii) : bool :=
  ((N.leb 97 (byte_val c) && N.leb (byte_val c) 122) ||
   (N.leb 65 (byte_val c) && N.leb (byte_val c) 90) || N.eqb (byte_val c) 45)%bool.
Definition is_alphanum (c : ascii) : bool := (is_alpha c || is_digit c)%bool.

(** hasLeadingZeroes *)
Definition hasLeadingZeroes (s : bytes) : bool :=
  (Nat.ltb 1 (length s) && match s with c :: _ => N.eqb (byte_val c) 48 | [] => false end)%bool.

(** strconv.ParseUint(s, 10, 64) on digits; [None]: empty or out of range. *)
Definition dec_val (s : bytes) : N := fold_left (fun a c => (a * 10 + (byte_val c - 48))%N) s 0%N.
Definition ParseUint (s : bytes) : option N :=
  match s with
  | [] => None
  | _ => if N.ltb (dec_val s) (2 ^ 64) then Some (dec_val s) else None
  end.

(** The three checks made of every number. *)
Definition parse_number (s : bytes) : option N :=
  if forallb is_digit s then
    if hasLeadingZeroes s then None else ParseUint s
  else None.

(** PRVersion *)
Inductive prver := PrNum (n : N) | PrStr (s : bytes).

(** NewPRVersion *)
Definition NewPRVersion (s : bytes) : option prver :=
  match s with
  | [] => None
  | _ =>
      if forallb is_digit s then
        if hasLeadingZeroes s then None
        else match ParseUint s with Some n => Some (PrNum n) | None => None end
      else if forallb is_alphanum s then Some (PrStr s) else None
  end.

(** strings.IndexRune and the two slices around the index. *)
Fixpoint cut (c : ascii) (s : bytes) : option (bytes * bytes) :=
  match s with
  | [] => None
  | x :: r =>
      if Ascii.eqb x c then Some ([], r)
      else match cut c r with Some (a, b) => Some (x :: a, b) | None => None end
  end.
(** strings.Split *)
Fixpoint split (c : ascii) (s : bytes) : list bytes :=
  match s with
  | [] => [[]]
  | x :: r =>
      if Ascii.eqb x c then [] :: split c r
      else match split c r with a :: l => (x :: a) :: l | [] => [[x]] end
  end.

Fixpoint all_some {A B} (f : A -> option B) (l : list A) : option (list B) :=
  match l with
  | [] => Some []
  | x :: r =>
      match f x with
      | None => None
      | Some y => match all_some f r with Some r' => Some (y :: r') | None => None end
      end
  end.

Record version := Ver {
  v_major : N; v_minor : N; v_patch : N; v_pre : list prver; v_build : list bytes }.

Definition build_id (s : bytes) : option bytes :=
  match s with [] => None | _ => if forallb is_alphanum s then Some s else None end.

(** Parse *)
Definition Parse (s : bytes) : option version :=
  match cut "." s with
  | None => None
  | Some (p0, rest) =>
      match cut "." rest with
      | None => None
      | Some (p1, p2) =>
          match parse_number p0 with
          | None => None
          | Some major =>
              match parse_number p1 with
              | None => None
              | Some minor =>
                  let '(patchStr, build) :=
                    match cut "+" p2 with Some (a, b) => (a, split "." b) | None => (p2, []) end in
                  let '(patchStr, prerelease) :=
                    match cut "-" patchStr with Some (a, b) => (a, split "." b) | None => (patchStr, []) end in
                  match parse_number patchStr with
                  | None => None
                  | Some patch =>
                      match all_some NewPRVersion prerelease with
                      | None => None
                      | Some pre =>
                          match all_some build_id build with
                          | None => None
                          | Some b => Some (Ver major minor patch pre b)
                          end
                      end
                  end
              end
          end
      end
  end.

(** PRVersion.Compare *)
Definition pr_compare (v o : prver) : comparison :=
  match v, o with
  | PrNum _, PrStr _ => Lt
  | PrStr _, PrNum _ => Gt
  | PrNum a, PrNum b => N.compare a b
  | PrStr a, PrStr b => if bytes_leb a b then if bytes_leb b a then Eq else Lt else Gt
  end.
Fixpoint pre_compare (v o : list prver) : comparison :=
  match v, o with
  | [], [] => Eq
  | [], _ :: _ => Lt
  | _ :: _, [] => Gt
  | a :: v', b :: o' => match pr_compare a b with Eq => pre_compare v' o' | c => c end
  end.
(** Version.Compare *)
Definition Compare (v o : version) : comparison :=
  match N.compare (v_major v) (v_major o) with
  | Eq =>
      match N.compare (v_minor v) (v_minor o) with
      | Eq =>
          match N.compare (v_patch v) (v_patch o) with
          | Eq =>
              match v_pre v, v_pre o with
              | [], [] => Eq
              | [], _ :: _ => Gt
              | _ :: _, [] => Lt
              | p, q => pre_compare p q
              end
          | c => c
          end
      | c => c
      end
  | c => c
  end.
Definition LT (v o : version) : bool := match Compare v o with Lt => true | _ => false end.

(** conversion/tss_helper.go:47-57 (VersionLTCheck); [None] is an error. *)
Definition VersionLTCheck (currentVer expectedVer : string) : option bool :=
  match Parse (to_bytes expectedVer) with
  | None => None
  | Some c => match Parse (to_bytes currentVer) with None => None | Some v => Some (LT v c) end
  end.

(** messages/version.go:4 (NEWJOINPARTYVERSION) *)
Definition NEWJOINPARTYVERSION : string := "0.14.0".
(** The test made at tss/tss.go:170, tss/keysign.go:48 and 254: [Some true] selects
    the leaderless join party. *)
Definition oldJoinParty (v : string) : option bool := VersionLTCheck v NEWJOINPARTYVERSION.
