(** Vocabulary: which directory entry a path names, when there are no symbolic links.
    A directory is the list of the names leading to it, innermost first. *)
From Coq Require Import Ascii String List.
From stdpp Require Import base list strings.

Definition enter (dir : list string) (name : string) : list string :=
  if decide (name = "" \/ name = ".")%string then dir
  else if decide (name = "..")%string then List.tl dir else name :: dir.
Fixpoint walk (dir : list string) (cur p : string) : list string :=
  match p with
  | EmptyString => enter dir cur
  | String "/" r => walk (enter dir cur) "" r
  | String a r => walk dir (String.append cur (String a "")) r
  end.
(** What the path [p] names for a process in the directory [cwd]. *)
Definition resolve (cwd : list string) (p : string) : list string :=
  match p with String "/" _ => walk [] "" p | _ => walk cwd "" p end.
