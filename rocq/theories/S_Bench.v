(** Vocabulary for the properties of the benchmark programs. *)
From Coq Require Import ZArith NArith Ascii String List.
From stdpp Require Import base list strings gmap.
From Verif Require Import Base M_Conv M_Bench.
Local Open Scope string_scope.

(** The file of a party in a folder *)
Definition share_path (dir : string) (i : nat) : string := dir ++ "/keygen_data_" ++ itoa (N.of_nat i) ++ ".json".
(** There is nothing in a folder that is not there. *)
Definition no_orphans (fs : fsys) : Prop := forall dir p, fs !! dir = None -> fs !! (dir ++ "/" ++ p) = None.
(** The results the local parties ended with, in order *)
Definition results {M E} (ls : list (llabel M E)) : list E := omap (fun l => match l with LEnd e => Some e | _ => None end) ls.

(** The messages emitted for party i: those of another party that name nobody, and those
    that name it first. *)
Definition emitted_for {M E} (i : Z) (ls : list (llabel M E)) : list M :=
  omap (fun l => match l with
                 | LMessage m from None => if Z.eqb from i then None else Some m
                 | LMessage m from (Some (d :: _)) => if Z.eqb d i then Some m else None
                 | _ => None
                 end) ls.
(** A party that is given data of its own *)
Definition own_data {K} (share_id : K -> Z) (p : (string * Z) * K) : Prop := snd (fst p) = share_id (snd p).
(** The data in the files of a folder, in the order of their numbers *)
Definition holds {K} (parse : bytes -> option K) (fs : fsys) (dir : string) (keys : list K) : Prop :=
  forall i k, keys !! i = Some k -> exists b, fs !! share_path dir i = Some (NFile b) /\ parse b = Some k.
Definition increasing (l : list Z) : Prop := forall i j x y, i < j -> l !! i = Some x -> l !! j = Some y -> (x < y)%Z.
