(** Model of StreamMgr (p2p/stream_helper.go:26-73) with the memory of Go's slices: a
    slice is an array and a length, and append writes into the array when there is room.
    [M_Comm] models the same calls with lists, which have values of their own.

    The new capacity after an array is full is arbitrary ([grow]). The critical sections
    are atomic, and so is each read and write outside them. Simplification: when append
    has no room the old entries are copied in one step. *)
From Coq Require Import Ascii String List.
From stdpp Require Import base list strings gmap.
From Verif Require Import Base M_Comm.

Record slice := Slice { s_arr : nat; s_len : nat }.
(** A ReleaseStream in progress: its id, the two slices read under the lock, the array of
    the slice append gave, how many entries have been copied into it, and how many
    streams have been reset *)
Record rcall := RCall {
  r_id : string; r_used : option slice; r_unknown : option slice;
  r_dst : option nat; r_copied : nat; r_pos : nat }.
Record xstate := XState {
  x_heap : gmap nat (list nat); (* the arrays, each as long as its capacity *)
  x_next : nat;                 (* the arrays from here on are not yet in use *)
  x_map : gmap string slice;
  x_calls : gmap nat rcall;
  x_reset : list nat }.
Definition x_init : xstate := XState ∅ 0 ∅ ∅ [].
Definition array (h : gmap nat (list nat)) (a : nat) : list nat := default [] (h !! a).
Definition contents (h : gmap nat (list nat)) (s : option slice) : list nat :=
  match s with None => [] | Some s => take (s_len s) (array h (s_arr s)) end.
Definition slen (s : option slice) : nat := match s with None => 0 | Some s => s_len s end.
Inductive xlabel :=
  | XAdd (msgID : string) (st : nat)
  | XRead (k : nat) (msgID : string)
  | XAppend (k : nat)
  | XCopy (k : nat)
  | XReset (k : nat)
  | XDelete (k : nat).

Section Slices.
  Context (grow : nat -> nat). (* how much more room a full array is given *)

  (** p2p/stream_helper.go:60-73 (AddStream) *)
  Definition x_add (id : string) (st : nat) (s : xstate) : xstate :=
    let h := x_heap s in
    match x_map s !! id with
    | None => XState (<[x_next s := [st]]> h) (S (x_next s)) (<[id := Slice (x_next s) 1]> (x_map s)) (x_calls s) (x_reset s)
    | Some (Slice a n) =>
        if Nat.ltb n (length (array h a))
        then XState (<[a := <[n := st]> (array h a)]> h) (x_next s) (<[id := Slice a (S n)]> (x_map s)) (x_calls s) (x_reset s)
        else XState (<[x_next s := take n (array h a) ++ st :: replicate (grow n) 0]> h) (S (x_next s))
               (<[id := Slice (x_next s) (S n)]> (x_map s)) (x_calls s) (x_reset s)
    end.
  Definition put_call (k : nat) (c : rcall) (s : xstate) : xstate :=
    XState (x_heap s) (x_next s) (x_map s) (<[k := c]> (x_calls s)) (x_reset s).
  (** p2p/stream_helper.go:41-58 (ReleaseStream), in steps *)
  Definition x_step (l : xlabel) (s : xstate) : xstate :=
    match l with
    | XAdd id st => x_add id st s
    | XRead k id => (* lines 42-45 and the test of line 47 *)
        match x_calls s !! k with
        | Some _ => s
        | None =>
            match x_map s !! id, x_map s !! UNKNOWN with
            | None, None => s
            | u, v => put_call k (RCall id u v None 0 0) s
            end
        end
    | XAppend k => (* line 46: where the result is *)
        match x_calls s !! k with
        | Some (RCall id u v None c p) =>
            let fresh :=
              XState (<[x_next s := contents (x_heap s) u ++ replicate (slen v + grow (slen u)) 0]> (x_heap s))
                (S (x_next s)) (x_map s) (<[k := RCall id u v (Some (x_next s)) c p]> (x_calls s)) (x_reset s) in
            match u with
            | Some (Slice a n) =>
                if Nat.leb (n + slen v) (length (array (x_heap s) a)) then put_call k (RCall id u v (Some a) c p) s else fresh
            | None => fresh
            end
        | _ => s
        end
    | XCopy k => (* line 46: one entry *)
        match x_calls s !! k with
        | Some (RCall id u (Some v) (Some d) c p) =>
            if Nat.ltb c (s_len v)
            then XState (<[d := <[slen u + c := nth c (array (x_heap s) (s_arr v)) 0]> (array (x_heap s) d)]> (x_heap s))
                   (x_next s) (x_map s) (<[k := RCall id u (Some v) (Some d) (S c) p]> (x_calls s)) (x_reset s)
            else s
        | _ => s
        end
    | XReset k => (* lines 48-53: one stream *)
        match x_calls s !! k with
        | Some (RCall id u v (Some d) c p) =>
            if (Nat.leb (slen v) c && Nat.ltb p (slen u + slen v))%bool
            then XState (x_heap s) (x_next s) (x_map s) (<[k := RCall id u v (Some d) c (S p)]> (x_calls s))
                   (x_reset s ++ [nth p (array (x_heap s) d) 0])
            else s
        | _ => s
        end
    | XDelete k => (* lines 54-56 *)
        match x_calls s !! k with
        | Some (RCall id u v (Some d) c p) =>
            if (Nat.leb (slen v) c && Nat.leb (slen u + slen v) p)%bool
            then XState (x_heap s) (x_next s) (delete id (x_map s)) (delete k (x_calls s)) (x_reset s)
            else s
        | _ => s
        end
    end.
  Definition x_run (ls : list xlabel) (s : xstate) : xstate := fold_left (fun s l => x_step l s) ls s.
End Slices.
