(** The worker goroutines of updateLocal, common/tss.go:256-311 with doTssJob,
    common/tss.go:114-141. [M_Common] models what the shares do; here are the goroutines:
    every call starts [n] of them (runtime.NumCPU, line 256), which read jobs from a
    channel until it is closed.

    What an entry of the message leads to (a job, nothing, or an error that ends the
    call) is an input; in [M_Common] it is the result of [update_one]. One goroutine
    handles the messages, so there is one call at a time. *)
From Coq Require Import ZArith Ascii String List.
From stdpp Require Import base list.
From Verif Require Import Base.

(** What one iteration of the loop does, lines 263-308. *)
Inductive verdict :=
  | VJob      (* lines 306-307: the share is queued *)
  | VSkip     (* lines 286-289: a duplicate *)
  | VFail.    (* lines 267, 273, 279 and 303: return with an error *)

Inductive wstat := WIdle | WBusy (job : nat) | WEnded.
Inductive cstat := CLoop | CWait | CDone | CFailed.
Record call := Call {
  cl_left : nat;              (* entries not looked at yet *)
  cl_cap : nat;               (* capacity of tssJobChan, line 257: the number of entries *)
  cl_seen : list verdict;     (* the entries looked at *)
  cl_queue : list nat;        (* tssJobChan: the positions of the entries *)
  cl_closed : bool;
  cl_stat : cstat;
  cl_workers : list wstat;
  cl_done : list nat          (* ghost: jobs that were carried out *)
}.
(** All the calls so far, oldest first *)
Notation wstate := (list call).

Inductive wlabel :=
  | WCall (len : nat)         (* lines 225-262: a message with [len] entries *)
  | WNext (v : verdict)       (* one iteration *)
  | WClose                    (* line 309 *)
  | WTake (k i : nat)         (* worker [i] of call [k]: line 119 *)
  | WEnd (k i : nat)          (* it finds the channel closed and empty: lines 119, 115-117 *)
  | WFinish (k i : nat)       (* it is done with its job *)
  | WReturn.                  (* lines 310-311, when all workers have ended *)

Definition active (c : call) : bool := match cl_stat c with CLoop | CWait => true | _ => false end.
Definition ended (w : wstat) : bool := match w with WEnded => true | _ => false end.

(** A step of the last call, the only one that can be active *)
Definition on_last (f : call -> call) (s : wstate) : wstate :=
  match last s with
  | Some c => <[length s - 1 := f c]> s
  | None => s
  end.
(** A step of a worker *)
Definition on_worker (k i : nat) (f : call -> wstat -> call) (s : wstate) : wstate :=
  match s !! k with
  | Some c => match cl_workers c !! i with Some w => <[k := f c w]> s | None => s end
  | None => s
  end.

Section Workers.
  Context (n : nat).
  Definition next_entry (v : verdict) (c : call) : call :=
    let '(Call rest cap seen q cls st ws dn) := c in
    match st, rest with
    | CLoop, S rest' =>
        match v with
        | VSkip => Call rest' cap (seen ++ [v]) q cls CLoop ws dn
        | VFail => Call rest' cap (seen ++ [v]) q cls CFailed ws dn
        | VJob =>
            (* sending to a full channel waits *)
            if Nat.ltb (length q) cap then Call rest' cap (seen ++ [v]) (q ++ [length seen]) cls CLoop ws dn else c
        end
    | _, _ => c
    end.
  Definition close_chan (c : call) : call :=
    let '(Call rest cap seen q cls st ws dn) := c in
    match st, rest with
    | CLoop, O => Call rest cap seen q true CWait ws dn
    | _, _ => c
    end.
  Definition wait_over (c : call) : call :=
    let '(Call rest cap seen q cls st ws dn) := c in
    match st with
    | CWait => if forallb ended ws then Call rest cap seen q cls CDone ws dn else c
    | _ => c
    end.
  Definition take (i : nat) (c : call) (w : wstat) : call :=
    let '(Call rest cap seen q cls st ws dn) := c in
    match w, q with
    | WIdle, j :: q' => Call rest cap seen q' cls st (<[i := WBusy j]> ws) dn
    | _, _ => c
    end.
  Definition end_worker (i : nat) (c : call) (w : wstat) : call :=
    let '(Call rest cap seen q cls st ws dn) := c in
    match w, q, cls with
    | WIdle, [], true => Call rest cap seen q cls st (<[i := WEnded]> ws) dn
    | _, _, _ => c
    end.
  Definition finish (i : nat) (c : call) (w : wstat) : call :=
    let '(Call rest cap seen q cls st ws dn) := c in
    match w with
    | WBusy j => Call rest cap seen q cls st (<[i := WIdle]> ws) (dn ++ [j])
    | _ => c
    end.

  Definition wstep (s : wstate) (l : wlabel) : wstate :=
    match l with
    | WCall len =>
        if existsb active s then s
        else s ++ [Call len len [] [] false CLoop (replicate n WIdle) []]
    | WNext v => on_last (next_entry v) s
    | WClose => on_last close_chan s
    | WReturn => on_last wait_over s
    | WTake k i => on_worker k i (take i) s
    | WEnd k i => on_worker k i (end_worker i) s
    | WFinish k i => on_worker k i (finish i) s
    end.
  Definition wrun_from (s : wstate) (tr : list wlabel) : wstate := fold_left wstep tr s.
  Definition wrun (tr : list wlabel) : wstate := wrun_from [] tr.
End Workers.
