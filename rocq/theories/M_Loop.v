(** The loop in which a ceremony's driver waits for its local party:
    keygen/tss_keygen.go:145-238 (processKeyGen) and keysign/tss_keysign.go:180-286
    (processKeySign), which differ in the number of results they wait for (one, and
    one per message).

    The local party (tss-lib) is the environment: it puts messages into outCh and
    results into endCh, or fails to start. Handling a message takes no time. The
    channels are never full. *)
From Coq Require Import NArith List.
From stdpp Require Import base list.
From Verif Require Import Base.

(** How the loop ends. *)
Inductive lres (A : Type) :=
  | LDone (l : list A)   (* keysign:266-283, keygen:216-236 *)
  | LTimeout             (* blame.ErrTssTimeOut, or no message was made *)
  | LFailed              (* errChan *)
  | LStopped             (* stopChan *)
  | LNotSent.            (* ProcessOutCh returned an error *)
Arguments LDone {A} l.
Arguments LTimeout {A}.
Arguments LFailed {A}.
Arguments LStopped {A}.
Arguments LNotSent {A}.

Record lstate (M A : Type) := LState {
  l_out : list M;          (* outCh *)
  l_end : list A;          (* endCh *)
  l_err : bool;            (* errChan closed *)
  l_quit : bool;           (* stopChan closed *)
  l_idle : N;              (* since the select was entered *)
  l_clock : N;             (* since the loop was entered *)
  l_sent : list M;         (* messages handled, the last one perhaps with an error *)
  l_got : list A;
  l_res : option (lres A) }.
Arguments LState {M A}.
Arguments l_out {M A}. Arguments l_end {M A}. Arguments l_err {M A}. Arguments l_quit {M A}. Arguments l_idle {M A}.
Arguments l_clock {M A}. Arguments l_sent {M A}. Arguments l_got {M A}. Arguments l_res {M A}.

Inductive llabel (M A : Type) :=
  | LEmit (m : M) | LFinish (a : A) | LFail | LQuit    (* the party, the process *)
  | LTick (n : N)
  | LTakeOut (ok : bool) | LTakeEnd | LTakeErr | LTakeQuit | LFire.   (* the select *)
Arguments LEmit {M A} m. Arguments LFinish {M A} a. Arguments LFail {M A}. Arguments LQuit {M A}. Arguments LTick {M A} n.
Arguments LTakeOut {M A} ok. Arguments LTakeEnd {M A}. Arguments LTakeErr {M A}. Arguments LTakeQuit {M A}. Arguments LFire {M A}.

Section Loop.
  Context {M A : Type} (T : N) (need : nat).

  Definition l_init : lstate M A := LState [] [] false false 0 0 [] [] None.
  (** A case of the select other than the timer is ready. *)
  Definition ready (s : lstate M A) : bool :=
    match l_out s, l_end s with [], [] => (l_err s || l_quit s)%bool | _, _ => true end.
  Definition ends (r : lres A) (s : lstate M A) : lstate M A :=
    LState (l_out s) (l_end s) (l_err s) (l_quit s) (l_idle s) (l_clock s) (l_sent s) (l_got s) (Some r).

  (** Time passes only while no case is ready, and not beyond the timer. *)
  Definition lstep (s : lstate M A) (l : llabel M A) : lstate M A :=
    match l with
    | LEmit m => LState (l_out s ++ [m]) (l_end s) (l_err s) (l_quit s) (l_idle s) (l_clock s) (l_sent s) (l_got s) (l_res s)
    | LFinish a => LState (l_out s) (l_end s ++ [a]) (l_err s) (l_quit s) (l_idle s) (l_clock s) (l_sent s) (l_got s) (l_res s)
    | LFail => LState (l_out s) (l_end s) true (l_quit s) (l_idle s) (l_clock s) (l_sent s) (l_got s) (l_res s)
    | LQuit => LState (l_out s) (l_end s) (l_err s) true (l_idle s) (l_clock s) (l_sent s) (l_got s) (l_res s)
    | _ =>
        match l_res s with
        | Some _ => s
        | None =>
            match l with
            | LTick n =>
                if (ready s || N.ltb T (l_idle s + n))%bool then s
                else LState (l_out s) (l_end s) (l_err s) (l_quit s) (l_idle s + n) (l_clock s + n) (l_sent s) (l_got s) None
            | LTakeOut ok =>
                match l_out s with
                | [] => s
                | m :: rest =>
                    LState rest (l_end s) (l_err s) (l_quit s) 0 (l_clock s) (l_sent s ++ [m]) (l_got s)
                      (if ok then None else Some LNotSent)
                end
            | LTakeEnd =>
                match l_end s with
                | [] => s
                | a :: rest =>
                    LState (l_out s) rest (l_err s) (l_quit s) 0 (l_clock s) (l_sent s) (l_got s ++ [a])
                      (if Nat.eqb (length (l_got s ++ [a])) need then Some (LDone (l_got s ++ [a])) else None)
                end
            | LTakeErr => if l_err s then ends LFailed s else s
            | LTakeQuit => if l_quit s then ends LStopped s else s
            | LFire => if N.leb T (l_idle s) then ends LTimeout s else s
            | _ => s
            end
        end
    end.
  Definition lrun (ls : list (llabel M A)) : lstate M A := fold_left lstep ls l_init.
End Loop.
