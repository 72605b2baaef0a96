(** Model of how the program serves requests and ends: cmd/tss/main.go:75-86,
    TssHttpServer.Start and Stop (cmd/tss/tss_http.go:129-143, 159-168), TssServer.Start and
    Stop (tss/tss.go:129-144), and the waiting for the stop channel in the ceremonies
    (keygen/tss_keygen.go:159, keysign/tss_keysign.go:193).

    One machine: the main goroutine, the goroutine that serves HTTP, one goroutine per
    request, the clock, and the sending side of the network ([M_Broadcast]), whose Stop is
    called on the way. net/http is external; taken from its documentation: Shutdown first
    closes the listeners, then returns when no request is being served, or with an error
    when its context ends. A failing close of a listener is an input.

    Simplifications: a request starts when its header has been read, and a connection
    carries one request; how long a request takes is an input, and that it gives up
    because of the stop channel is the step [SAbort]; host.Close and the removal of the
    stream handler return. The start of the node before main.go:75 is [M_Start]. *)
From Coq Require Import ZArith NArith Ascii String List.
From stdpp Require Import base list strings gmap.
From Verif Require Import Base M_Comm M_Broadcast.
Local Open Scope string_scope.

(** A request: being served, answered with its own result, or given up with "received
    exit signal". *)
Inductive rstat := Serving | Answered | GivenUp.

(** The goroutine of main.go:76-80: not listening yet, listening, or returned, with what it
    prints. *)
Inductive hstat := NotYet | Listening | Returned (e : option string).

(** The main goroutine. The number is the time at which TssHttpServer.Stop was called, the
    text the error Shutdown returned. *)
Inductive mstat :=
  | AwaitSignal                               (* main.go:83 *)
  | Signalled                                 (* main.go:84 *)
  | Draining (t0 : nat)                       (* tss_http.go:162 *)
  | Drained (t0 : nat) (e : option string)    (* tss_http.go:163-165 *)
  | Closing (t0 : nat) (e : option string)    (* tss.go:136-137, before p2pCommunication.Stop *)
  | Leaving (t0 : nat) (e : option string)    (* tss.go:138, inside p2pCommunication.Stop *)
  | Left (t0 : nat) (e : option string)       (* tss.go:139-143 *)
  | Exited (t0 : nat) (e : option string).    (* main.go:85-86; what is printed *)

Record prog := Prog {
  pg_now : nat;              (* milliseconds *)
  pg_http : hstat;
  pg_reqs : gmap nat rstat;
  pg_main : mstat;
  pg_stop : bool;            (* t.stopChan is closed *)
  pg_net : bstate;
}.
Definition p_init : prog := Prog 0 NotYet ∅ AwaitSignal false b_init.

(** tss_http.go:160 *)
Definition drain_time : nat := 10 * 1000.
(** The text of context.DeadlineExceeded *)
Definition deadline_exceeded : string := "context deadline exceeded".

Inductive plabel :=
  | STick (d : nat)
  | SListen (e : option string)  (* tss_http.go:136; [e]: why it cannot listen *)
  | SAccept (k : nat)
  | SAnswer (k : nat)
  | SAbort (k : nat)
  | SSignal
  | SStop                        (* tss_http.go:160-162 *)
  | SDrained (e : option string) (* Shutdown returns; [e]: the error of closing the listeners *)
  | SExpired                     (* Shutdown returns since the context ended *)
  | SCloseStop                   (* tss.go:136 *)
  | SP2pStop                     (* tss.go:138, up to the waiting *)
  | SP2pDone                     (* tss.go:138 returns *)
  | SExit                        (* tss.go:142-143, main.go:85-86 *)
  | SNet (l : blabel).           (* a step of the sending side *)

Definition is_serving (r : rstat) : bool := match r with Serving => true | _ => false end.
Definition all_done (m : gmap nat rstat) : bool := forallb (fun kr => negb (is_serving (snd kr))) (map_to_list m).
(** http.Server: Shutdown has been called *)
Definition shut (m : mstat) : bool := match m with AwaitSignal | Signalled => false | _ => true end.
Definition exited (m : mstat) : bool := match m with Exited _ _ => true | _ => false end.

Definition p_step (self : string) (l : plabel) (s : prog) : prog :=
  let '(Prog now h rs m st n) := s in
  if exited m then s else
  match l with
  | STick d => Prog (now + d) h rs m st n
  | SListen e =>
      match h with
      | NotYet =>
          (* ListenAndServe after Shutdown returns ErrServerClosed: tss_http.go:137-142 *)
          if shut m then Prog now (Returned None) rs m st n
          else match e with
               | Some w => Prog now (Returned (Some ("fail to start http server: " ++ w))) rs m st n
               | None => Prog now Listening rs m st n
               end
      | _ => s
      end
  | SAccept k =>
      match h, rs !! k with
      | Listening, None => Prog now h (<[k := Serving]> rs) m st n
      | _, _ => s
      end
  | SAnswer k => match rs !! k with Some Serving => Prog now h (<[k := Answered]> rs) m st n | _ => s end
  | SAbort k => match rs !! k, st with Some Serving, true => Prog now h (<[k := GivenUp]> rs) m st n | _, _ => s end
  | SSignal => match m with AwaitSignal => Prog now h rs Signalled st n | _ => s end
  | SStop =>
      match m with
      | Signalled => Prog now (match h with Listening => Returned None | _ => h end) rs (Draining now) st n
      | _ => s
      end
  | SDrained e => match m with Draining t0 => if all_done rs then Prog now h rs (Drained t0 e) st n else s | _ => s end
  | SExpired =>
      match m with
      | Draining t0 => if Nat.leb (t0 + drain_time) now then Prog now h rs (Drained t0 (Some deadline_exceeded)) st n else s
      | _ => s
      end
  | SCloseStop => match m with Drained t0 e => Prog now h rs (Closing t0 e) true n | _ => s end
  | SP2pStop => match m with Closing t0 e => Prog now h rs (Leaving t0 e) st (bstep self BStop n) | _ => s end
  | SP2pDone => match m, bs_stop n with Leaving t0 e, Stopped => Prog now h rs (Left t0 e) st n | _, _ => s end
  | SExit => match m with Left t0 e => Prog now h rs (Exited t0 e) st n | _ => s end
  | SNet BStop => s
  | SNet l => Prog now h rs m st (bstep self l n)
  end.
Definition p_run_from (self : string) (s : prog) (ls : list plabel) : prog := fold_left (fun s l => p_step self l s) ls s.
Definition p_run (self : string) (ls : list plabel) : prog := p_run_from self p_init ls.
