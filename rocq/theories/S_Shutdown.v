(** Vocabulary for how the program ends. *)
From Coq Require Import ZArith NArith Ascii String List.
From stdpp Require Import base list strings gmap.
From Verif Require Import Base M_Comm M_Broadcast S_Broadcast M_Shutdown.

(** When the stopping of the HTTP server began. *)
Definition stop_time (s : prog) : option nat :=
  match pg_main s with
  | AwaitSignal | Signalled => None
  | Draining t | Drained t _ | Closing t _ | Leaving t _ | Left t _ | Exited t _ => Some t
  end.
(** The program has ended and has printed this. *)
Definition ended_with (s : prog) (e : option string) : Prop := exists t, pg_main s = Exited t e.
(** Ceremonies are told to give up, the network is being closed, or the program is gone. *)
Definition tearing_down (s : prog) : Prop :=
  pg_stop s = true \/ bs_stop (pg_net s) <> NoStop \/ exists e, ended_with s e.
(** Steps that need neither a request to finish nor another node. *)
Definition by_itself (l : plabel) : Prop :=
  match l with
  | STick _ | SStop | SExpired | SCloseStop | SP2pStop | SP2pDone | SExit => True
  | SNet l => own_step l
  | _ => False
  end.
(** The time that passes, in milliseconds. *)
Fixpoint passing (ls : list plabel) : nat :=
  match ls with [] => 0 | STick d :: ls => d + passing ls | _ :: ls => passing ls end.
