(** Vocabulary for the sending side. *)
From Coq Require Import ZArith NArith Ascii String List.
From stdpp Require Import base list strings gmap.
From Verif Require Import Base S_Stream M_Comm M_Wire M_Broadcast.

(** The messages the ceremonies asked to send, in order, whether or not there was room. *)
Definition asked (tr : list blabel) : list post := omap (fun l => match l with BPut p => Some p | _ => None end) tr.

(** How often the [k]-th message went to peer [q], and how often [q] is listed. *)
Definition times_sent (k : nat) (q : string) (s : bstate) : nat :=
  length (filter (fun o => ou_task o = k /\ ou_peer o = q) (bs_out s)).
Definition times_listed (q : string) (p : post) : nat := length (filter (fun x => x = q) (po_peers p)).

(** The [i]-th goroutine of the [k]-th message does not move in [tr]. *)
Definition untouched (k i : nat) (tr : list blabel) : Prop :=
  Forall (fun l => match l with BOpen k' i' _ | BWrite k' i' _ => ~ (k' = k /\ i' = i) | _ => True end) tr.
(** Steps of the node itself: no new request, no Stop, no release. *)
Definition own_step (l : blabel) : Prop :=
  match l with BTake | BExit | BOpen _ _ _ | BWrite _ _ _ | BOver _ | BStopped => True | _ => False end.

(** The [k]-th message was written to peer [q] as one whole frame. *)
Definition delivered (s : bstate) (k : nat) (q : string) (data : bytes) : Prop :=
  exists o, o ∈ bs_out s /\ ou_task o = k /\ ou_peer o = q /\ frame data (ou_bytes o).

(** A stream is recorded, or was reset. *)
Definition accounted (s : bstate) (st : nat) (id : string) : Prop :=
  (exists l, bs_mgr s !! id = Some l /\ st ∈ l) \/ st ∈ bs_reset s.

(** The goroutine for the [i]-th listed peer of the [k]-th message exists; has ended; has
    stream [st] open for id [id]. *)
Definition started (s : bstate) (k i : nat) : Prop := exists t x, get_send k i (bs_tasks s) = Some (t, x).
Definition finished (s : bstate) (k i : nat) : Prop :=
  exists t x, get_send k i (bs_tasks s) = Some (t, x) /\ sd_stat x = SEnd.
Definition in_use (ts : list task) (st : nat) (id : string) : Prop :=
  exists k i t p, get_send k i ts = Some (t, Send p (SOpen st)) /\ wr_id (po_msg (tk_post t)) = id.

(** How often Stop was called. *)
Definition stop_calls (tr : list blabel) : nat :=
  length (omap (fun l => match l with BStop => Some tt | _ => None end) tr).
