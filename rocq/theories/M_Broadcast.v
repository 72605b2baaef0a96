(** Model of the sending side of p2p/communication.go: the queue of messages to send
    (BroadcastMsgChan), ProcessBroadcast, Broadcast, broadcastToPeers, writeToStream,
    connectToOnePeer, Stop, and ReleaseStream as seen from there.

    One machine: the loop of ProcessBroadcast, one goroutine broadcastToPeers per message
    taken (a [task]), and one goroutine per listed peer (a [send]). Whether a peer can be
    reached, which stream is opened, and how many bytes it accepts are inputs. The
    goroutines of the ceremonies that fill the queue (common/tss.go:143-145) are the label
    [BPut]; it does nothing while the queue is full, where the Go code waits.

    Simplifications: Start has succeeded; only one ReleaseStream runs at a time and
    without interruption (interruptions are in [M_Comm]); the messages other nodes send
    are not here. *)
From Coq Require Import ZArith NArith Ascii String List.
From stdpp Require Import base list strings gmap.
From Verif Require Import Base M_Stream M_Comm M_Json M_Wire.

(** messages/p2p_message.go:54-57 (BroadcastMsgChan) *)
Record post := Post { po_peers : list string; po_msg : wrapped }.
(** communication.go:427: json.Marshal of the wrapped message *)
Definition post_data (p : post) : bytes := json_enc (wrapped_json (po_msg p)).

(** One goroutine of communication.go:120-125: not yet connected, with an open stream,
    or finished. *)
Inductive sstat := SReady | SOpen (st : stream) | SEnd.
Record send := Send { sd_peer : string; sd_stat : sstat }.
(** One call of broadcastToPeers; [tk_over]: it has returned. *)
Record task := Task { tk_post : post; tk_sends : list send; tk_over : bool }.
(** What was written to a stream for the [ou_task]-th message taken. *)
Record out := Out { ou_task : nat; ou_peer : string; ou_stream : stream; ou_id : string; ou_bytes : bytes }.

Inductive stopping := NoStop | Waiting | Stopped.
Record bstate := BState {
  bs_accepted : list post;  (* everything ever put in the queue, oldest first *)
  bs_queue : list post;
  bs_loop : bool;           (* ProcessBroadcast is running *)
  bs_tasks : list task;     (* oldest first *)
  bs_wg : Z;                (* the counter of c.wg *)
  bs_stop : stopping;       (* where the call of Stop is *)
  bs_crash : bool;
  bs_opened : list (stream * string); (* streams opened so far, with the message id *)
  bs_out : list out;        (* oldest first *)
  bs_mgr : gmap string (list stream); (* streamMgr *)
  bs_reset : list stream;   (* streams that were reset *)
}.
(** The state after Start, communication.go:358-365 *)
Definition b_init : bstate := BState [] [] true [] 1 NoStop false [] [] ∅ [].

(** communication.go:87 *)
Definition queue_cap : nat := 1024.

Inductive blabel :=
  | BPut (p : post)
  | BTake                                          (* communication.go:426-433 *)
  | BExit                                          (* communication.go:435-436 *)
  | BOpen (k i : nat) (r : option stream)          (* lines 130-141; [None]: no connection *)
  | BWrite (k i : nat) (cap : nat)                 (* lines 143-149; the stream accepts [cap] bytes *)
  | BOver (k : nat)                                (* lines 126, 113 *)
  | BStop                                          (* lines 369-373 *)
  | BStopped                                       (* lines 374-375 *)
  | BRelease (msgID : string).                     (* lines 441-443 *)

Definition set_send (k i : nat) (x : send) (l : list task) : list task :=
  match l !! k with
  | Some t => <[k := Task (tk_post t) (<[i := x]> (tk_sends t)) (tk_over t)]> l
  | None => l
  end.
Definition get_send (k i : nat) (l : list task) : option (task * send) :=
  match l !! k with
  | Some t => match tk_sends t !! i with Some x => Some (t, x) | None => None end
  | None => None
  end.
Definition is_end (x : send) : bool := match sd_stat x with SEnd => true | _ => false end.

Definition bstep (self : string) (l : blabel) (s : bstate) : bstate :=
  let '(BState acc q lp ts wg stp cr op os m rs) := s in
  if cr then s else
  match l with
  | BPut p => if Nat.ltb (length q) queue_cap then BState (acc ++ [p]) (q ++ [p]) lp ts wg stp cr op os m rs else s
  | BTake =>
      match lp, q with
      | true, p :: q' =>
          (* Broadcast, lines 104-111 *)
          match po_peers p with
          | [] => BState acc q' lp (ts ++ [Task p [] true]) wg stp cr op os m rs
          | ps => BState acc q' lp (ts ++ [Task p (map (fun x => Send x SReady) ps) false]) (wg + 1) stp cr op os m rs
          end
      | _, _ => s
      end
  | BExit =>
      match lp, stp with
      | true, (Waiting | Stopped) => BState acc q false ts (wg - 1) stp cr op os m rs
      | _, _ => s
      end
  | BOpen k i r =>
      match get_send k i ts with
      | Some (t, Send p SReady) =>
          if String.eqb p self then BState acc q lp (set_send k i (Send p SEnd) ts) wg stp cr op os m rs
          else match r with
               | None => BState acc q lp (set_send k i (Send p SEnd) ts) wg stp cr op os m rs
               | Some st => BState acc q lp (set_send k i (Send p (SOpen st)) ts) wg stp cr
                              (op ++ [(st, wr_id (po_msg (tk_post t)))]) os m rs
               end
      | _ => s
      end
  | BWrite k i cap =>
      match get_send k i ts with
      | Some (t, Send p (SOpen st)) =>
          let id := wr_id (po_msg (tk_post t)) in
          let w := snd (WriteStreamWithBuffer (post_data (tk_post t)) (Writer [] cap)) in
          BState acc q lp (set_send k i (Send p SEnd) ts) wg stp cr op
            (os ++ [Out k p st id (wr_out w)]) (AddStream id (Some st) m) rs
      | _ => s
      end
  | BOver k =>
      match ts !! k with
      | Some (Task p l false) =>
          if forallb is_end l then BState acc q lp (<[k := Task p l true]> ts) (wg - 1) stp cr op os m rs else s
      | _ => s
      end
  | BStop =>
      match stp with
      | NoStop => BState acc q lp ts wg Waiting cr op os m rs
      | _ => BState acc q lp ts wg stp true op os m rs  (* close of a closed channel *)
      end
  | BStopped =>
      match stp with
      | Waiting => if Z.eqb wg 0 then BState acc q lp ts wg Stopped cr op os m rs else s
      | _ => s
      end
  | BRelease msgID =>
      let '(streams, m') := ReleaseStream msgID m in
      BState acc q lp ts wg stp cr op os m' (rs ++ streams)
  end.
Definition brun_from (self : string) (s : bstate) (tr : list blabel) : bstate := fold_left (fun s l => bstep self l s) tr s.
Definition brun (self : string) (tr : list blabel) : bstate := brun_from self b_init tr.
