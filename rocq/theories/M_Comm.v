(** Model of the subscriptions and of the stream bookkeeping: p2p/communication.go,
    p2p/message_id_subscriber.go, p2p/stream_helper.go (StreamMgr), and of the parts
    of tss/keygen.go and tss/keysign.go that use them.

    Every function that runs under a lock is one atomic step. A stream handler
    (readFromStream) is two steps: looking up the subscriber, and sending on its
    channel, which waits while the channel is full.

    Simplifications:
    - JSON decoding of a wrapped message is a parameter; only the type and the
      message id matter here;
    - the check of stopChan at the start of readFromStream is left out: it is the
      handler of a node that is shut down;
    - nil channels are never subscribed (the channel comes from make). *)
From Coq Require Import ZArith NArith Ascii String List.
From stdpp Require Import base list strings gmap.
From Verif Require Import Base M_Stream.

(** messages/p2p_message.go:11-28: a uint8. *)
Notation topic := nat (only parsing).
Definition TSSKeyGenMsg : topic := 0.
Definition TSSKeySignMsg : topic := 1.
Definition TSSKeyGenVerMsg : topic := 2.
Definition TSSKeySignVerMsg : topic := 3.
Definition TSSControlMsg : topic := 4.
Definition TSSTaskDone : topic := 5.

Notation chan := nat (only parsing).

(** p2p/communication.go:53 (subscribers) and message_id_subscriber.go:6-9 *)
Notation subs := (gmap topic (gmap string chan)) (only parsing).

(** message_id_subscriber.go:20-49 *)
Definition Subscribe (msgID : string) (c : chan) (ms : gmap string chan) := <[msgID := c]> ms.
Definition UnSubscribe (msgID : string) (ms : gmap string chan) := delete msgID ms.
Definition GetSubscriber (msgID : string) (ms : gmap string chan) : option chan := ms !! msgID.
Definition IsEmpty (ms : gmap string chan) : bool := Nat.eqb (size ms) 0.

(** communication.go:379-388 *)
Definition SetSubscribe (t : topic) (msgID : string) (c : chan) (s : subs) : subs :=
  match s !! t with
  | None => <[t := Subscribe msgID c ∅]> s
  | Some ms => <[t := Subscribe msgID c ms]> s
  end.

(** communication.go:390-399 *)
Definition getSubscriber (t : topic) (msgID : string) (s : subs) : option chan :=
  match s !! t with
  | None => None
  | Some ms => GetSubscriber msgID ms
  end.

(** communication.go:401-418 *)
Definition CancelSubscribe (t : topic) (msgID : string) (s : subs) : subs :=
  match s !! t with
  | None => s
  | Some ms =>
      let ms' := UnSubscribe msgID ms in
      if IsEmpty ms' then delete t s else <[t := ms']> s
  end.

(** ** StreamMgr, p2p/stream_helper.go:26-74 *)

Notation stream := nat (only parsing).
Definition UNKNOWN : string := "UNKNOWN".
Notation smgr := (gmap string (list stream)) (only parsing).

(** stream_helper.go:60-74; [None] is a nil stream *)
Definition AddStream (msgID : string) (st : option stream) (m : smgr) : smgr :=
  match st with
  | None => m
  | Some st =>
      match m !! msgID with
      | None => <[msgID := [st]]> m
      | Some entries => <[msgID := entries ++ [st]]> m
      end
  end.

(** stream_helper.go:42-46: what is read under the read lock: the streams to reset,
    and whether there is anything to do *)
Definition release_read (msgID : string) (m : smgr) : list stream * bool :=
  (default [] (m !! msgID) ++ default [] (m !! UNKNOWN),
   match m !! msgID, m !! UNKNOWN with None, None => false | _, _ => true end).

(** stream_helper.go:41-58 (ReleaseStream) run without interruption: the streams that
    were reset, in order, and the new table *)
Definition ReleaseStream (msgID : string) (m : smgr) : list stream * smgr :=
  let '(streams, ok) := release_read msgID m in
  if ok then (streams, delete msgID m) else ([], m).

(** The same with its two critical sections apart. A call in progress has an id, the
    streams it still has to reset. *)
Record call := Call { ca_id : string; ca_todo : list stream }.
Record smstate := SmState {
  sm_map : smgr;
  sm_calls : gmap nat call;
  sm_reset : list stream; (* resets so far, oldest first *)
}.
Definition sm_init : smstate := SmState ∅ ∅ [].
Inductive smlabel :=
  | SAdd (msgID : string) (st : option stream)
  | SRead (k : nat) (msgID : string)  (* call k: lines 42-46 *)
  | SReset (k : nat)                  (* call k: one iteration of the loop 48-53 *)
  | SDelete (k : nat).                (* call k: lines 54-56 *)
Definition sm_step (l : smlabel) (s : smstate) : smstate :=
  match l with
  | SAdd msgID st => SmState (AddStream msgID st (sm_map s)) (sm_calls s) (sm_reset s)
  | SRead k msgID =>
      match sm_calls s !! k with
      | Some _ => s
      | None =>
          let '(streams, ok) := release_read msgID (sm_map s) in
          if ok then SmState (sm_map s) (<[k := Call msgID streams]> (sm_calls s)) (sm_reset s)
          else s
      end
  | SReset k =>
      match sm_calls s !! k with
      | Some (Call i (st :: todo)) =>
          SmState (sm_map s) (<[k := Call i todo]> (sm_calls s)) (sm_reset s ++ [st])
      | _ => s
      end
  | SDelete k =>
      match sm_calls s !! k with
      | Some (Call i []) => SmState (delete i (sm_map s)) (delete k (sm_calls s)) (sm_reset s)
      | _ => s
      end
  end.
Definition sm_run (ls : list smlabel) : smstate := fold_left (fun s l => sm_step l s) ls sm_init.

(** ** Incoming messages and requests *)

(** communication.go:152-186 (readFromStream) up to the send: the key the stream is
    recorded under, and the channel and payload if there is a subscriber. *)
Record received := Received { rv_key : string; rv_to : option (chan * bytes) }.
Definition readFromStream (decode : bytes -> option (topic * string)) (frags : list bytes) (s : subs) : received :=
  match fst (fst (ReadStreamWithBuffer frags)) with
  | None => Received UNKNOWN None
  | Some dataBuf =>
      match decode dataBuf with
      | None => Received UNKNOWN None
      | Some (t, msgID) =>
          Received msgID
            match getSubscriber t msgID s with
            | None => None
            | Some c => Some (c, dataBuf)
            end
      end
  end.

Inductive kind := KGen | KSign.

(** tss/keygen.go:35-38 and tss/keysign.go:209-212 *)
Definition topics (k : kind) : list topic :=
  match k with
  | KGen => [TSSKeyGenMsg; TSSKeyGenVerMsg; TSSControlMsg; TSSTaskDone]
  | KSign => [TSSKeySignMsg; TSSKeySignVerMsg; TSSControlMsg; TSSTaskDone]
  end.

(** Where a request is: subscriptions still to make; at work; cancellations still to
    make. *)
Inductive stage := Subscribing (l : list topic) | Working | Cancelling (l : list topic) | Done.

(** A request; its channel (common/tss.go:65) has the number of the request. *)
Record request := Request {
  rq_kind : kind;
  rq_id : string;
  rq_cap : nat;                     (* capacity of the channel *)
  rq_stage : stage;
  rq_queue : list (string * bytes); (* in the channel: peer and payload *)
  rq_got : list (string * bytes);   (* taken from the channel, oldest first *)
}.
Definition with_stage st (r : request) := Request (rq_kind r) (rq_id r) (rq_cap r) st (rq_queue r) (rq_got r).
Definition with_queue q (r : request) := Request (rq_kind r) (rq_id r) (rq_cap r) (rq_stage r) q (rq_got r).
Definition with_got q g (r : request) := Request (rq_kind r) (rq_id r) (rq_cap r) (rq_stage r) q g.

(** A stream handler waiting to send. *)
Record handler := Handler { hd_peer : string; hd_chan : chan; hd_data : bytes }.

Record comm := Comm {
  cm_subs : subs;
  cm_reqs : gmap nat request;
  cm_handlers : gmap nat handler;
}.
Definition comm_init : comm := Comm ∅ ∅ ∅.

Inductive clabel :=
  (* request [r] starts, tss/keygen.go:13-34 and tss/keysign.go:185-208 *)
  | CStart (r : nat) (k : kind) (msgID : string) (cap : nat)
  (* next subscription or cancellation of request [r], keygen.go:35-44, keysign.go:209-218 *)
  | CNext (r : nat)
  (* request [r] is over; its deferred function starts *)
  | CEnd (r : nat)
  (* a stream arrives, handled by [h] *)
  | CStream (h : nat) (peer : string) (frags : list bytes)
  (* handler [h] sends on a channel that is not full *)
  | CSend (h : nat)
  (* the reader of request [r] takes a message; if the channel holds none, it takes it
     directly from the waiting handler [h] *)
  | CTake (r h : nat).

Definition is_done (st : stage) : bool := match st with Done => true | _ => false end.
(** Keygen holds tssKeyGenLocker (tss/keygen.go:14-15). *)
Definition keygen_busy (rs : gmap nat request) : bool :=
  existsb (fun '(_, r) => match rq_kind r with KGen => negb (is_done (rq_stage r)) | KSign => false end)
    (map_to_list rs).

Definition put_req (r : nat) (q : request) (s : comm) : comm :=
  Comm (cm_subs s) (<[r := q]> (cm_reqs s)) (cm_handlers s).

Definition cm_step (decode : bytes -> option (topic * string)) (l : clabel) (s : comm) : comm :=
  match l with
  | CStart r k msgID cap =>
      match cm_reqs s !! r with
      | Some _ => s
      | None =>
          match k, keygen_busy (cm_reqs s) with
          | KGen, true => s
          | _, _ => put_req r (Request k msgID cap (Subscribing (topics k)) [] []) s
          end
      end
  | CNext r =>
      match cm_reqs s !! r with
      | None => s
      | Some q =>
          match rq_stage q with
          | Subscribing (t :: l) =>
              Comm (SetSubscribe t (rq_id q) r (cm_subs s))
                (<[r := with_stage (match l with [] => Working | _ => Subscribing l end) q]> (cm_reqs s))
                (cm_handlers s)
          | Cancelling (t :: l) =>
              Comm (CancelSubscribe t (rq_id q) (cm_subs s))
                (<[r := with_stage (match l with [] => Done | _ => Cancelling l end) q]> (cm_reqs s))
                (cm_handlers s)
          | _ => s
          end
      end
  | CEnd r =>
      match cm_reqs s !! r with
      | None => s
      | Some q =>
          match rq_stage q with
          | Working => put_req r (with_stage (Cancelling (topics (rq_kind q))) q) s
          | _ => s
          end
      end
  | CStream h peer frags =>
      match cm_handlers s !! h with
      | Some _ => s
      | None =>
          match rv_to (readFromStream decode frags (cm_subs s)) with
          | None => s
          | Some (c, data) =>
              Comm (cm_subs s) (cm_reqs s) (<[h := Handler peer c data]> (cm_handlers s))
          end
      end
  | CSend h =>
      match cm_handlers s !! h with
      | None => s
      | Some (Handler peer c data) =>
          match cm_reqs s !! c with
          | None => s
          | Some q =>
              if Nat.ltb (length (rq_queue q)) (rq_cap q) then
                Comm (cm_subs s) (<[c := with_queue (rq_queue q ++ [(peer, data)]) q]> (cm_reqs s))
                  (delete h (cm_handlers s))
              else s
          end
      end
  | CTake r h =>
      match cm_reqs s !! r with
      | None => s
      | Some q =>
          match rq_stage q with
          | Working =>
              match rq_queue q with
              | m :: rest => put_req r (with_got rest (rq_got q ++ [m]) q) s
              | [] =>
                  match cm_handlers s !! h with
                  | Some (Handler peer c data) =>
                      if Nat.eqb c r then
                        Comm (cm_subs s) (<[r := with_got [] (rq_got q ++ [(peer, data)]) q]> (cm_reqs s))
                          (delete h (cm_handlers s))
                      else s
                  | None => s
                  end
              end
          | _ => s
          end
      end
  end.
Definition cm_run decode (ls : list clabel) : comm := fold_left (fun s l => cm_step decode l s) ls comm_init.
