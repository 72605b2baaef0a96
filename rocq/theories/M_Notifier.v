(** Waiting for signatures made by others: keysign/notifier.go and
    keysign/signature_notifier.go. *)
From Coq Require Import ZArith NArith Ascii String List.
From stdpp Require Import base list strings gmap.
From Verif Require Import Base.

(** tss-lib common.ECSignature: [Signature] distinguishes nil ([None]) from the
    empty slice, because ProcessSignature does. *)
Record ecsig := EcSig {
  sg_signature : option bytes;
  sg_recovery : bytes;
  sg_R : bytes;
  sg_S : bytes;
  sg_M : bytes }.

(** messages.KeysignSignature (messages/signature_notifier.pb.go): id, marshalled
    signatures and whether the status is Success. *)
Record ksmsg := KsMsg { km_id : string; km_sigs : list bytes; km_success : bool }.

(** Code outside the repository: Bech32 key to curve point (cosmos-sdk and
    btcec.ParsePubKey together, [None] when either fails), crypto/ecdsa
    verification, and protobuf. *)
Record nenv := NEnv {
  ne_point : string -> option (N * N);
  ne_verify : N * N -> bytes -> N -> N -> bool;
  ne_marshal_sig : ecsig -> option bytes;
  ne_unmarshal_sig : bytes -> option ecsig;
  ne_marshal : ksmsg -> option bytes;
  ne_unmarshal : bytes -> option ksmsg }.

(** keysign/notifier.go:15-20 (Notifier): [resp] has capacity one. *)
Record notifier := Notifier {
  no_id : string;
  no_messages : list bytes;
  no_pool : string;
  no_resp : option (list ecsig) }.

(** keysign/notifier.go:23-39 (NewNotifier); [None] is the error. *)
Definition NewNotifier (messageID : string) (messages : list bytes) (poolPubKey : string)
    : option notifier :=
  if Nat.eqb (String.length messageID) 0 then None
  else if Nat.eqb (length messages) 0 then None
  else if Nat.eqb (String.length poolPubKey) 0 then None
  else Some (Notifier messageID messages poolPubKey None).

Section Process.
  Variable E : nenv.

  (** keysign/notifier.go:45-56 (verifySignature); [None] is the error. *)
  Definition verifySignature (pool : string) (data : ecsig) (msg : bytes) : option bool :=
    match ne_point E pool with
    | None => None
    | Some p => Some (ne_verify E p msg (be_val (sg_R data)) (be_val (sg_S data)))
    end.

  (** What ProcessSignature does: the list goes into the response channel, an
      error, nothing, or an index out of range. *)
  Inductive psres := PsDeliver | PsErr | PsNone | PsPanic.

  (** The loop of keysign/notifier.go:67-79; [i] is the index of the head of [data]. *)
  Fixpoint verify_loop (pool : string) (messages : list bytes) (i : nat) (data : list ecsig)
      : psres :=
    match data with
    | [] => PsDeliver
    | eachSig :: rest =>
        match messages !! i with
        | None => PsPanic
        | Some msg =>
            match sg_signature eachSig with
            | None => PsErr
            | Some _ =>
                match verifySignature pool eachSig msg with
                | Some true => verify_loop pool messages (S i) rest
                | Some false | None => PsErr
                end
            end
        end
    end.

  (** keysign/notifier.go:61-83 (ProcessSignature), without the send on [resp]. *)
  Definition ProcessSignature (n : notifier) (data : list ecsig) : psres :=
    match data with
    | [] => PsNone
    | _ => verify_loop (no_pool n) (no_messages n) 0 data
    end.

  (** The loop of keysign/signature_notifier.go:81-88; [None]: one does not
      unmarshal. *)
  Fixpoint unmarshal_sigs (l : list bytes) : option (list ecsig) :=
    match l with
    | [] => Some []
    | el :: rest =>
        match ne_unmarshal_sig E el with
        | None => None
        | Some s => match unmarshal_sigs rest with None => None | Some r => Some (s :: r) end
        end
    end.

  (** The part of handleStream before the lock, keysign/signature_notifier.go:56-89:
      the message id and the signatures, or [None] when it returns early. The
      payload is [None] when the stream cannot be read. (The stream bookkeeping is
      in M_Stream; the "done" reply only matters to the sender.) *)
  Definition decode_notification (payload : option bytes) : option (string * list ecsig) :=
    match payload with
    | None => None
    | Some b =>
        match ne_unmarshal E b with
        | None => None
        | Some msg =>
            if (Nat.ltb 0 (length (km_sigs msg)) && km_success msg)%bool then
              match unmarshal_sigs (km_sigs msg) with
              | None => None
              | Some sigs => Some (km_id msg, sigs)
              end
            else Some (km_id msg, [])
        end
    end.
End Process.

(** ** The notifier of one node, with its concurrent WaitForSignature calls *)

Inductive wresult :=
  | WData (d : list ecsig)   (* a list was received *)
  | WErrNew                  (* NewNotifier refused *)
  | WErrTimeout
  | WErrSigGenerated.        (* the signal channel was readable *)

(** Where a call is: in the select, past it with the deferred removal to come, or
    returned. *)
Inductive wphase := WWaiting | WLeaving (r : wresult) | WDone (r : wresult).

Record nstate := NState {
  ns_notifiers : gmap string nat;            (* message id to call: SignatureNotifier.notifiers *)
  ns_calls : gmap nat (notifier * wphase);
  ns_crashed : bool;                         (* a handler panicked: the process is gone *)
  ns_stuck : bool;                           (* a handler blocks on a full channel, lock held *)
  ns_log : list (nat * list ecsig) }.        (* ghost: the sends on response channels *)

Definition nstate0 : nstate := NState ∅ ∅ false false [].

Inductive nlabel :=
  | NCall (c : nat) (id : string) (msgs : list bytes) (pool : string)
  | NNotify (payload : option bytes)
  | NRecv (c : nat)
  | NTimeout (c : nat)
  | NSig (c : nat)
  | NRemove (c : nat).

Section Machine.
  Variable E : nenv.

  (** keysign/signature_notifier.go:199-205: NewNotifier and addToNotifiers. A call
      number is used once. *)
  Definition do_call (c : nat) (id : string) (msgs : list bytes) (pool : string) (s : nstate)
      : nstate :=
    match ns_calls s !! c with
    | Some _ => s
    | None =>
        match NewNotifier id msgs pool with
        | None =>
            NState (ns_notifiers s)
              (<[c := (Notifier id msgs pool None, WDone WErrNew)]> (ns_calls s))
              (ns_crashed s) (ns_stuck s) (ns_log s)
        | Some n =>
            NState (<[no_id n := c]> (ns_notifiers s)) (<[c := (n, WWaiting)]> (ns_calls s))
              (ns_crashed s) (ns_stuck s) (ns_log s)
        end
    end.

  (** The part of handleStream under the lock, keysign/signature_notifier.go:90-104,
      with the send of keysign/notifier.go:80. *)
  Definition do_locked (id : string) (sigs : list ecsig) (s : nstate) : nstate :=
    match ns_notifiers s !! id with
    | None => s
    | Some c =>
        match ns_calls s !! c with
        | None => s (* every registered notifier belongs to a call: not reachable *)
        | Some (n, ph) =>
            match ProcessSignature E n sigs with
            | PsPanic => NState (ns_notifiers s) (ns_calls s) true (ns_stuck s) (ns_log s)
            | PsErr | PsNone => s
            | PsDeliver =>
                match no_resp n with
                | Some _ => NState (ns_notifiers s) (ns_calls s) (ns_crashed s) true (ns_log s)
                | None =>
                    NState (delete id (ns_notifiers s))
                      (<[c := (Notifier (no_id n) (no_messages n) (no_pool n) (Some sigs), ph)]>
                         (ns_calls s))
                      (ns_crashed s) (ns_stuck s) (ns_log s ++ [(c, sigs)])
                end
            end
        end
    end.

  (** keysign/signature_notifier.go:56-104 (handleStream). *)
  Definition do_notify (payload : option bytes) (s : nstate) : nstate :=
    match decode_notification E payload with
    | None => s
    | Some (id, sigs) => do_locked id sigs s
    end.

  Definition set_phase (c : nat) (n : notifier) (ph : wphase) (s : nstate) : nstate :=
    NState (ns_notifiers s) (<[c := (n, ph)]> (ns_calls s)) (ns_crashed s) (ns_stuck s)
      (ns_log s).

  (** The select of keysign/signature_notifier.go:207-214: a case that is not
      ready is not chosen. *)
  Definition do_recv (c : nat) (s : nstate) : nstate :=
    match ns_calls s !! c with
    | Some (Notifier id msgs pool (Some d), WWaiting) =>
        set_phase c (Notifier id msgs pool None) (WLeaving (WData d)) s
    | _ => s
    end.

  Definition do_leave (r : wresult) (c : nat) (s : nstate) : nstate :=
    match ns_calls s !! c with
    | Some (n, WWaiting) => set_phase c n (WLeaving r) s
    | _ => s
    end.

  (** keysign/signature_notifier.go:192-196 (removeNotifier, deferred): it deletes
      whatever is registered under the id. *)
  Definition do_remove (c : nat) (s : nstate) : nstate :=
    match ns_calls s !! c with
    | Some (n, WLeaving r) =>
        NState (delete (no_id n) (ns_notifiers s)) (<[c := (n, WDone r)]> (ns_calls s))
          (ns_crashed s) (ns_stuck s) (ns_log s)
    | _ => s
    end.

  Definition nstep (s : nstate) (l : nlabel) : nstate :=
    if (ns_crashed s || ns_stuck s)%bool then s
    else match l with
    | NCall c id msgs pool => do_call c id msgs pool s
    | NNotify p => do_notify p s
    | NRecv c => do_recv c s
    | NTimeout c => do_leave WErrTimeout c s
    | NSig c => do_leave WErrSigGenerated c s
    | NRemove c => do_remove c s
    end.

  Definition nrun (ls : list nlabel) : nstate := fold_left nstep ls nstate0.
End Machine.

(** ** Telling the others *)

Section Broadcast.
  Variable E : nenv.

  Fixpoint marshal_sigs (l : list ecsig) : option (list bytes) :=
    match l with
    | [] => Some []
    | el :: rest =>
        match ne_marshal_sig E el with
        | None => None
        | Some b => match marshal_sigs rest with None => None | Some r => Some (b :: r) end
        end
    end.

  (** What sendOneMsgToPeer writes, keysign/signature_notifier.go:117-137: signature
      data that is nil ([None]) gives a failure message. [None]: an error before
      anything is written. *)
  Definition notification (messageID : string) (sig : option (list ecsig)) : option bytes :=
    match sig with
    | None => ne_marshal E (KsMsg messageID [] false)
    | Some l =>
        match marshal_sigs l with
        | None => None
        | Some bs => ne_marshal E (KsMsg messageID bs true)
        end
    end.

  (** keysign/signature_notifier.go:157-180 (broadcastCommon): one sendOneMsgToPeer
      per listed peer other than the host itself, in goroutines all of which are
      waited for; their errors are logged. The peers and what is written to each. *)
  Definition broadcastCommon (self : string) (messageID : string) (sig : option (list ecsig))
      (peers : list string) : list (string * option bytes) :=
    map (fun p => (p, notification messageID sig))
      (List.filter (fun p => negb (String.eqb p self)) peers).

  (** keysign/signature_notifier.go:153-155, 183-185 *)
  Definition BroadcastSignature (self messageID : string) (sig : option (list ecsig))
      (peers : list string) := broadcastCommon self messageID sig peers.
  Definition BroadcastFailed (self messageID : string) (peers : list string) :=
    broadcastCommon self messageID None peers.
End Broadcast.
