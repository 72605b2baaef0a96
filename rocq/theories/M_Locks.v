(** Model of the locks of one node: which lock is taken where, and which shared tables are
    read and written meanwhile.

    A goroutine is a sequence of the calls below; every function that takes a lock is
    listed, with the paths through it chosen by its arguments. The functions that are made
    of such calls (ProcessOneMessage, applyShare, joinPartyLeader, KeySign, ...) hold no
    lock between them, so that they are sequences of calls; the exception is Keygen, which
    holds its lock all the time ([Keygen]).

    Simplifications: waiting for anything but a lock (a channel, a timer, the network) is
    left out: it takes place outside these calls or in Keygen, and ends by itself (C48,
    C75, C107, C159). The locks of the libraries, and sync.Map and sync.WaitGroup, are
    left out. What is written only before the goroutines of a ceremony are started
    (PartyIDtoP2PID, the party of the blame manager) or is known to the goroutine of the
    inbound messages only (the messages and the hashes of the cache, finishedPeers, and
    the confirmations, which line 607 of common/tss.go reads without their lock) is no
    location here. LocalCacheItem.GetPeers is called by tests only. Every ceremony, cache
    item, join, topic and stream manager has locks of its own, hence the numbers. *)
From Coq Require Import List.
From stdpp Require Import base list.
From Verif Require Import Base.

(** The locks *)
Inductive lock :=
  | LKeygen                  (* tss/tss.go:36, tssKeyGenLocker *)
  | LParty (c : nat)         (* common/tss.go:33, partyLock *)
  | LUnconfirmed (c : nat)   (* common/tss.go:36, unConfirmedMsgLock *)
  | LPeers (c : nat)         (* common/tss.go:41, P2PPeersLock *)
  | LCulprits (c : nat)      (* common/tss.go:49, culpritsLock *)
  | LItem (i : nat)          (* common/local_cache_item.go:13, lock *)
  | LBlame (c : nat)         (* blame/types.go:45, blameLock *)
  | LStore (c : nat)         (* blame/round_mgr.go:17, storeLocker *)
  | LRequested (c : nat)     (* blame/share_mgr.go:9, reqLocker *)
  | LLastMsg (c : nat)       (* blame/manager.go:20, lastMsgLocker *)
  | LAccept (c : nat)        (* blame/manager.go:23, acceptShareLocker *)
  | LBook                    (* storage/localstate_mgr.go:42, writeLock *)
  | LStatus (g : nat)        (* p2p/peer_status.go:14, peerStatusLock *)
  | LResponse (g : nat)      (* p2p/peer_status.go:18, leaderResponseLock *)
  | LStreams (m : nat)       (* p2p/stream_helper.go:29, streamLocker *)
  | LSubscribers             (* p2p/communication.go:57, subscriberLocker *)
  | LTopic (t : nat)         (* p2p/message_id_subscriber.go:7, lock *)
  | LGroups                  (* p2p/party_coordinator.go:36, joinPartyGroupLock *)
  | LNotifiers.              (* keysign/signature_notifier.go:35, notifierLock *)
Global Instance lock_eq_dec : EqDecision lock.
Proof. solve_decision. Defined.

(** What goroutines share *)
Inductive loc :=
  | XPartyInfo (c : nat)     (* TssCommon.partyInfo *)
  | XUnconfirmed (c : nat)   (* TssCommon.unConfirmedMessages *)
  | XPeers (c : nat)         (* TssCommon.P2PPeers *)
  | XCulprits (c : nat)      (* TssCommon.culprits *)
  | XReason (c : nat)        (* Blame.FailReason and Blame.IsUnicast *)
  | XBlamed (c : nat)        (* Blame.BlameNodes *)
  | XStored (c : nat)        (* RoundMgr.storedMsg *)
  | XRequested (c : nat)     (* ShareMgr.requested *)
  | XLastMsg (c : nat)       (* Manager.lastMsg *)
  | XUnicast (c : nat)       (* Manager.lastUnicastPeer *)
  | XAccepted (c : nat)      (* Manager.acceptedShares *)
  | XAcceptedArray (c : nat) (* the array behind an entry of it *)
  | XBook                    (* the address book *)
  | XResponses (g : nat)     (* PeerStatus.peersResponse and reqCount *)
  | XLeader (g : nat)        (* PeerStatus.leader *)
  | XLeaderResponse (g : nat)(* PeerStatus.leaderResponse *)
  | XStreams (m : nat)       (* StreamMgr.unusedStreams *)
  | XStreamsArray (m : nat)  (* the array behind an entry of it *)
  | XTopics                  (* Communication.subscribers *)
  | XSubscribers (t : nat)   (* MessageIDSubscriber.subscribers *)
  | XGroups                  (* PartyCoordinator.peersGroup *)
  | XNotifiers.              (* SignatureNotifier.notifiers, and what is in them *)
Global Instance loc_eq_dec : EqDecision loc.
Proof. solve_decision. Defined.

(** [true]: exclusively (Lock), [false]: shared (RLock). [true] of an access: a write. *)
Inductive action :=
  | Acquire (ex : bool) (l : lock)
  | Release (ex : bool) (l : lock)
  | Access (w : bool) (x : loc).
Notation rd := (Access false).
Notation wr := (Access true).
Definition under (ex : bool) (l : lock) (body : list action) : list action :=
  Acquire ex l :: body ++ [Release ex l].

(** ** The calls *)

Inductive call :=
  (* common *)
  | SetPartyInfo (c : nat) | GetPartyInfo (c : nat)
  | ProcessInvalidMsgBlame (c culprits : nat) | CheckCulprits (c : nat) | TaskDoneMessage (c : nat)
  | TryGetLocalCacheItem (c : nat) | TryGetAllLocalCached (c : nat) | UpdateUnconfirmed (c : nat) | RemoveKey (c : nat)
  | CheckDup (c : nat) (item : option nat) | HashCheck (i : nat) (enough : bool) | UpdateConfirmList (i : nat)
  | SetPeers (c : nat) | ReadPeers (c : nat)
  (* blame *)
  | SetBlame (c : nat) | AddBlameNodes (c : nat) | AlreadyBlame (c : nat)
  | RoundGet (c : nat) | RoundSet (c : nat) | RoundByRound (c : nat)
  | ShareSet (c : nat) | ShareQuery (c : nat)
  | UpdateAcceptShare (c : nat) | CheckMsgDuplication (c : nat)
  | SetLastMsg (c : nat) | GetLastMsg (c : nat) | SetLastUnicastPeer (c : nat) | GetUnicastBlame (c : nat)
  | MissingShareBlame (c : nat) (room : bool)
  | TimeoutBlame (c : nat) (some_unicast none_found some_missing room : bool)
  (* storage *)
  | SaveAddressBook | RetrieveAddressBook
  (* p2p *)
  | AddStream (m : nat) (room : bool) | ReleaseStream (m : nat) (found room : bool)
  | SetSubscribe (t : nat) | GetSubscriber (t : nat) (found : bool) | CancelSubscribe (t : nat) (found empty : bool)
  | CreateGroup | FindGroup | RemoveGroup
  | UpdatePeer (g : nat) | GetPeersStatus (g : nat)
  | SetLeaderByLeader (g : nat) | SetLeaderByMember (g : nat)
  | ProcessResponse (g : nat) (found ours : bool) | GetLeaderResponse (g : nat)
  (* keysign *)
  | HandleSignature | AddNotifier | RemoveNotifier.

(** blame/blame.go:44-50 *)
Definition set_blame c := under true (LBlame c) [wr (XReason c); rd (XBlamed c); wr (XBlamed c)].
(** blame/blame.go:59-74 *)
Definition add_blame c := under true (LBlame c) [rd (XBlamed c); wr (XBlamed c)].
(** blame/round_mgr.go:27-53 *)
Definition stored_get c := under true (LStore c) [rd (XStored c)].
(** blame/manager.go:88-92 *)
Definition last_msg c := under false (LLastMsg c) [rd (XLastMsg c)].
(** blame/policy.go:70-79 *)
Definition unicast_blame c := under false (LLastMsg c) [rd (XUnicast c)].
(** common/tss.go:480-482, 711-717, common/tss_helper.go:232-234, keygen/tss_keygen.go:178-180 *)
Definition read_peers c := under false (LPeers c) [rd (XPeers c)].
(** blame/policy.go:135-198. The lists taken out of the table are appended to at line 178
    without the lock: [room], the array behind such a list has room for one entry more,
    e.g. when three shares are in it, and is written to. *)
Definition missing_blame c (room : bool) :=
  under true (LAccept c) [rd (XAccepted c)] ++ if room then [wr (XAcceptedArray c)] else [].
(** common/tss.go:811-819 *)
Definition try_get c := under true (LUnconfirmed c) [rd (XUnconfirmed c)].
(** p2p/party_coordinator.go:71-73, 94-96, 129-131 *)
Definition find_group := under true LGroups [rd XGroups].

Definition trace (k : call) : list action :=
  match k with
  (* common/tss.go:164-168 *)
  | SetPartyInfo c => under true (LParty c) [wr (XPartyInfo c)]
  (* common/tss.go:170-174 *)
  | GetPartyInfo c => under true (LParty c) [rd (XPartyInfo c)]
  (* common/tss.go:184-222 *)
  | ProcessInvalidMsgBlame c n =>
      under true (LCulprits c) [rd (XCulprits c); wr (XCulprits c)]
      ++ concat (repeat (stored_get c) n) ++ [rd (XPartyInfo c)] ++ set_blame c
  (* common/tss.go:299-305 *)
  | CheckCulprits c => under false (LCulprits c) [rd (XCulprits c)]
  (* common/tss.go:368 *)
  | TaskDoneMessage c => [rd (XPartyInfo c)]
  (* common/tss.go:811-842 *)
  | TryGetLocalCacheItem c => try_get c
  | TryGetAllLocalCached c => try_get c
  | UpdateUnconfirmed c => under true (LUnconfirmed c) [wr (XUnconfirmed c)]
  | RemoveKey c => under true (LUnconfirmed c) [wr (XUnconfirmed c)]
  (* common/tss.go:314-329 *)
  | CheckDup c item => try_get c ++ match item with None => [] | Some i => under true (LItem i) [] end
  (* common/tss.go:412-446, with common/local_cache_item.go:34-38 *)
  | HashCheck i enough => under true (LItem i) [] ++ if enough then under true (LItem i) [] else []
  (* common/local_cache_item.go:27-31 *)
  | UpdateConfirmList i => under true (LItem i) []
  (* keygen/tss_keygen.go:112-114, keysign/tss_keysign.go:138-140 *)
  | SetPeers c => under true (LPeers c) [wr (XPeers c)]
  | ReadPeers c => read_peers c
  | SetBlame c => set_blame c
  | AddBlameNodes c => add_blame c
  (* blame/blame.go:52-56 *)
  | AlreadyBlame c => under false (LBlame c) [rd (XBlamed c)]
  | RoundGet c => stored_get c
  (* blame/round_mgr.go:37-41 *)
  | RoundSet c => under true (LStore c) [wr (XStored c)]
  | RoundByRound c => stored_get c
  (* blame/share_mgr.go:19-31 *)
  | ShareSet c => under true (LRequested c) [wr (XRequested c)]
  | ShareQuery c => under true (LRequested c) [rd (XRequested c); wr (XRequested c)]
  (* blame/manager.go:55-66 *)
  | UpdateAcceptShare c => under true (LAccept c) [rd (XAccepted c); wr (XAcceptedArray c); wr (XAccepted c)]
  (* blame/manager.go:68-80 *)
  | CheckMsgDuplication c => under true (LAccept c) [rd (XAccepted c); rd (XAcceptedArray c)]
  (* blame/manager.go:82-86 *)
  | SetLastMsg c => under true (LLastMsg c) [wr (XLastMsg c)]
  | GetLastMsg c => last_msg c
  (* blame/manager.go:108-119 *)
  | SetLastUnicastPeer c => under true (LLastMsg c) [rd (XUnicast c); wr (XUnicast c)]
  | GetUnicastBlame c => unicast_blame c
  | MissingShareBlame c room => missing_blame c room
  (* keygen/tss_keygen.go:162-205, keysign/tss_keysign.go:195-246: FailReason, BlameNodes
     and IsUnicast are accessed without their lock *)
  | TimeoutBlame c some_unicast none_found some_missing room =>
      last_msg c ++ [rd (XReason c)] ++ unicast_blame c ++ read_peers c
      ++ (if some_unicast then set_blame c else [])
      ++ stored_get c ++ add_blame c ++ [rd (XBlamed c)]
      ++ if none_found then missing_blame c room ++ if some_missing then add_blame c ++ [wr (XReason c)] else [] else []
  (* storage/localstate_mgr.go:134-136, 149-155 *)
  | SaveAddressBook => under true LBook [wr XBook]
  | RetrieveAddressBook => under false LBook [rd XBook]
  (* p2p/stream_helper.go:60-73 *)
  | AddStream m room => under true (LStreams m) ([rd (XStreams m)] ++ (if room then [wr (XStreamsArray m)] else []) ++ [wr (XStreams m)])
  (* p2p/stream_helper.go:41-58; line 46 appends to a list of the table without the lock *)
  | ReleaseStream m found room =>
      under false (LStreams m) [rd (XStreams m)]
      ++ (if room then [wr (XStreamsArray m)] else [])
      ++ if found then under true (LStreams m) [wr (XStreams m)] else []
  (* p2p/communication.go:379-389, p2p/message_id_subscriber.go:20-24 *)
  | SetSubscribe t => under true LSubscribers ([rd XTopics; wr XTopics] ++ under true (LTopic t) [wr (XSubscribers t)])
  (* p2p/communication.go:391-400, p2p/message_id_subscriber.go:34-42 *)
  | GetSubscriber t found =>
      under true LSubscribers ([rd XTopics] ++ if found then under true (LTopic t) [rd (XSubscribers t)] else [])
  (* p2p/communication.go:402-418, p2p/message_id_subscriber.go:27-31, 45-49 *)
  | CancelSubscribe t found empty =>
      under true LSubscribers ([rd XTopics] ++
        if found then under true (LTopic t) [wr (XSubscribers t)] ++ under true (LTopic t) [rd (XSubscribers t)]
                      ++ if empty then [wr XTopics] else []
        else [])
  (* p2p/party_coordinator.go:202-206 *)
  | CreateGroup => under true LGroups [wr XGroups]
  | FindGroup => find_group
  (* p2p/party_coordinator.go:190-194 *)
  | RemoveGroup => under true LGroups [wr XGroups]
  (* p2p/peer_status.go:78-106 *)
  | UpdatePeer g => under true (LStatus g) [rd (XResponses g); rd (XLeader g); wr (XResponses g)]
  (* p2p/peer_status.go:62-76 *)
  | GetPeersStatus g => under false (LStatus g) [rd (XResponses g)]
  (* p2p/party_coordinator.go:422-424 *)
  | SetLeaderByLeader g => under true (LStatus g) [wr (XLeader g)]
  (* p2p/party_coordinator.go:336: without a lock, when the group is already in the table *)
  | SetLeaderByMember g => [wr (XLeader g)]
  (* p2p/party_coordinator.go:67-90, p2p/peer_status.go:30-34: the leader is read without a lock *)
  | ProcessResponse g found ours =>
      find_group ++ if found then [rd (XLeader g)] ++ if ours then under true (LResponse g) [wr (XLeaderResponse g)] else [] else []
  (* p2p/peer_status.go:24-28 *)
  | GetLeaderResponse g => under false (LResponse g) [rd (XLeaderResponse g)]
  (* keysign/signature_notifier.go:89-103, 186-196 *)
  | HandleSignature => under true LNotifiers [rd XNotifiers; wr XNotifiers]
  | AddNotifier => under true LNotifiers [wr XNotifiers]
  | RemoveNotifier => under true LNotifiers [wr XNotifiers]
  end.

(** tss/keygen.go:14-15: Keygen holds its lock until it returns. *)
Inductive job := Plain (k : call) | Keygen (body : list call).
Definition job_trace (j : job) : list action :=
  match j with
  | Plain k => trace k
  | Keygen body => under true LKeygen (concat (map trace body))
  end.

(** ** Execution *)

(** A goroutine: the locks it holds, the last one first, and what it has still to do *)
Record thread := Thread { held : list (bool * lock); todo : list action }.
Notation state := (list thread).
Definition start (gs : list (list job)) : state := map (fun g => Thread [] (concat (map job_trace g))) gs.

Definition holds (ex : bool) (l : lock) (t : thread) : Prop := (ex, l) ∈ held t.
(** A lock can be had exclusively if nobody holds it, and shared if nobody holds it
    exclusively (sync.Mutex, sync.RWMutex). *)
Definition free (ex : bool) (l : lock) (s : state) : Prop :=
  forall t, t ∈ s -> ~ holds true l t /\ (ex = true -> ~ holds false l t).
Fixpoint drop_lock (h : bool * lock) (hs : list (bool * lock)) : list (bool * lock) :=
  match hs with
  | [] => []
  | h' :: r => if decide (h = h') then r else h' :: drop_lock h r
  end.
Inductive tstep (s : state) : thread -> thread -> Prop :=
  | T_acquire ex l hs r : free ex l s -> tstep s (Thread hs (Acquire ex l :: r)) (Thread ((ex, l) :: hs) r)
  | T_release ex l hs r : (ex, l) ∈ hs -> tstep s (Thread hs (Release ex l :: r)) (Thread (drop_lock (ex, l) hs) r)
  | T_access w x hs r : tstep s (Thread hs (Access w x :: r)) (Thread hs r).
Inductive step : state -> state -> Prop :=
  | Step i t t' s : s !! i = Some t -> tstep s t t' -> step s (<[i := t']> s).
(** A waiting writer may hold back readers that come later (sync.RWMutex); such a step
    may have to wait. *)
Definition waits_exclusively (l : lock) (t : thread) : Prop := exists r, todo t = Acquire true l :: r.
Definition held_back (s : state) (t : thread) : Prop :=
  exists l r, todo t = Acquire false l :: r /\ exists u, u ∈ s /\ waits_exclusively l u.
Inductive sure_step : state -> state -> Prop :=
  | Sure i t t' s : s !! i = Some t -> tstep s t t' -> ~ held_back s t -> sure_step s (<[i := t']> s).
