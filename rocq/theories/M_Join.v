(** Model of the join-party phase: p2p/peer_status.go and p2p/party_coordinator.go.

    A machine whose steps are the critical sections and channel operations of the
    code: the calls of JoinPartyWithLeader and JoinPartyWithRetry, each with its
    PeerStatus ("group"), and the goroutines that handle incoming streams.

    Simplifications:
    - a peer.ID is represented by its String(); peer.Decode is a parameter that gives
      the String() of the decoded id;
    - incoming messages are given decoded; a payload that cannot be read or decoded
      (lines 116-127, 152-172) and a message of another MsgType touch no group;
    - a node is never connected to itself, so no message comes from the own peer id
      (libp2p refuses to dial itself), and no peer id is written "NONE" (it is the
      base58 form of a multihash);
    - sending requests and responses is not modelled, except for the content of the
      leader's response; the sending goroutine never changes a group. A call returns
      only after its senders are done, which a schedule expresses by a late [LFinish];
    - timers: a timeout may happen at any time. *)
From Coq Require Import ZArith NArith Ascii String List.
From stdpp Require Import base list strings gmap.
From Verif Require Import Base M_Conv.

(** messages/join_party.proto:11-24 *)
Record leadermsg := LeaderMsg {
  lm_id : string; lm_msgtype : string; lm_type : nat; lm_peers : list string }.
Definition JoinParty_Success : nat := 1.
Definition JoinParty_Timeout : nat := 2.

(** What can come in: a JoinPartyRequest (old protocol) or a JoinPartyLeaderComm. *)
Inductive incoming := InOld (id : string) | InLeader (m : leadermsg).

(** p2p/peer_status.go:12-22. The two channels are buffered; only their number of
    elements matters. [g_in] is a ghost: the messages that were matched with this
    group, and their senders. *)
Record group := Group {
  g_members : gmap string bool; (* peersResponse *)
  g_notify : nat;
  g_newfound : nat;
  g_cap : nat;
  g_resp : option leadermsg;    (* leaderResponse *)
  g_leader : string;
  g_threshold : Z;
  g_count : Z;                  (* reqCount *)
  g_in : list (string * incoming);
}.
Definition g_set_members m (g : group) := Group m (g_notify g) (g_newfound g) (g_cap g) (g_resp g) (g_leader g) (g_threshold g) (g_count g) (g_in g).
Definition g_set_notify n (g : group) := Group (g_members g) n (g_newfound g) (g_cap g) (g_resp g) (g_leader g) (g_threshold g) (g_count g) (g_in g).
Definition g_set_newfound n (g : group) := Group (g_members g) (g_notify g) n (g_cap g) (g_resp g) (g_leader g) (g_threshold g) (g_count g) (g_in g).
Definition g_set_resp r (g : group) := Group (g_members g) (g_notify g) (g_newfound g) (g_cap g) r (g_leader g) (g_threshold g) (g_count g) (g_in g).
Definition g_set_count n (g : group) := Group (g_members g) (g_notify g) (g_newfound g) (g_cap g) (g_resp g) (g_leader g) (g_threshold g) n (g_in g).
Definition g_set_in l (g : group) := Group (g_members g) (g_notify g) (g_newfound g) (g_cap g) (g_resp g) (g_leader g) (g_threshold g) (g_count g) l.

(** peer_status.go:36-55 *)
Fixpoint dat_loop (peers : list string) (me : string) (dat : gmap string bool) : gmap string bool :=
  match peers with
  | [] => dat
  | el :: rest => dat_loop rest me (if decide (el = me) then dat else <[el := false]> dat)
  end.
Definition NewPeerStatus (peers : list string) (me leader : string) (threshold : Z) : group :=
  Group (dat_loop peers me ∅) 0 0 (length peers) None leader threshold 0 [].

(** peer_status.go:62-76; the online peers in some order *)
Definition getOnline (ord : order) (g : group) : list string :=
  permute ord (map (fun x : string * bool => fst x) (List.filter (fun x : string * bool => snd x) (map_to_list (g_members g)))).
(** peer_status.go:57-60 *)
Definition getCoordinationStatus (g : group) : bool :=
  forallb (fun x : string * bool => snd x) (map_to_list (g_members g)).

(** peer_status.go:78-106; [None] is the error "key not found" *)
Definition updatePeer (p : string) (g : group) : group * option bool :=
  match g_members g !! p : option bool with
  | None => (g, None)
  | Some val =>
      if decide (g_leader g = "NONE"%string) then
        if val then (g, Some false)
        else (g_set_members (<[p := true]> (g_members g)) g, Some true)
      else if Z.leb (g_threshold g) (g_count g) then (g, Some false)
      else if val then (g, Some false)
      else
        let g' := g_set_count (g_count g + 1) (g_set_members (<[p := true]> (g_members g)) g) in
        (g', Some (Z.leb (g_threshold g) (g_count g')))
  end.

(** The errors of party_coordinator.go:22-28 and the unnamed ones. *)
Inductive jerr :=
  | ENone | ETimeout | ELeaderNotReady | ESignReceived | ENotEnough | EDecode | EInvalid.
(** What a call returns; [None] is a nil list. *)
Record outcome := Outcome { oc_peers : option (list string); oc_err : jerr }.

Inductive role :=
  | RLeader (peers : list string)
  | RMember (leader : string)
  | RLeaderless (peers : list string).

Inductive jstage :=
  | JWait                       (* in the select loop *)
  | JWoken                      (* the waiting goroutine is done *)
  | JChecked                    (* member: after lines 382-394 *)
  | JIds (ids : list string)    (* member: after lines 396-406 *)
  | JDone (o : outcome).

Record jcall := JCall {
  jc_msg : string;
  jc_role : role;
  jc_threshold : Z;
  jc_sig : list string;         (* sigChan *)
  jc_notified : string;         (* sigNotify *)
  jc_stage : jstage;
  jc_sent : option leadermsg;   (* leader: the response sent to everybody *)
}.
Definition jc_set_sig v (c : jcall) := JCall (jc_msg c) (jc_role c) (jc_threshold c) v (jc_notified c) (jc_stage c) (jc_sent c).
Definition jc_set_notified v (c : jcall) := JCall (jc_msg c) (jc_role c) (jc_threshold c) (jc_sig c) v (jc_stage c) (jc_sent c).
Definition jc_set_stage v (c : jcall) := JCall (jc_msg c) (jc_role c) (jc_threshold c) (jc_sig c) (jc_notified c) v (jc_sent c).
Definition jc_set_sent v (c : jcall) := JCall (jc_msg c) (jc_role c) (jc_threshold c) (jc_sig c) (jc_notified c) (jc_stage c) v.

(** Handler goroutines, between two steps. *)
Inductive jhandler :=
  | HUpdate (g : nat) (peer : string) (old : bool) (* before updatePeer; [old]: HandleStream *)
  | HResp (g : nat) (peer : string) (m : leadermsg) (* before line 78 *)
  | HNotify (g : nat)                              (* before "notify <- true" *)
  | HNewFound (g : nat).                           (* before "newFound <- true" *)

(** The coordinator. The group of call [j] has number [j]. *)
Record jstate := JState {
  j_groups : gmap nat group;
  j_index : gmap string nat;  (* peersGroup *)
  j_calls : gmap nat jcall;
  j_handlers : gmap nat jhandler;
}.
Definition j_init : jstate := JState ∅ ∅ ∅ ∅.
Definition set_group k g (s : jstate) := JState (<[k := g]> (j_groups s)) (j_index s) (j_calls s) (j_handlers s).
Definition set_call k c (s : jstate) := JState (j_groups s) (j_index s) (<[k := c]> (j_calls s)) (j_handlers s).
Definition set_handler k h (s : jstate) := JState (j_groups s) (j_index s) (j_calls s) (<[k := h]> (j_handlers s)).
Definition end_handler k (s : jstate) := JState (j_groups s) (j_index s) (j_calls s) (delete k (j_handlers s)).

Inductive jlabel :=
  | LJoin (j : nat) (msgID : string) (height : Z) (peers : list string) (threshold : Z)
  | LRetry (j : nat) (msgID : string) (peers : list string)
  | LSig (j : nat) (s : string)                       (* somebody writes to sigChan *)
  | LMsg (h : nat) (peer : string) (m : incoming)     (* a message arrives *)
  | LHandle (h : nat)                                 (* next step of handler [h] *)
  | LNotify (j : nat) | LTimeout (j : nat) | LTakeSig (j : nat) (* branches of the select *)
  | LFinish (j : nat) (ord : order).                  (* next step after the select *)

Section Join.
  Context (sha : bytes -> string) (peerDecode : string -> option string) (me : string).

  (** party_coordinator.go:209-219 *)
  Definition getPeerIDs (ids : list string) : option (list string) := mapM peerDecode ids.

  (** party_coordinator.go:196-207 (createJoinPartyGroups) and the start of a call *)
  Definition start (j : nat) (msgID leader : string) (peers : list string) (threshold : Z) (r : list string -> role)
      (s : jstate) : jstate :=
    match getPeerIDs peers with
    | None => set_call j (JCall msgID (r peers) threshold [] "" (JDone (Outcome None EDecode)) None) s
    | Some pids =>
        JState (<[j := NewPeerStatus pids me leader threshold]> (j_groups s))
          (<[msgID := j]> (j_index s))
          (<[j := JCall msgID (r pids) threshold [] "" JWait None]> (j_calls s))
          (j_handlers s)
    end.

  (** party_coordinator.go:480-492 (JoinPartyWithLeader), 326-338, 416-432 *)
  Definition JoinPartyWithLeader j msgID height peers threshold (s : jstate) : jstate :=
    match LeaderNode sha msgID height peers with
    | None => set_call j (JCall msgID (RMember "") threshold [] "" (JDone (Outcome None EInvalid)) None) s
    | Some leader =>
        if decide (me = leader) then start j msgID me peers threshold RLeader s
        else start j msgID leader [leader] threshold (fun _ => RMember leader) s
    end.

  (** party_coordinator.go:495-511 (JoinPartyWithRetry) *)
  Definition JoinPartyWithRetry j msgID peers (s : jstate) : jstate :=
    start j msgID "NONE" peers 1 RLeaderless s.

  (** party_coordinator.go:112-144 (HandleStream), 147-188 (HandleStreamWithLeader),
      67-75, 92-100: find the group *)
  Definition dispatch (h : nat) (peer : string) (m : incoming) (s : jstate) : jstate :=
    let found id k :=
      match j_index s !! id with
      | None => s
      | Some g =>
          match j_groups s !! g with
          | None => s
          | Some gr => set_handler h (k g) (set_group g (g_set_in (g_in gr ++ [(peer, m)]) gr) s)
          end
      end in
    match m with
    | InOld id => found id (fun g => HUpdate g peer true)
    | InLeader lm =>
        if decide (lm_msgtype lm = "request"%string) then found (lm_id lm) (fun g => HUpdate g peer false)
        else if decide (lm_msgtype lm = "response"%string) then found (lm_id lm) (fun g => HResp g peer lm)
        else s
    end.

  (** party_coordinator.go:76-89, 101-109, 135-143 *)
  Definition handle (h : nat) (s : jstate) : jstate :=
    match j_handlers s !! h with
    | None => s
    | Some (HUpdate g peer old) =>
        match j_groups s !! g with
        | None => s
        | Some gr =>
            match updatePeer peer gr with
            | (gr', Some true) => set_handler h (if old then HNewFound g else HNotify g) (set_group g gr' s)
            | (gr', _) => end_handler h (set_group g gr' s)
            end
        end
    | Some (HResp g peer lm) =>
        match j_groups s !! g with
        | None => s
        | Some gr =>
            if decide (peer = g_leader gr)
            then set_handler h (HNotify g) (set_group g (g_set_resp (Some lm) gr) s)
            else end_handler h s
        end
    | Some (HNotify g) =>
        match j_groups s !! g with
        | None => s
        | Some gr =>
            if Nat.ltb (g_notify gr) (g_cap gr)
            then end_handler h (set_group g (g_set_notify (S (g_notify gr)) gr) s)
            else s
        end
    | Some (HNewFound g) =>
        match j_groups s !! g with
        | None => s
        | Some gr =>
            if Nat.ltb (g_newfound gr) (g_cap gr)
            then end_handler h (set_group g (g_set_newfound (S (g_newfound gr)) gr) s)
            else s
        end
    end.

  (** Receiving from notify: lines 362-366 (member), 438-441 (leader), 533-538 (leaderless) *)
  Definition on_notify (j : nat) (s : jstate) : jstate :=
    match j_calls s !! j, j_groups s !! j with
    | Some c, Some g =>
        match jc_stage c, g_notify g with
        | JWait, S n =>
            let s' := set_group j (g_set_notify n g) s in
            match jc_role c with
            | RLeaderless _ =>
                if getCoordinationStatus g then set_call j (jc_set_stage JWoken c) s' else s'
            | _ => set_call j (jc_set_stage JWoken c) s'
            end
        | _, _ => s
        end
    | _, _ => s
    end.

  (** lines 368-372, 443-446, 539-542 *)
  Definition on_timeout (j : nat) (s : jstate) : jstate :=
    match j_calls s !! j with
    | Some c => match jc_stage c with JWait => set_call j (jc_set_stage JWoken c) s | _ => s end
    | None => s
    end.

  (** lines 373-376 (member: stops waiting), 447-448 (leader: keeps waiting);
      JoinPartyWithRetry does not listen *)
  Definition on_sig (j : nat) (s : jstate) : jstate :=
    match j_calls s !! j with
    | Some c =>
        match jc_stage c, jc_sig c with
        | JWait, x :: rest =>
            let c' := jc_set_notified x (jc_set_sig rest c) in
            match jc_role c with
            | RLeader _ => set_call j c' s
            | RMember _ => set_call j (jc_set_stage JWoken c') s
            | RLeaderless _ => s
            end
        | _, _ => s
        end
    | None => s
    end.

  Definition done j o (c : jcall) (s : jstate) : jstate := set_call j (jc_set_stage (JDone o) c) s.

  (** lines 453-477 *)
  Definition finish_leader (j : nat) (ord : order) (c : jcall) (g : group) (s : jstate) : jstate :=
    if decide (jc_notified c = "signature received"%string) then done j (Outcome None ESignReceived) c s
    else
      let online := getOnline ord g ++ [me] in
      if Z.ltb (Z.of_nat (length online)) (jc_threshold c + 1) then
        done j (Outcome (Some online) ETimeout)
          (jc_set_sent (Some (LeaderMsg (jc_msg c) "response" JoinParty_Timeout online)) c) s
      else
        done j (Outcome (Some online) ENone)
          (jc_set_sent (Some (LeaderMsg (jc_msg c) "response" JoinParty_Success online)) c) s.

  (** lines 382-413, one step for each reading of the leader's response *)
  Definition finish_member (j : nat) (c : jcall) (g : group) (s : jstate) : jstate :=
    match jc_stage c with
    | JWoken =>
        match g_resp g with
        | None => done j (Outcome None ELeaderNotReady) c s
        | Some _ =>
            if decide (jc_notified c = "signature received"%string)
            then done j (Outcome None ESignReceived) c s
            else set_call j (jc_set_stage JChecked c) s
        end
    | JChecked =>
        match g_resp g with
        | None => s (* a response is never removed *)
        | Some lm =>
            match getPeerIDs (lm_peers lm) with
            | None => done j (Outcome None EDecode) c s
            | Some pids =>
                if Z.ltb (Z.of_nat (length pids)) (jc_threshold c)
                then done j (Outcome (Some pids) ENotEnough) c s
                else set_call j (jc_set_stage (JIds pids) c) s
            end
        end
    | JIds pids =>
        match g_resp g with
        | None => s
        | Some lm =>
            if Nat.eqb (lm_type lm) JoinParty_Success
            then done j (Outcome (Some pids) ENone) c s
            else done j (Outcome (Some pids) ETimeout) c s
        end
    | _ => s
    end.

  (** lines 547-555 and the deferred removePeerGroup (190-194, 511) *)
  Definition finish_leaderless (j : nat) (ord : order) (npeers : nat) (c : jcall) (g : group) (s : jstate) : jstate :=
    let online := getOnline ord g ++ [me] in
    let s' := done j (Outcome (Some online) (if Nat.eqb (length online) npeers then ENone else ETimeout)) c s in
    JState (j_groups s') (delete (jc_msg c) (j_index s')) (j_calls s') (j_handlers s').

  Definition finish (j : nat) (ord : order) (s : jstate) : jstate :=
    match j_calls s !! j, j_groups s !! j with
    | Some c, Some g =>
        match jc_role c with
        | RMember _ => finish_member j c g s
        | RLeader _ => match jc_stage c with JWoken => finish_leader j ord c g s | _ => s end
        | RLeaderless peers =>
            match jc_stage c with JWoken => finish_leaderless j ord (length peers) c g s | _ => s end
        end
    | _, _ => s
    end.

  Definition jstep (l : jlabel) (s : jstate) : jstate :=
    match l with
    | LJoin j msgID height peers threshold =>
        match j_calls s !! j with Some _ => s | None => JoinPartyWithLeader j msgID height peers threshold s end
    | LRetry j msgID peers =>
        match j_calls s !! j with Some _ => s | None => JoinPartyWithRetry j msgID peers s end
    | LSig j x =>
        match j_calls s !! j with
        | Some c => set_call j (jc_set_sig (jc_sig c ++ [x]) c) s
        | None => s
        end
    | LMsg h peer m =>
        match j_handlers s !! h with
        | Some _ => s
        | None => if decide (peer = me \/ peer = "NONE"%string) then s else dispatch h peer m s
        end
    | LHandle h => handle h s
    | LNotify j => on_notify j s
    | LTimeout j => on_timeout j s
    | LTakeSig j => on_sig j s
    | LFinish j ord => finish j ord s
    end.
  Definition jrun (ls : list jlabel) : jstate := fold_left (fun s l => jstep l s) ls j_init.
End Join.
