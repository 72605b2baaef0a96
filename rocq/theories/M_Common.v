(** Model of the message handling of a ceremony: common/tss.go (TssCommon) with
    common/local_cache_item.go and the parts of the blame package it updates.

    One goroutine ([ProcessInboundMessages], common/tss.go:843-868) handles one
    message after the other; [updateLocal] hands the shares of a message to worker
    goroutines and, unless it returns early with an error, waits for them. The
    machine below has one label per atomic action of these goroutines, so that
    every interleaving is a list of labels.

    Simplifications, valid for the whole file:
    - JSON: an inbound message is given as the value [json.Unmarshal] produced for
      the struct its type selects, [None] if it fails. The signed body of a wire
      message stays a byte string and is decoded by [dec_bulk], since the
      signature is over the bytes.
    - [partyInfo] is set (SetPartyInfo runs before ProcessInboundMessages starts)
      and does not change during the ceremony.
    - tss-lib is not modelled: what [UpdateFromBytes] returns is part of the label.
    - the broadcast channel to the p2p layer never blocks; sent messages are
      recorded in [s_out].
    - peer ids are represented by their string form. *)
From Coq Require Import ZArith NArith Ascii String List.
From stdpp Require Import base list strings gmap sorting.
From Verif Require Import Base S_Threshold.

(** ** Messages *)

(** messages/p2p_message.go:14-31; every other value of the uint8 is treated by
    the code as [Unknown] is. *)
Inductive mtype :=
  | TSSKeyGenMsg | TSSKeySignMsg | TSSKeyGenVerMsg | TSSKeySignVerMsg
  | TSSControlMsg | TSSTaskDone | UnknownType.

(** The From field of btss.MessageRouting after JSON decoding. btss.PartyID is a
    struct with an embedded pointer that holds the id (tss-lib, tss/party_id.go):
    From is nil, or a PartyID whose embedded pointer is nil (JSON "{}"; reading its
    Id panics), or has an id. Of a party only the id is used by the code. *)
Inductive sender := FNil | FBare | FId (id : string).
(** btss.MessageRouting *)
Record routing := Routing { r_from : sender; r_to : list string; r_bcast : bool }.
(** messages.WireMessage, messages/p2p_message.go:73-78 *)
Record wire := Wire {
  w_routing : option routing; w_round : string; w_body : bytes; w_sig : bytes }.
(** BulkWireMsg, common/tss.go:80-84 *)
Record bulk := Bulk { b_body : bytes; b_ident : string; b_routing : option routing }.
(** messages.BroadcastConfirmMessage *)
Record confirm := Confirm { v_p2p : string; v_key : string; v_hash : string }.
(** messages.TssControl *)
Record control := Control {
  c_hash : string; c_key : string; c_type : mtype; c_msg : option wire }.

(** What [ProcessOneMessage] gets: the type and the decoded payload. *)
Inductive inmsg :=
  | MShare (t : mtype) (w : option wire)       (* TSSKeyGenMsg, TSSKeySignMsg *)
  | MVer (t : mtype) (c : option confirm)      (* TSSKeyGenVerMsg, TSSKeySignVerMsg *)
  | MDone (d : option bool)                    (* TSSTaskDone *)
  | MCtl (c : option control)                  (* TSSControlMsg *)
  | MNil                                       (* nil wrapped message *)
  | MOther.                                    (* any other type *)

(** messages.BroadcastMsgChan: a message and its destinations. *)
Record out := Out { o_msg : inmsg; o_peers : list string }.

(** tss-lib message contents, common/tss_helper.go:143-218 *)
Inductive content :=
  | KGRound1Message | KGRound2Message1 | KGRound2Message2 | KGRound3Message
  | SignRound1Message1 | SignRound1Message2 | SignRound2Message | SignRound3Message
  | SignRound4Message | SignRound5Message | SignRound6Message | SignRound7Message
  | OtherContent.

(** blame.RoundInfo, blame/round_mgr.go:9-13, as a triple index, name, session *)
Definition roundinfo := (nat * string * string)%type.

(** The switch of GetMsgRound, common/tss_helper.go:143-218, with the names of
    messages/TssPhaseMessages.go:4-15. *)
Definition content_round (c : content) : option (nat * string) :=
  match c with
  | KGRound1Message => Some (0, "KGRound1Message")
  | KGRound2Message1 => Some (1, "KGRound2Message1")
  | KGRound2Message2 => Some (2, "KGRound2Message2")
  | KGRound3Message => Some (3, "KGRound3Message")
  | SignRound1Message1 => Some (0, "SignRound1Message1")
  | SignRound1Message2 => Some (1, "SignRound1Message2")
  | SignRound2Message => Some (2, "SignRound2Message")
  | SignRound3Message => Some (3, "SignRound3Message")
  | SignRound4Message => Some (4, "SignRound4Message")
  | SignRound5Message => Some (5, "SignRound5Message")
  | SignRound6Message => Some (6, "SignRound6Message")
  | SignRound7Message => Some (7, "SignRound7Message")
  | OtherContent => None
  end.

(** ** Blame, blame/types.go and blame/blame.go *)
Record node := Node { n_pub : string; n_data : bytes; n_sig : bytes }.
Record blame := Blame { bl_reason : string; bl_unicast : bool; bl_nodes : list node }.
(** blame/blame.go:48-54 (SetBlame) *)
Definition SetBlame (reason : string) (nodes : list node) (unicast : bool) (b : blame) : blame :=
  Blame reason unicast (bl_nodes b ++ nodes).
(** blame/types.go:10-16 *)
Definition HashCheckFail : string := "hash check failed".
Definition TssBrokenMsg : string := "tss share verification failed".

(** ** Environment and configuration *)

(** External functions. *)
Record env := Env {
  (** hex(SHA-256), conversion/conversion.go:170-177 (BytesToHashString) *)
  e_sha : bytes -> string;
  (** secp256k1 signature verification: key, data, signature *)
  e_verify : bytes -> bytes -> bytes -> bool;
  (** json.Unmarshal of a body into []BulkWireMsg *)
  e_dec_bulk : bytes -> option (list bulk);
  (** btss.ParseWireMessage: bytes, sender id, broadcast flag *)
  e_parse : bytes -> string -> bool -> option content;
  (** conversion.PartyIDtoPubKey on the key bytes of a party *)
  e_pub : bytes -> option string;
  (** peer.Decode succeeds *)
  e_peer_ok : string -> bool
}.

(** What is fixed for the ceremony. *)
Record cfg := Cfg {
  cf_msgid : string;                    (* msgID *)
  cf_local : string;                    (* localPeerID *)
  cf_peers : list string;               (* P2PPeers *)
  cf_sessions : gset string;            (* keys of PartyInfo.PartyMap *)
  cf_parties : gmap string bytes;       (* PartyInfo.PartyIDMap: id to key bytes *)
  cf_id2peer : gmap string string       (* PartyIDtoP2PID *)
}.

(** conversion.GetThreshold(len(PartyIDMap)); exact by C01. *)
Definition cf_threshold (C : cfg) : Z := threshold_of (Z.of_nat (size (cf_parties C))).

(** ** State *)

(** LocalCacheItem, common/local_cache_item.go:10-15 *)
Record item := Item { it_msg : option wire; it_hash : string; it_votes : gmap string string }.

(** A culprit reported by tss-lib: its id, and whether the pointer is the one of
    the local party table (updateLocal compares pointers, common/tss.go:285-292). *)
Record culprit := Culprit { cu_id : string; cu_same : bool }.

(** tssJob, common/tss.go:94-101. [j_batch] and [j_wire] identify the updateLocal
    call and the wire message the job comes from (ghost). *)
Record job := Job {
  j_body : bytes; j_ident : string; j_from : string; j_bcast : bool;
  j_batch : nat; j_wire : wire }.

(** A running updateLocal: the bulk entries still to be queued, the cache key to
    remove at the end (broadcast only), the wire message. *)
Record cur := Cur { co_rest : list bulk; co_key : option string; co_wire : wire }.

Record state := State {
  s_cache : gmap string item;                 (* unConfirmedMessages *)
  s_stored : gmap string wire;                (* blameMgr.roundMgr.storedMsg *)
  s_requested : gset string;                  (* blameMgr.shareMgr.requested *)
  s_finished : gset string;                   (* finishedPeers *)
  s_closed : nat;                             (* how often taskDone was closed *)
  s_culprits : list culprit;                  (* culprits *)
  s_blame : blame;                            (* blameMgr.blame *)
  s_unicast : gmap string (list string);      (* blameMgr.lastUnicastPeer *)
  s_accepted : gmap roundinfo (list string);  (* blameMgr.acceptedShares *)
  s_pending : list job;                       (* queued jobs *)
  s_updated : list job;                       (* jobs between UpdateFromBytes and UpdateAcceptShare *)
  s_batch : nat;                              (* number of updateLocal calls that queued jobs *)
  s_cur : option cur;                         (* the running updateLocal *)
  s_log : list job;                           (* ghost: shares given to tss-lib, oldest first *)
  s_acclog : list (nat * roundinfo * string); (* ghost: accepted shares: batch, round, party *)
  s_out : list out;                           (* messages sent *)
  s_crash : bool                              (* the process panicked *)
}.

Definition init_state : state :=
  State ∅ ∅ ∅ ∅ 0 [] (Blame "" false []) ∅ ∅ [] [] 0 None [] [] [] false.

(** Setters. *)
Definition set_cache f (s : state) : state := State (f (s_cache s)) (s_stored s) (s_requested s) (s_finished s) (s_closed s) (s_culprits s) (s_blame s) (s_unicast s) (s_accepted s) (s_pending s) (s_updated s) (s_batch s) (s_cur s) (s_log s) (s_acclog s) (s_out s) (s_crash s).
Definition set_stored f (s : state) : state := State (s_cache s) (f (s_stored s)) (s_requested s) (s_finished s) (s_closed s) (s_culprits s) (s_blame s) (s_unicast s) (s_accepted s) (s_pending s) (s_updated s) (s_batch s) (s_cur s) (s_log s) (s_acclog s) (s_out s) (s_crash s).
Definition set_requested f (s : state) : state := State (s_cache s) (s_stored s) (f (s_requested s)) (s_finished s) (s_closed s) (s_culprits s) (s_blame s) (s_unicast s) (s_accepted s) (s_pending s) (s_updated s) (s_batch s) (s_cur s) (s_log s) (s_acclog s) (s_out s) (s_crash s).
Definition set_finished f (s : state) : state := State (s_cache s) (s_stored s) (s_requested s) (f (s_finished s)) (s_closed s) (s_culprits s) (s_blame s) (s_unicast s) (s_accepted s) (s_pending s) (s_updated s) (s_batch s) (s_cur s) (s_log s) (s_acclog s) (s_out s) (s_crash s).
Definition set_closed f (s : state) : state := State (s_cache s) (s_stored s) (s_requested s) (s_finished s) (f (s_closed s)) (s_culprits s) (s_blame s) (s_unicast s) (s_accepted s) (s_pending s) (s_updated s) (s_batch s) (s_cur s) (s_log s) (s_acclog s) (s_out s) (s_crash s).
Definition set_culprits f (s : state) : state := State (s_cache s) (s_stored s) (s_requested s) (s_finished s) (s_closed s) (f (s_culprits s)) (s_blame s) (s_unicast s) (s_accepted s) (s_pending s) (s_updated s) (s_batch s) (s_cur s) (s_log s) (s_acclog s) (s_out s) (s_crash s).
Definition set_blame f (s : state) : state := State (s_cache s) (s_stored s) (s_requested s) (s_finished s) (s_closed s) (s_culprits s) (f (s_blame s)) (s_unicast s) (s_accepted s) (s_pending s) (s_updated s) (s_batch s) (s_cur s) (s_log s) (s_acclog s) (s_out s) (s_crash s).
Definition set_unicast f (s : state) : state := State (s_cache s) (s_stored s) (s_requested s) (s_finished s) (s_closed s) (s_culprits s) (s_blame s) (f (s_unicast s)) (s_accepted s) (s_pending s) (s_updated s) (s_batch s) (s_cur s) (s_log s) (s_acclog s) (s_out s) (s_crash s).
Definition set_accepted f (s : state) : state := State (s_cache s) (s_stored s) (s_requested s) (s_finished s) (s_closed s) (s_culprits s) (s_blame s) (s_unicast s) (f (s_accepted s)) (s_pending s) (s_updated s) (s_batch s) (s_cur s) (s_log s) (s_acclog s) (s_out s) (s_crash s).
Definition set_pending f (s : state) : state := State (s_cache s) (s_stored s) (s_requested s) (s_finished s) (s_closed s) (s_culprits s) (s_blame s) (s_unicast s) (s_accepted s) (f (s_pending s)) (s_updated s) (s_batch s) (s_cur s) (s_log s) (s_acclog s) (s_out s) (s_crash s).
Definition set_updated f (s : state) : state := State (s_cache s) (s_stored s) (s_requested s) (s_finished s) (s_closed s) (s_culprits s) (s_blame s) (s_unicast s) (s_accepted s) (s_pending s) (f (s_updated s)) (s_batch s) (s_cur s) (s_log s) (s_acclog s) (s_out s) (s_crash s).
Definition set_batch f (s : state) : state := State (s_cache s) (s_stored s) (s_requested s) (s_finished s) (s_closed s) (s_culprits s) (s_blame s) (s_unicast s) (s_accepted s) (s_pending s) (s_updated s) (f (s_batch s)) (s_cur s) (s_log s) (s_acclog s) (s_out s) (s_crash s).
Definition set_cur v (s : state) : state := State (s_cache s) (s_stored s) (s_requested s) (s_finished s) (s_closed s) (s_culprits s) (s_blame s) (s_unicast s) (s_accepted s) (s_pending s) (s_updated s) (s_batch s) v (s_log s) (s_acclog s) (s_out s) (s_crash s).
Definition set_log f (s : state) : state := State (s_cache s) (s_stored s) (s_requested s) (s_finished s) (s_closed s) (s_culprits s) (s_blame s) (s_unicast s) (s_accepted s) (s_pending s) (s_updated s) (s_batch s) (s_cur s) (f (s_log s)) (s_acclog s) (s_out s) (s_crash s).
Definition set_acclog f (s : state) : state := State (s_cache s) (s_stored s) (s_requested s) (s_finished s) (s_closed s) (s_culprits s) (s_blame s) (s_unicast s) (s_accepted s) (s_pending s) (s_updated s) (s_batch s) (s_cur s) (s_log s) (f (s_acclog s)) (s_out s) (s_crash s).
Definition set_out f (s : state) : state := State (s_cache s) (s_stored s) (s_requested s) (s_finished s) (s_closed s) (s_culprits s) (s_blame s) (s_unicast s) (s_accepted s) (s_pending s) (s_updated s) (s_batch s) (s_cur s) (s_log s) (s_acclog s) (f (s_out s)) (s_crash s).
Definition crash (s : state) : state := State (s_cache s) (s_stored s) (s_requested s) (s_finished s) (s_closed s) (s_culprits s) (s_blame s) (s_unicast s) (s_accepted s) (s_pending s) (s_updated s) (s_batch s) (s_cur s) (s_log s) (s_acclog s) (s_out s) true.

(** Result of a handler: returned with or without error, or still in updateLocal. *)
Inductive result := RNil | RErr (msg : string) | RRunning.

(** renderToP2P, common/tss.go:143-149 *)
Definition send (m : inmsg) (peers : list string) (s : state) : state :=
  set_out (fun o => o ++ [Out m peers]) s.

(** fmt.Sprintf("%s-%s", id, round): messages/p2p_message.go:81-83 (GetCacheKey)
    and common/tss.go:194. *)
Definition cache_key (id round : string) : string :=
  String.append id (String.append "-" round).

Section WithEnv.
  Variable E : env.
  Variable C : cfg.

  (** common/tss_helper.go:92-97 (verifySignature) *)
  Definition verifySignature (key message sig : bytes) : bool :=
    e_verify E key (message ++ to_bytes (cf_msgid C)) sig.

  (** common/tss_helper.go:138-219 (GetMsgRound); the session is added by the
      callers, common/tss.go:128 and 274. *)
  Definition GetMsgRound (body : bytes) (from : string) (bcast : bool) (ident : string)
      : option roundinfo :=
    match e_parse E body from bcast with
    | None => None
    | Some c => match content_round c with
                | None => None
                | Some (i, n) => Some (i, n, ident)
                end
    end.

  (** ** Confirmations *)

  (** The loop over the frequencies, common/tss_helper.go:107-114: strictly
      greater wins, starting from -1. *)
  Fixpoint best_freq (l : list (string * nat)) (data : string) (maxFreq : Z) : string * Z :=
    match l with
    | [] => (data, maxFreq)
    | (h, n) :: l' =>
        if Z.ltb maxFreq (Z.of_nat n) then best_freq l' h (Z.of_nat n)
        else best_freq l' data maxFreq
    end.

  (** Number of confirmations for a hash. *)
  Definition count_votes (h : string) (votes : gmap string string) : nat :=
    length (filter (fun x => x = h) (map snd (map_to_list votes))).

  (** common/tss_helper.go:99-116 (getHighestFreq); [ord] is the iteration order
      of the map [freq], whose keys are the distinct hashes. *)
  Definition getHighestFreq (ord : order) (votes : gmap string string) : option (string * Z) :=
    if Nat.eqb (size votes) 0 then None
    else
      let freq := map (fun h => (h, count_votes h votes))
                      (remove_dups (map snd (map_to_list votes))) in
      Some (best_freq (permute ord freq) EmptyString (-1)).

  Inductive hash_result :=
    | HOk | HNotEnoughPeer | HNotMajority | HFromOwner | HHashCheck | HInconsistency | HNoOwner.

  (** common/tss.go:399-410 (getMsgHash) *)
  Definition getMsgHash (ord : order) (votes : gmap string string) (threshold : Z)
      : string + hash_result :=
    match getHighestFreq ord votes with
    | None => inr HHashCheck
    | Some (h, freq) => if Z.ltb freq (threshold - 1) then inr HInconsistency else inl h
    end.

  (** common/tss.go:412-444 (hashCheck) for the message [w] of the item; returns
      the item with the owner's vote deleted where the code deletes it. *)
  Definition hashCheck (ord : order) (it : item) (owner : string) (threshold : Z)
      : hash_result * item :=
    match cf_id2peer C !! owner with
    | None => (HNoOwner, it)
    | Some ownerPeer =>
        if Z.ltb (Z.of_nat (size (it_votes it))) threshold then (HNotEnoughPeer, it)
        else match it_votes it !! ownerPeer with
        | Some _ => (HFromOwner, Item (it_msg it) (it_hash it) (delete ownerPeer (it_votes it)))
        | None =>
            match getMsgHash ord (it_votes it) threshold with
            | inr r => (r, it)
            | inl h => if String.eqb (it_hash it) h then (HOk, it) else (HNotMajority, it)
            end
        end
    end.

  (** ** Handing shares to the local parties *)

  (** conversion/conversion.go:61-75 (AccPubKeysFromPartyIDs) *)
  Fixpoint AccPubKeysFromPartyIDs (ids : list string) : option (list string) :=
    match ids with
    | [] => Some []
    | id :: rest =>
        match cf_parties C !! id with
        | None => None
        | Some k =>
            match e_pub E k, AccPubKeysFromPartyIDs rest with
            | Some pk, Some l => Some (pk :: l)
            | _, _ => None
            end
        end
    end.

  (** strings.Contains(s, "KGR") *)
  Fixpoint is_prefix (p b : bytes) : bool :=
    match p, b with
    | [], _ => true
    | x :: p', y :: b' => if Ascii.eqb x y then is_prefix p' b' else false
    | _ :: _, [] => false
    end.
  Fixpoint contains (p b : bytes) : bool :=
    if is_prefix p b then true
    else match b with [] => false | _ :: b' => contains p b' end.

  (** common/tss_helper.go:121-136 (checkUnicast) *)
  Definition checkUnicast (r : roundinfo) : bool :=
    let '(index, name, _) := r in
    if contains (to_bytes "KGR") (to_bytes name)
    then Nat.eqb index 1 || Nat.eqb index 2
    else Nat.ltb index 5.

  (** common/tss.go:184-222 (processInvalidMsgBlame); its steps take several
      locks one after the other, here they are one action. *)
  Definition processInvalidMsgBlame (r : roundinfo) (cs : list culprit) (s : state) : state :=
    let unicast := checkUnicast r in
    let s1 := set_culprits (fun l => l ++ cs) s in
    match AccPubKeysFromPartyIDs (map cu_id cs) with
    | None => set_blame (SetBlame TssBrokenMsg [] unicast) s1
    | Some pks =>
        let evidence := fun c =>
          match s_stored s1 !! cache_key (cu_id c) (snd (fst r)) with
          | Some w => (w_body w, w_sig w)
          | None => ([], [])
          end in
        let nodes := zip_with (fun pk c => Node pk (fst (evidence c)) (snd (evidence c))) pks cs in
        set_blame (SetBlame TssBrokenMsg nodes unicast) s1
    end.

  (** blame/manager.go:107-118 (SetLastUnicastPeer) *)
  Definition SetLastUnicastPeer (peer round : string) (s : state) : state :=
    set_unicast (fun m => <[round := default [] (m !! round) ++ [peer]]> m) s.
  (** blame/manager.go:56-67 (UpdateAcceptShare) *)
  Definition UpdateAcceptShare (r : roundinfo) (id : string) (s : state) : state :=
    set_accepted (fun m => <[r := default [] (m !! r) ++ [id]]> m) s.
  (** blame/manager.go:69-81 (CheckMsgDuplication) *)
  Definition CheckMsgDuplication (r : roundinfo) (id : string) (s : state) : bool :=
    bool_decide (id ∈ default [] (s_accepted s !! r)).

  (** updateLocal up to the loop, common/tss.go:225-259. At line 236 an unknown
      party dereferences a nil pointer. *)
  Definition updateLocal (w : wire) (key : option string) (s : state) : state * result :=
    match w_routing w with
    | Some (Routing FBare _ _) => (crash s, RRunning)
    | Some (Routing (FId id) _ bcast) =>
        match cf_parties C !! id with
        | None => (crash s, RRunning)
        | Some _ =>
            match cf_id2peer C !! id with
            | None => (s, RErr "fail to find the peer")
            | Some ownerPeer =>
                let s1 := if bcast then s else SetLastUnicastPeer ownerPeer (w_round w) s in
                match e_dec_bulk E (w_body w) with
                | None => (s1, RErr "error to unmarshal the BulkMsg")
                | Some l => (set_cur (Some (Cur l key w)) (set_batch S s1), RRunning)
                end
            end
        end
    | _ => (s, RErr "invalid wireMsg")
    end.

  (** One iteration of the loop of updateLocal, common/tss.go:260-307. Any error
      ends updateLocal at once, leaving the queued jobs to the workers. *)
  Definition update_one (b : bulk) (rest : list bulk) (key : option string) (w : wire)
      (s : state) : state * result :=
    if bool_decide (b_ident b ∈ cf_sessions C) then
      match b_routing b with
      | Some (Routing (FId id) _ bcast) =>
          match cf_parties C !! id with
          | None => (set_cur None s, RErr "cannot find the party to handle the message")
          | Some _ =>
              match GetMsgRound (b_body b) id bcast (b_ident b) with
              | None => (set_cur None s, RErr "broken tss share")
              | Some r =>
                  if CheckMsgDuplication r id s then
                    (set_cur (Some (Cur rest key w)) s, RRunning)
                  else if existsb (fun c => cu_same c && String.eqb (cu_id c) id) (s_culprits s) then
                    (set_cur None s, RErr TssBrokenMsg)
                  else
                    (set_cur (Some (Cur rest key w))
                      (set_pending (fun l => l ++ [Job (b_body b) (b_ident b) id bcast (s_batch s) w]) s),
                     RRunning)
              end
          end
      | _ => (crash s, RRunning) (* msg.Routing.From.Id on nil *)
      end
    else (set_cur None s, RErr "cannot find the party").

  (** The end of updateLocal, common/tss.go:309-311, enabled when all the jobs of
      this call are done; then applyShare removes the key, common/tss.go:596. *)
  Definition update_finish (key : option string) (s : state) : state * result :=
    (set_cur None
       (match key with Some k => set_cache (delete k) s | None => s end), RNil).

  (** ** Handlers *)

  (** common/tss_helper.go:242-272 (processRequestMsgFromPeer) *)
  Definition processRequestMsgFromPeer (peers : list string) (msg : control) (requester : bool)
      (s : state) : state * result :=
    if requester then (send (MCtl (Some msg)) peers s, RNil)
    else match s_stored s !! c_key msg with
         | None => (s, RNil)
         | Some w => (send (MCtl (Some (Control (c_hash msg) (c_key msg) (c_type msg) (Some w)))) peers s, RNil)
         end.

  (** common/tss.go:600-639 (requestShareFromPeer). The iteration order over the
      confirmations only affects the order of the destinations and is not
      modelled. *)
  Definition requestShareFromPeer (ord : order) (votes : gmap string string) (threshold : Z)
      (key : string) (t : mtype) (s : state) : state * result :=
    match getMsgHash ord votes threshold with
    | inr _ => (s, RNil)
    | inl targetHash =>
        let peers := map fst (filter (fun x => snd x = targetHash) (map_to_list votes)) in
        if forallb (e_peer_ok E) peers then
          let s1 := set_requested (fun r => {[targetHash]} ∪ r) s in
          let req := fun rt => processRequestMsgFromPeer peers (Control targetHash key rt None) true s1 in
          match t with
          | TSSKeyGenVerMsg | TSSKeyGenMsg => req TSSKeyGenMsg
          | TSSKeySignVerMsg | TSSKeySignMsg => req TSSKeySignMsg
          | _ => (s1, RNil)
          end
        else (s, RErr "fail to convert the p2p id")
    end.

  (** blame/policy.go:118-130 (TssWrongShareBlame) *)
  Definition TssWrongShareBlame (owner : string) : option string :=
    match cf_parties C !! owner with None => None | Some k => e_pub E k end.

  (** common/tss.go:564-598 (applyShare) for an item whose message is [w], sent by
      [owner]; [ord1] and [ord2] are the orders of the two hash counts. *)
  Definition applyShare (ord1 ord2 : order) (it : item) (w : wire) (owner : string) (bcast : bool)
      (key : string) (t : mtype) (s : state) : state * result :=
    let threshold := cf_threshold C in
    let '(r, it1) := hashCheck ord1 it owner threshold in
    let s1 := set_cache (<[key := it1]>) s in
    match r with
    | HOk => updateLocal w (Some key) (set_stored (<[key := w]>) s1)
    | HNotEnoughPeer => (s1, RNil)
    | HNotMajority =>
        requestShareFromPeer ord2 (it_votes it1) threshold key t
          (set_cache (<[key := Item None (it_hash it1) (it_votes it1)]>) s1)
    | _ =>
        match TssWrongShareBlame owner with
        | None => (set_blame (SetBlame HashCheckFail [] (negb bcast)) s1, RErr "error in getting the blame nodes")
        | Some pk =>
            (set_blame (SetBlame HashCheckFail [Node pk (w_body w) (w_sig w)] (negb bcast)) s1,
             RErr "error in processing hash check")
        end
    end.

  (** common/tss.go:641-671 (processVerMsg) after checkDupAndUpdateVerMsg
      (common/tss.go:314-329): the peer is the transport's, not the message's. *)
  Definition processVerMsg (ord1 ord2 : order) (peer : string) (v : confirm) (t : mtype)
      (s : state) : state * result :=
    let key := v_key v in
    let it0 := match s_cache s !! key with
               | Some it => it
               | None => Item None (v_hash v) ∅
               end in
    let it := Item (it_msg it0) (it_hash it0) (<[peer := v_hash v]> (it_votes it0)) in
    let s1 := set_cache (<[key := it]>) s in
    match it_msg it with
    | None => requestShareFromPeer ord1 (it_votes it) (cf_threshold C) key t s1
    | Some w =>
        match w_routing w with
        | Some (Routing (FId owner) _ bcast) => applyShare ord1 ord2 it w owner bcast key t s1
        | _ => (crash s1, RRunning) (* cached messages have a sender: not reachable *)
        end
    end.

  (** common/tss.go:800-809 (getBroadcastMessageType) *)
  Definition getBroadcastMessageType (t : mtype) : mtype :=
    match t with
    | TSSKeyGenMsg => TSSKeyGenVerMsg
    | TSSKeySignMsg => TSSKeySignVerMsg
    | _ => UnknownType
    end.

  (** common/tss.go:673-731 (receiverBroadcastHashToPeers, broadcastHashToPeers);
      errors are only logged by the caller. *)
  Definition receiverBroadcastHashToPeers (w : wire) (owner : string) (t : mtype) (s : state) : state :=
    match cf_id2peer C !! owner with
    | None => s
    | Some ownerPeer =>
        let peers := filter (fun p => p <> ownerPeer) (cf_peers C) in
        match peers with
        | [] => s
        | _ => send (MVer (getBroadcastMessageType t)
                       (Some (Confirm "" (cache_key owner (w_round w)) (e_sha E (w_body w))))) peers s
        end
    end.

  (** common/tss.go:734-798 (processTSSMsg) *)
  Definition processTSSMsg (ord1 ord2 : order) (w : wire) (t : mtype) (forward : bool)
      (s : state) : state * result :=
    match w_routing w with
    | Some (Routing FBare _ _) => (crash s, RRunning) (* wireMsg.Routing.From.Id *)
    | Some (Routing (FId owner) _ bcast) =>
        match cf_parties C !! owner with
        | None => (s, RErr "error in find the data owner")
        | Some keyBytes =>
            if verifySignature keyBytes (w_body w) (w_sig w) then
              if bcast then
                let s1 := if forward then s else receiverBroadcastHashToPeers w owner t s in
                let key := cache_key owner (w_round w) in
                let h := e_sha E (w_body w) in
                let it0 := match s_cache s1 !! key with
                           | None => Item (Some w) h ∅
                           | Some it => match it_msg it with
                                        | None => Item (Some w) h (it_votes it)
                                        | Some _ => it
                                        end
                           end in
                let it := Item (it_msg it0) (it_hash it0) (<[cf_local C := h]> (it_votes it0)) in
                let s2 := set_cache (<[key := it]>) s1 in
                match it_msg it with
                | Some w' =>
                    match w_routing w' with
                    | Some (Routing (FId owner') _ bcast') =>
                        applyShare ord1 ord2 it w' owner' bcast' key t s2
                    | _ => (crash s2, RRunning) (* not reachable *)
                    end
                | None => (crash s2, RRunning) (* not reachable *)
                end
              else updateLocal w None s
            else (s, RErr "signature verify failed")
        end
    | _ => (s, RErr "invalid wireMsg")
    end.

  (** common/tss.go:331-397 (ProcessOneMessage) *)
  Definition ProcessOneMessage (ord1 ord2 : order) (m : inmsg) (peer : string)
      (s : state) : state * result :=
    match m with
    | MNil => (s, RErr "invalid wireMessage")
    | MShare _ None => (s, RErr "fail to unmarshal wire message")
    | MShare t (Some w) => processTSSMsg ord1 ord2 w t false s
    | MVer _ None => (s, RErr "fail to unmarshal broadcast confirm message")
    | MVer t (Some v) =>
        (* checkDupAndUpdateVerMsg, common/tss.go:314-329 *)
        match s_cache s !! v_key v with
        | Some it => match it_votes it !! peer with
                     | Some _ => (s, RNil)
                     | None => processVerMsg ord1 ord2 peer v t s
                     end
        | None => processVerMsg ord1 ord2 peer v t s
        end
    | MDone None => (s, RNil)
    | MDone (Some false) => (s, RNil)
    | MDone (Some true) =>
        if bool_decide (peer ∈ s_finished s) then (s, RErr "duplicated notification")
        else
          let s1 := set_finished (fun f => {[peer]} ∪ f) s in
          if Z.eqb (Z.of_nat (size (s_finished s1))) (Z.of_nat (size (cf_parties C)) - 1)
          then (* close(t.taskDone): panics on the second time *)
            (if Nat.eqb (s_closed s1) 0 then set_closed S s1 else crash s1, RNil)
          else (s1, RNil)
    | MCtl None => (s, RErr "fail to unmarshal wire message")
    | MCtl (Some c) =>
        match c_msg c with
        | None => if e_peer_ok E peer then processRequestMsgFromPeer [peer] c false s
                  else (s, RErr "error in decode the peer")
        | Some w =>
            if bool_decide (c_hash c ∈ s_requested s) then
              processTSSMsg ord1 ord2 w (c_type c) true
                (set_requested (fun r => r ∖ {[c_hash c]}) s)
            else (s, RNil)
        end
    | MOther => (s, RNil)
    end.

  (** ** The machine *)

  Inductive label :=
    | LRecv (ord1 ord2 : order) (peer : string) (m : inmsg)  (* next message *)
    | LLoop                              (* one iteration of updateLocal's loop *)
    | LFinish                            (* updateLocal returns *)
    | LWork (k : nat) (res : option (list culprit))
        (* a worker takes the k-th queued job; None: tss-lib accepts it *)
    | LAccept (k : nat).                 (* a worker records an accepted job *)

  (** A worker runs UpdateFromBytes, common/tss.go:119-137. *)
  Definition work (k : nat) (res : option (list culprit)) (s : state) : state :=
    match s_pending s !! k with
    | None => s
    | Some j =>
        let s1 := set_pending (fun l => delete k l) s in
        match GetMsgRound (j_body j) (j_from j) (j_bcast j) (j_ident j) with
        | None => s1
        | Some r =>
            let s2 := set_log (fun l => l ++ [j]) s1 in
            match res with
            | None => set_updated (fun l => l ++ [j]) s2
            | Some cs => processInvalidMsgBlame r cs s2
            end
        end
    end.

  (** A worker records the share, common/tss.go:139. *)
  Definition accept (k : nat) (s : state) : state :=
    match s_updated s !! k with
    | None => s
    | Some j =>
        let s1 := set_updated (fun l => delete k l) s in
        match GetMsgRound (j_body j) (j_from j) (j_bcast j) (j_ident j) with
        | None => s1
        | Some r => set_acclog (fun l => l ++ [(j_batch j, r, j_from j)])
                      (UpdateAcceptShare r (j_from j) s1)
        end
    end.

  Definition batch_done (s : state) : bool :=
    forallb (fun j => negb (Nat.eqb (j_batch j) (s_batch s))) (s_pending s ++ s_updated s).

  (** One action; actions that are not enabled change nothing. *)
  Definition step (s : state) (l : label) : state :=
    if s_crash s then s
    else match l with
    | LRecv ord1 ord2 peer m =>
        match s_cur s with
        | None => fst (ProcessOneMessage ord1 ord2 m peer s)
        | Some _ => s
        end
    | LLoop =>
        match s_cur s with
        | Some (Cur (b :: rest) key w) => fst (update_one b rest key w s)
        | _ => s
        end
    | LFinish =>
        match s_cur s with
        | Some (Cur [] key w) => if batch_done s then fst (update_finish key s) else s
        | _ => s
        end
    | LWork k res => work k res s
    | LAccept k => accept k s
    end.

  Definition run (tr : list label) : state := foldl step init_state tr.
End WithEnv.
