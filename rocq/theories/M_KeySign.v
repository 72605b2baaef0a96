(** tss/keysign.go: KeySign, its checks, the goroutine that waits for a signature
    from others (waitForSignatures) and the one that makes it (generateSignature),
    interleaved.

    The join party is M_Join, the signing ceremony M_Common and M_OutCh, the
    notifier M_Notifier; here only what they return and what they read from
    [sigChan] matters. Logging is left out, as are the subscriptions (M_Comm). *)
From Coq Require Import ZArith NArith Ascii String List.
From stdpp Require Import base list strings gmap.
From Verif Require Import Base S_Threshold M_Conv M_Semver M_Server M_Sort M_Batch M_Notifier M_Join M_Common M_Blame.

(** common/status.go *)
Inductive status := NA | Success | Fail.
(** keysign/response.go:18-22 *)
Record response := Resp { rp_sigs : list rsig; rp_status : status; rp_blame : blame }.
Definition no_blame : blame := Blame "" false [].
Definition empty_resp : response := Resp [] NA no_blame.
(** blame/types.go:15 *)
Definition InternalError : string := "fail to start the join party ".
Definition internal_fail : response := Resp [] Fail (Blame InternalError false []).

(** storage.KeygenLocalState (storage/localstate_mgr.go:21-27) without the key share. *)
Record lstate := LState { ls_participants : list string; ls_local : string }.

(** Code that is not modelled here: SHA-256, Bech32 keys and libp2p peer ids
    (conversion/key_provider.go: [se_key] Bech32 to bytes, [se_peer] bytes to peer
    id, [se_pub] GetPubKeyFromPeerID), the state manager, signature verification. *)
Record senv := SEnv {
  se_sha : bytes -> string;
  se_key : string -> option bytes;
  se_peer : bytes -> option string;
  se_pub : string -> option string;
  se_self : string;
  se_state : string -> option lstate;
  se_n : nenv }.

(** The request after the checks, with what they computed. *)
Record sjob := SJob {
  sj_id : string; sj_pool : string; sj_msgs : list bytes; sj_signers : list string;
  sj_height : Z; sj_version : string; sj_threshold : Z;
  sj_participants : list string; sj_local : string }.

(** errGen *)
Inductive gerr := GNone | GSignReceived | GNotActive | GVersion.

(** keysign/tss_keysign.go:84-178 (SignMessage), its possible ends: an error (the
    blame found is in the manager), nil and no error, signatures, a nil dereference. *)
Inductive sign_result := SRErr (b : blame) | SRNil | SROk (l : list ecsig) | SRPanic.
(** How the ceremony itself ends: it fails, or the sessions leave signatures in endCh. *)
Inductive ceremony := CFail (b : blame) | CEnd (endCh : list ecsig).

(** A broadcast: the signatures ([None]: failure) and the peers. *)
Definition bcast : Type := option (list ecsig) * list string.
(** monitor/metric.go:22-57, the counter incremented. *)
Inductive metric := MJoin (success : bool) | MSign (success : bool).

(** tss/keysign.go:206-217 *)
Inductive wstage :=
  | WNew
  | WSelect
  | WSend (r : response)          (* errWait == nil: about to send *)
  | WEnd (r : option response).   (* [None]: errWait != nil *)
Inductive gstage :=
  | GNew
  | GJoin (r : role) (leader : string) (taken : bool)
  | GSign (online signers : list string)
  | GSend (b : option bcast) (o : response)  (* about to send, then broadcast and return *)
  | GEnd (r : response) (e : gerr).

Record kstate := KState {
  k_w : wstage;
  k_g : gstage;
  k_chan : list string;       (* sigChan *)
  k_closed : bool;
  k_bcasts : list bcast;
  k_metrics : list metric;
  k_crash : bool;             (* some goroutine panicked: the process is gone *)
  k_result : option (response * gerr) }.

Definition set_w w (s : kstate) := KState w (k_g s) (k_chan s) (k_closed s) (k_bcasts s) (k_metrics s) (k_crash s) (k_result s).
Definition set_g g (s : kstate) := KState (k_w s) g (k_chan s) (k_closed s) (k_bcasts s) (k_metrics s) (k_crash s) (k_result s).
Definition set_chan c (s : kstate) := KState (k_w s) (k_g s) c (k_closed s) (k_bcasts s) (k_metrics s) (k_crash s) (k_result s).
Definition set_crash (s : kstate) := KState (k_w s) (k_g s) (k_chan s) (k_closed s) (k_bcasts s) (k_metrics s) true (k_result s).
Definition add_bcast b (s : kstate) := KState (k_w s) (k_g s) (k_chan s) (k_closed s) (k_bcasts s ++ b) (k_metrics s) (k_crash s) (k_result s).
Definition add_metric m (s : kstate) := KState (k_w s) (k_g s) (k_chan s) (k_closed s) (k_bcasts s) (k_metrics s ++ [m]) (k_crash s) (k_result s).

Definition k_init : kstate := KState WNew GNew [] false [] [] false None.

Definition sig_received : string := "signature received".
Definition sig_generated : string := "signature generated".
(** tss/keysign.go:277 *)
Definition sig_cap : nat := 2.

Inductive klabel :=
  | KWStart                    (* the first goroutine reaches its select, or fails *)
  | KWData (d : list ecsig)    (* the notifier delivers *)
  | KWTimeout
  | KWTake                     (* it reads sigChan *)
  | KWSend
  | KGStart
  | KGTake                     (* the join party reads sigChan *)
  | KGJoined (o : outcome)     (* the join party returns *)
  | KGSigned (c : ceremony)
  | KGSend
  | KClose.                    (* both are done: close, choose the result *)

Section KeySign.
  Context (E : senv).

  (** conversion/key_provider.go:19-29 (GetPeerIDFromPubKey) *)
  Definition peer_of (k : string) : option string :=
    match se_key E k with Some b => se_peer E b | None => None end.

  (** tss/keysign.go:185-271: the checks, in order; [inl]: the response and the error.
      requestToMsgId sorts the slices of the request in place. *)
  Definition prepare (pool : string) (msgs signers : list string) (height : Z) (version : string)
      : response * string + sjob :=
    match requestToMsgId (se_sha E) (KeysignReq pool msgs signers height version) with
    | (None, _) => inl (empty_resp, "empty message")
    | (_, KeygenReq _ _ _) => inl (empty_resp, "unknown request type")
    | (Some id, KeysignReq _ msgs' signers' _ _) =>
        match se_state E pool with
        | None => inl (empty_resp, "fail to get local keygen state")
        | Some st =>
            match decode_msgs msgs' with
            | None => inl (empty_resp, "fail to decode message")
            | Some payloads =>
                match oldJoinParty version with
                | None => inl (internal_fail, "fail to parse the version")
                | Some old =>
                    if (Nat.eqb (length signers') 0 && old)%bool then inl (empty_resp, "empty signer pub keys")
                    else
                      let threshold := threshold_of (Z.of_nat (length (ls_participants st))) in
                      if (Z.leb (Z.of_nat (length signers')) threshold && old)%bool then inl (empty_resp, "not enough signers")
                      else inr (SJob id pool (sort_msgs payloads) signers' height version threshold
                                  (ls_participants st) (ls_local st))
                end
            end
        end
    end.

  Context (J : sjob).

  (** tss/keysign.go:335-355 (batchSignatures); [None]: index out of range *)
  Definition batch (d : list ecsig) : option response :=
    match batchSignatures d (sj_msgs J) with Some l => Some (Resp l Success no_blame) | None => None end.

  (** ** The goroutine that waits *)

  (** keysign/signature_notifier.go:199-205 *)
  Definition w_start (s : kstate) : kstate :=
    match k_w s with
    | WNew =>
        match NewNotifier (sj_id J) (sj_msgs J) (sj_pool J) with
        | None => set_w (WEnd None) s
        | Some _ => set_w WSelect s
        end
    | _ => s
    end.
  (** What arrives has passed ProcessSignature of this call's notifier (M_Notifier);
      then tss/keysign.go:27-35. *)
  Definition w_data (d : list ecsig) (s : kstate) : kstate :=
    match k_w s with
    | WSelect =>
        match ProcessSignature (se_n E) (Notifier (sj_id J) (sj_msgs J) (sj_pool J) None) d with
        | PsDeliver =>
            if Nat.eqb (length d) 0 then set_w (WEnd None) s
            else match batch d with
            | None => set_crash s
            | Some r => set_w (WSend r) s
            end
        | _ => s
        end
    | _ => s
    end.
  Definition w_timeout (s : kstate) : kstate :=
    match k_w s with WSelect => set_w (WEnd None) s | _ => s end.
  Definition w_take (s : kstate) : kstate :=
    match k_w s, k_chan s with
    | WSelect, _ :: rest => set_w (WEnd None) (set_chan rest s)
    | _, _ => s
    end.
  (** A send on [sigChan]: it panics when closed, waits when full. *)
  Definition send (m : string) (k : kstate -> kstate) (s : kstate) : kstate :=
    if k_closed s then set_crash s
    else if Nat.ltb (length (k_chan s)) sig_cap then k (set_chan (k_chan s ++ [m]) s)
    else s.
  Definition w_send (s : kstate) : kstate :=
    match k_w s with WSend r => send sig_received (set_w (WEnd (Some r))) s | _ => s end.

  (** ** The goroutine that signs: tss/keysign.go:38-174 *)

  (** p2p/party_coordinator.go:480-493: the role, with the leader returned beside
      the result; [None]: no leader *)
  Definition join_role (peers : list string) : string * option role :=
    match LeaderNode (se_sha E) (sj_id J) (sj_height J) peers with
    | None => ("", None)
    | Some leader =>
        (leader, Some (if String.eqb (se_self E) leader then RLeader peers else RMember leader))
    end.

  (** blame/policy.go:48-67 (NodeSyncBlame): what is returned, also beside an error *)
  Fixpoint sync_nodes (keys online : list string) : list node :=
    match keys with
    | [] => []
    | k :: rest =>
        match peer_of k with
        | None => []
        | Some p => if existsb (String.eqb p) online then sync_nodes rest online else plain k :: sync_nodes rest online
        end
    end.

  (** tss/keysign.go:79-126: the join party failed. *)
  Definition join_failed (allPeers : list string) (leader : string) (o : outcome) (s : kstate) : kstate :=
    match oc_err o with
    | ESignReceived => set_g (GEnd empty_resp GSignReceived) s
    | _ =>
        let b :=
          if String.eqb leader "NONE" then
            match oc_peers o with
            | None => Blame InternalError false []
            | Some online => Blame TssSyncFail false (sync_nodes (sj_signers J) online)
            end
          else Blame TssSyncFail false match se_pub E leader with Some k => [plain k] | None => [] end in
        set_g (GEnd (Resp [] Fail b) GNone) (add_bcast [(None, allPeers)] (add_metric (MJoin false) s))
    end.

  (** tss/keysign.go:39-78 up to the join party, which fails at once in three cases
      (tss/tss.go:176-199, p2p/party_coordinator.go:481-484). *)
  Definition g_start (s : kstate) : kstate :=
    match k_g s with
    | GNew =>
        match GetPeerIDsFromPubKeys peer_of (sj_participants J) with
        | None => set_g (GEnd internal_fail GNone) s
        | Some allPeers =>
            let join participants :=
              match joinParty peer_of (sj_version J) participants with
              | JoinErr leader => join_failed allPeers leader (Outcome None EInvalid) s
              | JoinLeaderless peers => set_g (GJoin (RLeaderless peers) "NONE" false) s
              | JoinLeader peers =>
                  match join_role peers with
                  | (leader, None) => join_failed allPeers leader (Outcome None EInvalid) s
                  | (leader, Some r) => set_g (GJoin r leader false) s
                  end
              end in
            match oldJoinParty (sj_version J) with
            | None => set_g (GEnd internal_fail GVersion) s
            | Some false => join (sj_participants J)
            | Some true =>
                match se_pub E (se_self E) with
                | None => set_g (GEnd empty_resp GNotActive) s
                | Some myPk =>
                    if existsb (String.eqb myPk) (sj_signers J) then join (sj_signers J)
                    else set_g (GEnd empty_resp GNotActive) s
                end
            end
        end
    | _ => s
    end.

  Definition all_peers : list string :=
    match GetPeerIDsFromPubKeys peer_of (sj_participants J) with Some l => l | None => [] end.

  (** p2p/party_coordinator.go:373-376 (a member stops), 447-448 (the leader goes
      on); the leaderless join party does not read the channel. Only one message
      makes a difference. *)
  Definition g_take (s : kstate) : kstate :=
    match k_g s, k_chan s with
    | GJoin (RLeaderless _) _ _, _ => s
    | GJoin r leader taken, m :: rest =>
        match r, taken with
        | RMember _, true => s
        | _, _ => set_g (GJoin r leader (taken || String.eqb m sig_received)%bool) (set_chan rest s)
        end
    | _, _ => s
    end.

  (** The returns possible: p2p/party_coordinator.go:382-394, 451-453. Once the
      message was read a leader returns ErrSignReceived, a member that or
      ErrLeaderNotReady; otherwise nobody returns ErrSignReceived. *)
  Definition join_possible (r : role) (taken : bool) (o : outcome) : bool :=
    match r, taken, oc_err o with
    | RLeader _, true, ESignReceived => true
    | RMember _, true, ESignReceived => true
    | RMember _, true, ELeaderNotReady => true
    | _, true, _ => false
    | _, false, ESignReceived => false
    | _, false, _ => true
    end.

  (** tss/keysign.go:76-153 *)
  Definition g_joined (o : outcome) (s : kstate) : kstate :=
    match k_g s with
    | GJoin r leader taken =>
        if join_possible r taken o then
          match oc_err o with
          | ENone =>
              let s := add_metric (MJoin true) s in
              let online := default [] (oc_peers o) in
              if existsb (String.eqb (se_self E)) online then
                match GetPeerIDsFromPubKeys (se_pub E) online with
                | None => set_g (GSend None (Resp [] Fail no_blame)) s
                | Some signers => set_g (GSign online signers) s
                end
              else set_g (GEnd empty_resp GNotActive) s
          | _ => join_failed all_peers leader o s
          end
        else s
    | _ => s
    end.

  (** keysign/tss_keysign.go:84-178 (SignMessage); [None]: not possible, the loop
      goes on. GetParties returns an error when the local party is not in the list,
      so that the test that follows always succeeds. SetupIDMaps fails when a key is
      no secp256k1 key, and the error returned then is a nil one; without messages
      blameMgr.SetPartyInfo calls a method of a nil party (blame/manager.go:92-104). *)
  Definition SignMessage (signers : list string) (c : ceremony) : option sign_result :=
    match GetParties (se_key E) signers (sj_local J) with
    | None => Some (SRErr no_blame)
    | Some _ =>
        if forallb (fun k => match peer_of k with Some _ => true | None => false end) signers then
          match sj_msgs J with
          | [] => Some SRPanic
          | _ =>
              match c with
              | CFail b => Some (SRErr b)
              | CEnd endCh =>
                  match collect (length (sj_msgs J)) [] endCh with
                  | Some l => Some (SROk (sort_sigs l))
                  | None => None
                  end
              end
          end
        else Some SRNil
    end.

  (** tss/keysign.go:154-173: with signatures the call goes on to broadcast and
      batch them; batchSignatures panics on more signatures than messages. *)
  Definition g_signed (c : ceremony) (s : kstate) : kstate :=
    match k_g s with
    | GSign online signers =>
        match SignMessage signers c with
        | None => s
        | Some SRPanic => set_crash s
        | Some (SRErr b) => set_g (GSend (Some (None, all_peers)) (Resp [] Fail b)) s
        | Some SRNil => set_g (GSend (Some (None, all_peers)) (Resp [] Success no_blame)) s
        | Some (SROk l) =>
            match batch l with
            | None => set_crash s
            | Some r => set_g (GSend (Some (Some l, all_peers)) r) s
            end
        end
    | _ => s
    end.

  Definition g_send (s : kstate) : kstate :=
    match k_g s with
    | GSend b r =>
        send sig_generated (fun s => set_g (GEnd r GNone) (add_bcast (match b with Some b => [b] | None => [] end) s)) s
    | _ => s
    end.

  (** tss/keysign.go:302-317 *)
  Definition finish_keysign (w : option response) (r : response) (e : gerr) (s : kstate) : kstate :=
    let '(resp, err) :=
      match w with
      | Some received => (received, GNone)
      | None =>
          match e with
          | GSignReceived | GNotActive => (empty_resp, GNone)
          | _ => (r, e)
          end
      end in
    KState (k_w s) (k_g s) (k_chan s) true (k_bcasts s)
      (k_metrics s ++ [MSign match rp_status resp with Success => true | _ => false end])
      (k_crash s) (Some (resp, err)).
  Definition k_close (s : kstate) : kstate :=
    match k_closed s, k_w s, k_g s with
    | false, WEnd w, GEnd r e => finish_keysign w r e s
    | _, _, _ => s
    end.

  Definition kstep (s : kstate) (l : klabel) : kstate :=
    if k_crash s then s
    else match l with
    | KWStart => w_start s
    | KWData d => w_data d s
    | KWTimeout => w_timeout s
    | KWTake => w_take s
    | KWSend => w_send s
    | KGStart => g_start s
    | KGTake => g_take s
    | KGJoined o => g_joined o s
    | KGSigned c => g_signed c s
    | KGSend => g_send s
    | KClose => k_close s
    end.
  Definition krun (ls : list klabel) : kstate := fold_left kstep ls k_init.
End KeySign.

(** The whole call: refused by the checks, or a run of the machine that ended. *)
Inductive keysign_returns (E : senv) (pool : string) (msgs signers : list string) (height : Z) (version : string)
    : response -> option string -> Prop :=
  | ks_refused r e :
      prepare E pool msgs signers height version = inl (r, e) ->
      keysign_returns E pool msgs signers height version r (Some e)
  | ks_ended J ls r e :
      prepare E pool msgs signers height version = inr J ->
      k_result (krun E J ls) = Some (r, e) ->
      keysign_returns E pool msgs signers height version r
        match e with GVersion => Some "fail to parse the version"%string | _ => None end.
