(** Model of the blame package: blame/blame.go, blame/manager.go,
    blame/policy.go, blame/policy_helper.go, blame/round_mgr.go, and of what the
    drivers do with it when a ceremony times out (keygen/tss_keygen.go:159-204,
    keysign/tss_keysign.go:195-247).

    The manager's tables are those of [M_Common.state]: [s_stored] (roundMgr),
    [s_unicast] (lastUnicastPeer), [s_accepted] (acceptedShares), [s_blame]; the
    party tables are those of [M_Common.cfg] (SetupIDMaps fills the manager's
    PartyIDtoP2PID and the ceremony's with the same entries, keygen/tss_keygen.go:97-98,
    keysign/tss_keysign.go:123-124). A party's id is its key in PartyIDMap
    (conversion/conversion.go:77-83). Peer ids are represented by their string
    form. A nil slice and an empty one are not distinguished. *)
From Coq Require Import ZArith NArith Ascii String List.
From stdpp Require Import base list strings gmap sorting.
From Verif Require Import Base S_Threshold M_Common.

(** A Go function that returns a value and an error, or panics. *)
Inductive bres (A : Type) := BOk (a : A) | BErr (e : string) | BPanic.
Arguments BOk {A} a.
Arguments BErr {A} e.
Arguments BPanic {A}.

(** blame/blame.go:11-17 (NewNode with no evidence) *)
Definition plain (pk : string) : node := Node pk [] [].

(** blame/blame.go:19-24 (Node.Equal) *)
Definition node_equal (a b : node) : bool :=
  String.eqb (n_pub a) (n_pub b) && bool_decide (n_sig a = n_sig b).
(** blame/blame.go:63-79 (AddBlameNodes) *)
Definition add_node (l : list node) (n : node) : list node :=
  if existsb (node_equal n) l then l else l ++ [n].
Definition AddBlameNodes (ns : list node) (b : blame) : blame :=
  Blame (bl_reason b) (bl_unicast b) (fold_left add_node ns (bl_nodes b)).
(** blame/types.go:11-13 *)
Definition TssTimeout : string := "Tss timeout".
Definition TssSyncFail : string := "signers fail to sync before keygen/keysign".

(** blame/policy.go:48-67 (NodeSyncBlame); [peer_of] is GetPeerIDFromPubKey. On an
    error the nodes found so far are returned with it, and the callers use those
    (M_KeySign.sync_nodes); here only the error. *)
Fixpoint sync_loop (peer_of : string -> option string) (keys online : list string) (acc : list node) : bres (list node) :=
  match keys with
  | [] => BOk acc
  | item :: rest =>
      match peer_of item with
      | None => BErr "fail to get peer id from pub key"
      | Some p =>
          sync_loop peer_of rest online (if existsb (String.eqb p) online then acc else acc ++ [plain item])
      end
  end.
Definition NodeSyncBlame (peer_of : string -> option string) (keys online : list string) : bres blame :=
  match sync_loop peer_of keys online [] with
  | BOk l => BOk (Blame TssSyncFail false l)
  | BErr e => BErr e
  | BPanic => BPanic
  end.

(** messages/TssPhaseMessages.go:16-17 *)
Definition TSSKEYGENROUNDS : nat := 4.
Definition TSSKEYSIGNROUNDS : nat := 8.

(** conversion/conversion.go:138-143 (GetPreviousKeySignUicast) *)
Fixpoint has_suffix (suf b : bytes) : bool :=
  bool_decide (b = suf) || match b with [] => false | _ :: b' => has_suffix suf b' end.
Definition GetPreviousKeySignUicast (current : string) : string :=
  if has_suffix (to_bytes "SignRound1Message2") (to_bytes current) then "SignRound1Message1" else "SignRound2Message".

Section Blame.
  Context (E : env) (C : cfg).
  (** localPartyID, set by SetPartyInfo (blame/manager.go:92-104) *)
  Context (local : string).

  (** blame/round_mgr.go:43-53 (GetByRound); [None]: nil dereference of the routing *)
  Fixpoint by_round (round : string) (l : list wire) : option (list string) :=
    match l with
    | [] => Some []
    | w :: rest =>
        if String.eqb (w_round w) round then
          match w_routing w with
          | Some (Routing (FId id) _ _) =>
              match by_round round rest with Some ids => Some (id :: ids) | None => None end
          | _ => None
          end
        else by_round round rest
    end.
  Definition GetByRound (ord : order) (round : string) (s : state) : option (list string) :=
    by_round round (permute ord (map snd (map_to_list (s_stored s)))).

  (** blame/policy.go:15-45 (tssTimeoutBlame); [ord2] is the order of ToSlice *)
  Definition tssTimeoutBlame (ord ord2 : order) (round : string) (s : state) : bres (list string) :=
    let peersSet : gset string := dom (cf_parties C) ∖ {[ local ]} in
    match GetByRound ord round s with
    | None => BPanic
    | Some [] => BOk []
    | Some standby =>
        let diff := permute ord2 (elements (peersSet ∖ list_to_set standby)) in
        match AccPubKeysFromPartyIDs E C diff with
        | Some l => BOk l
        | None => BErr "cannot find the blame party"
        end
    end.
  (** blame/policy.go:104-115 (GetBroadcastBlame) *)
  Definition GetBroadcastBlame (ord ord2 : order) (round : string) (s : state) : bres (list node) :=
    match tssTimeoutBlame ord ord2 round s with
    | BOk l => BOk (map plain l)
    | BErr e => BErr "fail to get the blamed peers"
    | BPanic => BPanic
    end.

  (** blame/policy_helper.go:6-27 (getBlamePubKeysInList) *)
  Definition getBlamePubKeysInList (ord : order) (peers : list string) : option (list string) :=
    AccPubKeysFromPartyIDs E C
      (flat_map (fun x : string * string => map (fun _ => fst x) (filter (fun el => el = snd x) peers))
         (permute ord (map_to_list (cf_id2peer C)))).
  (** blame/policy_helper.go:29-55 (getBlamePubKeysNotInList) *)
  Definition getBlamePubKeysNotInList (ord : order) (peers : list string) : option (list string) :=
    AccPubKeysFromPartyIDs E C
      (map fst (filter (fun x : string * string => ~ (local = fst x) /\ snd x ∉ peers)
         (permute ord (map_to_list (cf_id2peer C))))).
  (** blame/policy_helper.go:58-70 (GetBlamePubKeysLists) *)
  Definition GetBlamePubKeysLists (ord ord2 : order) (peers : list string) : option (list string * list string) :=
    match getBlamePubKeysInList ord peers, getBlamePubKeysNotInList ord2 peers with
    | Some l, Some l' => Some (l, l')
    | _, _ => None
    end.

  (** blame/policy.go:70-101 (GetUnicastBlame); [ord]: iteration over peersMap,
      [ord2], [ord3]: over PartyIDtoP2PID *)
  Definition GetUnicastBlame (ord ord2 ord3 : order) (round : string) (s : state) : bres (list node) :=
    if decide (s_unicast s = ∅) then BOk []
    else match s_unicast s !! round with
    | None => BErr "fail to find peers of the given msg type"
    | Some peersID =>
        let online := permute ord (elements (list_to_set peersID : gset string)) in
        match GetBlamePubKeysLists ord2 ord3 online with
        | None => BErr "fail to get the blamed peers"
        | Some (_, blamed) => BOk (map plain blamed)
        end
    end.

  (** blame/policy.go:141-152: the accepted shares, grouped by message; [None]: index
      out of range *)
  Fixpoint group_shares (rounds : nat) (l : list (roundinfo * list string))
      (acc : gmap string (list (list string))) : option (gmap string (list (list string))) :=
    match l with
    | [] => Some acc
    | ((index, _, ident), value) :: rest =>
        if Nat.ltb index rounds then
          let cached := default (replicate rounds []) (acc !! ident) in
          group_shares rounds rest (<[ident := <[index := value]> cached]> acc)
        else None
    end.
  (** blame/policy.go:157-185: the first round not all shares of which were accepted *)
  Fixpoint first_missing (n : nat) (index : nat) (cached : list (list string)) : option (nat * list string) :=
    match cached with
    | [] => None
    | el :: rest => if Nat.eqb (S (length el)) n then first_missing n (S index) rest else Some (index, el)
    end.
  (** blame/policy.go:162-174 *)
  Definition missing_unicast (rounds index : nat) : bool :=
    (Nat.eqb rounds TSSKEYGENROUNDS && Nat.eqb index 1) || (Nat.eqb rounds TSSKEYSIGNROUNDS && Nat.ltb index 5).
  (** blame/policy.go:155-197: the loop over the messages. [peers] is declared before
      the loop, so it keeps the peers of the messages seen before. [ords]: for each
      message the iteration order over PartyIDtoP2PID. *)
  Fixpoint missing_loop (rounds : nat) (ords : list order) (l : list (string * list (list string)))
      (peers : list string) (unicast : bool) (acc : list node) : bres (list node * bool) :=
    match l with
    | [] => BOk (acc, unicast)
    | (_, cached) :: rest =>
        let '(peers', unicast') :=
          match first_missing (size (cf_id2peer C)) 0 cached with
          | None => (peers, unicast)
          | Some (index, el) =>
              (peers ++ map (fun pid => default "" (cf_id2peer C !! pid)) (el ++ [local]),
               unicast || missing_unicast rounds index)
          end in
        match getBlamePubKeysNotInList (hd [] ords) peers' with
        | None => BErr "cannot find the blame party"
        | Some pks => missing_loop rounds (tl ords) rest peers' unicast' (acc ++ map plain pks)
        end
    end.
  (** blame/policy.go:135-198 (TssMissingShareBlame); [ord], [ord2]: iteration over
      acceptedShares and acceptedShareForMsg. On an error the flag is returned too,
      here dropped (the callers use it only when nodes were found). *)
  Definition TssMissingShareBlame (ord ord2 : order) (ords : list order) (rounds : nat) (s : state)
      : bres (list node * bool) :=
    match group_shares rounds (permute ord (map_to_list (s_accepted s))) ∅ with
    | None => BPanic
    | Some m => missing_loop rounds ords (permute ord2 (map_to_list m)) [] false []
    end.

  (** ** Timeouts of the drivers *)

  (** The orders of one timeout. *)
  Record torders := TOrders {
    to_u : order; to_u2 : order; to_u3 : order; to_b : order; to_b2 : order;
    to_m : order; to_m2 : order; to_ms : list order }.

  (** keygen/tss_keygen.go:178-182, keysign/tss_keysign.go:202-207: the threshold of
      the peers; exact by C01 *)
  Definition peers_threshold : nat := Z.to_nat (threshold_of (Z.of_nat (length (cf_peers C) + 1))).

  Definition nodes_of {A} (f : A -> list node) (r : bres A) : option (list node) :=
    match r with BOk a => Some (f a) | BErr _ => Some [] | BPanic => None end.

  (** keygen/tss_keygen.go:164-202 from GetUnicastBlame on, keysign/tss_keysign.go:
      208-244: unicast blame of round [around], broadcast blame of round [bround],
      missing shares if nobody is blamed yet. Errors are logged. [None]: panic. *)
  Definition timeout_blame (around bround : string) (rounds : nat) (o : torders) (s : state) : option state :=
    let reason := if String.eqb (bl_reason (s_blame s)) "" then TssTimeout else bl_reason (s_blame s) in
    match nodes_of id (GetUnicastBlame (to_u o) (to_u2 o) (to_u3 o) around s) with
    | None => None
    | Some u =>
        let s1 := if Nat.ltb 0 (length u) && Nat.leb (length u) peers_threshold
          then set_blame (SetBlame reason u true) s else s in
        match nodes_of id (GetBroadcastBlame (to_b o) (to_b2 o) bround s1) with
        | None => None
        | Some b =>
            let s2 := set_blame (AddBlameNodes b) s1 in
            match bl_nodes (s_blame s2) with
            | [] =>
                match TssMissingShareBlame (to_m o) (to_m2 o) (to_ms o) rounds s2 with
                | BPanic => None
                | BErr _ => Some s2
                | BOk (m, unicast) =>
                    if Nat.ltb 0 (length m) && Nat.leb (length m) peers_threshold then
                      Some (set_blame (fun b => let b' := AddBlameNodes m b in Blame (bl_reason b') unicast (bl_nodes b')) s2)
                    else Some s2
                end
            | _ => Some s2
            end
        end
    end.

  (** keygen/tss_keygen.go:159-204: [last] is the type of the last message the local
      party produced *)
  Definition keygenTimeout (last : option string) (o : torders) (s : state) : option state :=
    match last with
    | None => Some s (* "timeout before shared message is generated" *)
    | Some ty => timeout_blame "KGRound2Message1" ty TSSKEYGENROUNDS o s
    end.
  (** keysign/tss_keysign.go:195-247: type and broadcast flag of the last message;
      line 209 calls a method of a nil interface if there is none *)
  Definition keysignTimeout (last : option (string * bool)) (o : torders) (s : state) : option state :=
    match last with
    | None => None
    | Some (ty, bcast) =>
        timeout_blame (if bcast then GetPreviousKeySignUicast ty else ty) ty TSSKEYSIGNROUNDS o s
    end.
End Blame.
