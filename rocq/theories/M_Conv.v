(** Pure functions every node must compute identically:
    leader election, request ids, party tables, hash integers, versions. *)
From Coq Require Import ZArith NArith Ascii String List.
From stdpp Require Import base list strings gmap sorting.
From Verif Require Import Base.

(** [strconv.FormatInt(z, 10)] *)
Definition format_int (z : Z) : string :=
  if Z.ltb z 0 then String.append "-" (itoa (Z.to_N (- z))) else itoa (Z.to_N z).

Section Leader.
  (** hex(SHA-256(b)): crypto/sha256 and encoding/hex are not modelled. *)
  Variable sha256hex : bytes -> string.

  (** The hash of one participant, p2p/leader_provider.go:19-20. *)
  Definition leader_hash (msgID : string) (blockHeight : Z) (el : string) : string :=
    sha256hex (to_bytes (String.append (String.append msgID (format_int blockHeight)) el)).

  (** The loop of p2p/leader_provider.go:18-23: later participants overwrite
      earlier ones with the same hash in [keyStore]. *)
  Fixpoint leader_loop (msgID : string) (h : Z) (pIDs : list string)
      (keyStore : gmap string string) (hashes : list string)
      : gmap string string * list string :=
    match pIDs with
    | [] => (keyStore, hashes)
    | el :: rest =>
        let e := leader_hash msgID h el in
        leader_loop msgID h rest (<[e := el]> keyStore) (hashes ++ [e])
    end.

  (** p2p/leader_provider.go:12-26 (LeaderNode); [None] is the error.
      [keyStore[hashes[0]]] of a missing key would be the empty string. *)
  Definition LeaderNode (msgID : string) (blockHeight : Z) (pIDs : list string)
      : option string :=
    if (Nat.eqb (length pIDs) 0 || Nat.eqb (String.length msgID) 0 || Z.eqb blockHeight 0)%bool
    then None
    else
      let '(keyStore, hashes) := leader_loop msgID blockHeight pIDs ∅ [] in
      match sort_strings hashes with
      | [] => None (* hashes is not empty: not reachable *)
      | h0 :: _ => Some (default EmptyString (keyStore !! h0))
      end.
End Leader.

(** ** Request ids *)

(** keygen.Request (keygen/request.go) and keysign.Request (keysign/request.go);
    version and block height are kept to show that they are not used. *)
Inductive request :=
  | KeygenReq (keys : list string) (blockHeight : Z) (version : string)
  | KeysignReq (pool : string) (msgs : list string) (signers : list string)
               (blockHeight : Z) (version : string).

Section RequestId.
  Variable sha256hex : bytes -> string.

  (** common/tss_helper.go:45-55 (MsgToHashString); the error of [h.Write] never
      occurs (hash.Hash documents that Write never returns an error). *)
  Definition MsgToHashString (msg : bytes) : option string :=
    match msg with [] => None | _ => Some (sha256hex msg) end.

  (** tss/tss.go:146-167 (requestToMsgId). [sort.Strings] sorts the slices of
      the request in place: the request as left behind is the second result. *)
  Definition requestToMsgId (r : request) : option string * request :=
    match r with
    | KeygenReq keys h v =>
        let keys' := sort_strings keys in
        (MsgToHashString (to_bytes (concat_strings keys')), KeygenReq keys' h v)
    | KeysignReq pool msgs signers h v =>
        let msgs' := sort_strings msgs in
        let signers' := sort_strings signers in
        (MsgToHashString (to_bytes (join_strings "," msgs') ++ to_bytes (concat_strings signers')),
         KeysignReq pool msgs' signers' h v)
    end.
End RequestId.

(** ** Party tables *)

(** btss.PartyID: id, unique key (the integer of the public key bytes), and the
    index assigned by SortPartyIDs. The moniker is always "" here. *)
Record party := Party { p_id : string; p_key : N; p_index : nat }.

Section Parties.
  (** Bech32 account public key to raw key bytes (cosmos-sdk); [None] = error. *)
  Variable key_bytes : string -> option bytes.

  (** The loop of conversion/conversion.go:114-129. [None]: malformed key.
      Returns the parties in order and the last one whose string is the local
      key. *)
  Fixpoint parties_loop (idx : N) (keys : list string) (localPartyKey : string)
      (acc : list (string * N)) (loc : option (string * N))
      : option (list (string * N) * option (string * N)) :=
    match keys with
    | [] => Some (acc, loc)
    | item :: rest =>
        match key_bytes item with
        | None => None
        | Some b =>
            let p := (itoa idx, be_val b) in
            parties_loop (idx + 1) rest localPartyKey (acc ++ [p])
              (if String.eqb item localPartyKey then Some p else loc)
        end
    end.

  (** The order used by tss-lib's SortPartyIDs: by key. *)
  Definition pkey_le (a b : string * N) : Prop := (snd a <= snd b)%N.
  Global Instance pkey_le_dec : RelDecision pkey_le.
  Proof. intros a b. unfold pkey_le. apply _. Defined.

  (** tss-lib SortPartyIDs: sorts by key and numbers the result. The library uses
      an unstable sort; for distinct keys the result is unique, for equal keys the
      order among equals is whatever merge sort gives (simplification). *)
  Definition SortPartyIDs (l : list (string * N)) : list party :=
    imap (fun i p => Party (fst p) (snd p) i) (merge_sort pkey_le l).

  (** conversion/conversion.go:110-136 (GetParties). [None] is any error return.
      The local party is returned as the entry of the sorted list with its id
      (in Go both are the same pointer). *)
  Definition GetParties (keys : list string) (localPartyKey : string)
      : option (list party * party) :=
    match parties_loop 0 (sort_strings keys) localPartyKey [] None with
    | None => None
    | Some (_, None) => None
    | Some (l, Some loc) =>
        let ps := SortPartyIDs l in
        match list_find (fun p => p_id p = fst loc) ps with
        | Some (_, p) => Some (ps, p)
        | None => None (* not reachable *)
        end
    end.
End Parties.

(** conversion/conversion.go:77-83 (SetupPartyIDMap) *)
Definition SetupPartyIDMap (l : list party) : gmap string party :=
  foldl (fun m p => <[p_id p := p]> m) ∅ l.

(** ** Hash integers *)

(** common/tss_helper.go:57-70 (hashToInt) for a curve whose order has
    [orderBits] bits; [big.Int.Rsh] is a shift. *)
Definition hashToInt (orderBits : nat) (hash : bytes) : N :=
  let orderBytes := (orderBits + 7) / 8 in
  let hash := if Nat.ltb orderBytes (length hash) then take orderBytes hash else hash in
  let ret := be_val hash in
  let excess := (Z.of_nat (length hash) * 8 - Z.of_nat orderBits)%Z in
  if Z.ltb 0 excess then N.shiftr ret (Z.to_N excess) else ret.

(** common/tss_helper.go:41-43 (MsgToHashInt): btcec.S256(), whose order has 256
    bits. It never fails. *)
Definition MsgToHashInt (msg : bytes) : N := hashToInt 256 msg.
