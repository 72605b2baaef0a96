(** conversion/key_provider.go, conversion/conversion.go and conversion/bech32.go: node
    keys as text, curve points and peer ids. The text formats come from libraries that
    are not in /repo (cosmos-sdk and its bech32, amino, btcec, libp2p, base58); they are
    modelled from knowledge of their source. *)
From Coq Require Import ZArith Zpow_facts NArith Ascii String List.
From stdpp Require Import base list strings.
From Verif Require Import Base M_Recovery.

(** ** Bech32 (btcutil/bech32 as used by cosmos-sdk types/bech32) *)

Definition charset : bytes := to_bytes "qpzry9x8gf2tvdw0s3jn54khce6mua7l".
(** The position of a character of an alphabet *)
Fixpoint index_of (c : ascii) (l : bytes) : option N :=
  match l with
  | [] => None
  | d :: r => if Ascii.eqb d c then Some 0%N else match index_of c r with Some n => Some (n + 1)%N | None => None end
  end.
Fixpoint all_some {A} (l : list (option A)) : option (list A) :=
  match l with
  | [] => Some []
  | Some x :: r => match all_some r with Some t => Some (x :: t) | None => None end
  | None :: _ => None
  end.
Definition char_of (alphabet : bytes) (n : N) : ascii := nth (N.to_nat n) alphabet "000"%char.
(** toBytes and toChars *)
Definition chars_values (alphabet s : bytes) : option (list N) := all_some (map (fun c => index_of c alphabet) s).
Definition values_chars (alphabet : bytes) (l : list N) : bytes := map (char_of alphabet) l.

Definition polystep (chk v : N) : N :=
  let b := N.shiftr chk 25 in
  let chk := N.lxor (N.shiftl (N.land chk 0x1ffffff) 5) v in
  let chk := if N.testbit b 0 then N.lxor chk 0x3b6a57b2 else chk in
  let chk := if N.testbit b 1 then N.lxor chk 0x26508e6d else chk in
  let chk := if N.testbit b 2 then N.lxor chk 0x1ea119fa else chk in
  let chk := if N.testbit b 3 then N.lxor chk 0x3d4233dd else chk in
  if N.testbit b 4 then N.lxor chk 0x2a1462b3 else chk.
Definition polymod (values : list N) : N := fold_left polystep values 1%N.
Definition hrpExpand (hrp : bytes) : list N :=
  map (fun c => N.shiftr (byte_val c) 5) hrp ++ [0%N] ++ map (fun c => N.land (byte_val c) 31) hrp.
Definition verifyChecksum (hrp : bytes) (data : list N) : bool := N.eqb (polymod (hrpExpand hrp ++ data)) 1.
Definition checksum (hrp : bytes) (data : list N) : list N :=
  let p := N.lxor (polymod (hrpExpand hrp ++ data ++ repeat 0%N 6)) 1 in
  map (fun s => N.land (N.shiftr p s) 31) [25; 20; 15; 10; 5; 0]%N.

(** The [n] low bits of a number, the highest first, and back *)
Fixpoint to_bits (n : nat) (v : N) : list bool :=
  match n with O => [] | S k => N.testbit v (N.of_nat k) :: to_bits k v end.
Fixpoint of_bits_acc (acc : N) (l : list bool) : N :=
  match l with [] => acc | b :: r => of_bits_acc (2 * acc + (if b then 1 else 0)) r end.
Definition of_bits (l : list bool) : N := of_bits_acc 0 l.
(** Full groups of [n] bits and what is left *)
Fixpoint groups (fuel n : nat) (l : list bool) : list (list bool) * list bool :=
  match fuel with
  | O => ([], l)
  | S fuel =>
      if Nat.ltb (length l) n then ([], l)
      else let '(gs, rest) := groups fuel n (drop n l) in (take n l :: gs, rest)
  end.
(** ConvertBits; [None]: more than four bits are left over, or they are not zero *)
Definition ConvertBits (data : list N) (from to : nat) (pad : bool) : option (list N) :=
  let bits := concat (map (to_bits from) data) in
  let '(gs, rest) := groups (length bits) to bits in
  match rest with
  | [] => Some (map of_bits gs)
  | _ =>
      if pad then Some (map of_bits gs ++ [of_bits (rest ++ repeat false (to - length rest))])
      else if (Nat.leb (length rest) 4 && forallb negb rest)%bool then Some (map of_bits gs) else None
  end.

Definition to_lower (c : ascii) : ascii :=
  if (N.leb 65 (byte_val c) && N.leb (byte_val c) 90)%bool then ascii_of_N (byte_val c + 32) else c.
Definition to_upper (c : ascii) : ascii :=
  if (N.leb 97 (byte_val c) && N.leb (byte_val c) 122)%bool then ascii_of_N (byte_val c - 32) else c.
(** The text before and after the last [c] *)
Fixpoint last_cut (c : ascii) (s : bytes) : option (bytes * bytes) :=
  match s with
  | [] => None
  | d :: r =>
      match last_cut c r with
      | Some (a, b) => Some (d :: a, b)
      | None => if Ascii.eqb d c then Some ([], r) else None
      end
  end.
(** Decode with the limit 1023 *)
Definition bech32_decode (bech : bytes) : option (bytes * list N) :=
  if (Nat.ltb (length bech) 8 || Nat.ltb 1023 (length bech))%bool then None
  else if negb (forallb (fun c => N.leb 33 (byte_val c) && N.leb (byte_val c) 126)%bool bech) then None
  else
    let lower := map to_lower bech in
    let upper := map to_upper bech in
    if negb (bool_decide (bech = lower) || bool_decide (bech = upper)) then None
    else match last_cut "1" lower with
    | None => None
    | Some (hrp, data) =>
        if (Nat.eqb (length hrp) 0 || Nat.ltb (length data) 6)%bool then None
        else match chars_values charset data with
        | None => None
        | Some values =>
            if verifyChecksum hrp values then Some (hrp, take (length values - 6) values) else None
        end
    end.
Definition bech32_encode (hrp : bytes) (data : list N) : bytes :=
  hrp ++ "1"%char :: values_chars charset (data ++ checksum hrp data).

(** conversion/bech32.go:7-13 (SetupBech32Prefix) *)
Definition prefix : bytes := to_bytes "thorpub".

(** ** Keys as bytes *)

(** amino: the four bytes of the type, the length, the key. *)
Definition amino_type : bytes := map ascii_of_N [0xeb; 0x5a; 0xe9; 0x87]%N.
Fixpoint uvarint (fuel : nat) (n : N) : bytes :=
  match fuel with
  | O => []
  | S fuel => if N.ltb n 128 then [ascii_of_N n] else ascii_of_N (128 + n mod 128) :: uvarint fuel (n / 128)
  end.
Definition amino_key (key : bytes) : bytes := amino_type ++ uvarint 10 (N.of_nat (length key)) ++ key.
(** What stands before a key of 33 bytes *)
Definition amino_head : bytes := amino_type ++ [ascii_of_N 33].
(** protobuf of the libp2p key (type secp256k1, 33 bytes) in an identity multihash *)
Definition id_head : bytes := map ascii_of_N [0x00; 0x25; 0x08; 0x02; 0x12; 0x21]%N.
Definition after (head b : bytes) : option bytes :=
  if bool_decide (take (length head) b = head) then Some (drop (length head) b) else None.

(** The prime of secp256k1 and the order of its field *)
Definition secp_p : Z := 2 ^ 256 - 2 ^ 32 - 977.
Definition curve_rhs (x : Z) : Z := (x * x * x + 7) mod secp_p.
(** z to the power (p + 1) / 4 modulo p (btcec fieldVal.SqrtVal) *)
Definition field_sqrt (z : Z) : Z := Zpow_mod z ((secp_p + 1) / 4) secp_p.
Definition isOnCurve (x y : Z) : bool := Z.eqb (y * y mod secp_p) (curve_rhs x).
(** btcec ParsePubKey *)
Definition ParsePubKey (b : bytes) : option (Z * Z) :=
  match b with
  | [] => None
  | f :: r =>
      let ybit := N.odd (byte_val f) in
      let format := N.land (byte_val f) 254 in
      let xy :=
        if Nat.eqb (length b) 65 then
          let y := Z.of_N (be_val (drop 32 r)) in
          if (N.eqb format 4 || (N.eqb format 6 && Bool.eqb ybit (Z.odd y)))%bool
          then Some (Z.of_N (be_val (take 32 r)), y) else None
        else if Nat.eqb (length b) 33 then
          if N.eqb format 2 then
            let x := Z.of_N (be_val r) in
            let y := field_sqrt (curve_rhs x) in
            let y := if Bool.eqb ybit (Z.odd y) then y else ((- y) mod secp_p)%Z in
            if (Z.eqb (y * y mod secp_p) (curve_rhs x) && Bool.eqb ybit (Z.odd y))%bool then Some (x, y) else None
          else None
        else None in
      match xy with
      | None => None
      | Some (x, y) => if (Z.ltb x secp_p && Z.ltb y secp_p && isOnCurve x y)%bool then Some (x, y) else None
      end
  end.
Definition SerializeCompressed (p : Z * Z) : bytes :=
  ascii_of_N (if Z.odd (snd p) then 3 else 2) :: be_bytes 32 (Z.to_N (fst p)).

(** ** Base58 (mr-tron/base58) *)

Definition alphabet58 : bytes := to_bytes "123456789ABCDEFGHJKLMNPQRSTUVWXYZabcdefghijkmnopqrstuvwxyz".
(** The digits of a number, the highest first, none for zero *)
Fixpoint digits (fuel : nat) (base v : N) (acc : list N) : list N :=
  match fuel with
  | O => acc
  | S fuel => if N.eqb v 0 then acc else digits fuel base (v / base) (v mod base :: acc)%N
  end.
Definition digits_val (base : N) (l : list N) : N := fold_left (fun a d => a * base + d)%N l 0%N.
Fixpoint leading (c : ascii) (b : bytes) : nat :=
  match b with d :: r => if Ascii.eqb d c then S (leading c r) else O | [] => O end.
Definition base58_encode (b : bytes) : bytes :=
  repeat "1"%char (leading "000" b) ++ values_chars alphabet58 (digits (S (N.size_nat (be_val b))) 58 (be_val b) []).
Definition base58_decode (s : bytes) : option bytes :=
  match s with
  | [] => None
  | _ =>
      match chars_values alphabet58 s with
      | None => None
      | Some l =>
          let v := digits_val 58 l in
          Some (repeat "000"%char (leading "1" s) ++ map ascii_of_N (digits (S (N.size_nat v)) 256 v []))
      end
  end.

(** ** The functions of /repo *)

Section Keys.
  (** What the libraries make of other encodings: other amino data of a key (its
      Bytes()), peer ids that are not written in base58, ids that do not hold a
      secp256k1 key in this form (its Raw()). *)
  Context (other_amino : bytes -> option bytes) (other_cid : string -> option bytes) (other_id : bytes -> option bytes).

  (** sdk.GetPubKeyFromBech32(Bech32PubKeyTypeAccPub, k), then Bytes() *)
  Definition GetPubKeyFromBech32 (k : string) : option bytes :=
    match bech32_decode (to_bytes k) with
    | None => None
    | Some (hrp, data) =>
        match ConvertBits data 5 8 false with
        | None => None
        | Some vs =>
            if bool_decide (hrp = prefix) then
              let bz := map ascii_of_N vs in
              match after amino_head bz with
              | Some key => if Nat.eqb (length key) 33 then Some key else other_amino bz
              | None => other_amino bz
              end
            else None
        end
    end.
  (** sdk.Bech32ifyPubKey of a coskey.PubKey; the length of the key is not checked *)
  Definition Bech32ifyPubKey (key : bytes) : option string :=
    match ConvertBits (map byte_val (amino_key key)) 8 5 true with
    | Some data => Some (of_bytes (bech32_encode prefix data))
    | None => None
    end.

  (** conversion/key_provider.go:113-123 (CheckKeyOnCurve) *)
  Definition CheckKeyOnCurve (k : string) : option bool :=
    match GetPubKeyFromBech32 k with
    | None => None
    | Some b => match ParsePubKey b with None => None | Some (x, y) => Some (isOnCurve x y) end
    end.

  (** peer.IDFromPublicKey; the peer id as bytes *)
  Definition IDFromPublicKey (p : Z * Z) : bytes := id_head ++ SerializeCompressed p.
  (** peer.ID String() *)
  Definition id_string (id : bytes) : string := of_bytes (base58_encode id).

  (** conversion/conversion.go:26-35 (GetPeerIDFromSecp256PubKey) *)
  Definition GetPeerIDFromSecp256PubKey (pk : bytes) : option bytes :=
    if Nat.eqb (length pk) 0 then None
    else match ParsePubKey pk with None => None | Some p => Some (IDFromPublicKey p) end.
  (** conversion/key_provider.go:19-29 (GetPeerIDFromPubKey) *)
  Definition GetPeerIDFromPubKey (pubkey : string) : option bytes :=
    match GetPubKeyFromBech32 pubkey with
    | None => None
    | Some b => match ParsePubKey b with None => None | Some p => Some (IDFromPublicKey p) end
    end.

  (** peer.Decode *)
  Definition peer_decode (s : string) : option bytes :=
    match to_bytes s with
    | "1"%char :: _ | "Q"%char :: "m"%char :: _ => base58_decode (to_bytes s)
    | _ => other_cid s
    end.
  (** ExtractPublicKey and Raw *)
  Definition extract_raw (id : bytes) : option bytes :=
    match after id_head id with
    | Some key =>
        if Nat.eqb (length key) 33 then
          match ParsePubKey key with None => None | Some p => Some (SerializeCompressed p) end
        else other_id id
    | None => other_id id
    end.
  (** conversion/key_provider.go:71-90 (GetPubKeyFromPeerID) *)
  Definition GetPubKeyFromPeerID (pID : string) : option string :=
    match peer_decode pID with
    | None => None
    | Some id => match extract_raw id with None => None | Some raw => Bech32ifyPubKey raw end
    end.

  (** conversion/key_provider.go:32-42 and :45-55 (GetPeerIDsFromPubKeys, GetPeerIDs):
      both stop at the first key that is refused. *)
  Fixpoint GetPeerIDs (pubkeys : list string) : option (list bytes) :=
    match pubkeys with
    | [] => Some []
    | item :: rest =>
        match GetPeerIDFromPubKey item with
        | None => None
        | Some id => match GetPeerIDs rest with None => None | Some l => Some (id :: l) end
        end
    end.
  (** conversion/key_provider.go:58-68 (GetPubKeysFromPeerIDs) *)
  Fixpoint GetPubKeysFromPeerIDs (peers : list string) : option (list string) :=
    match peers with
    | [] => Some []
    | item :: rest =>
        match GetPubKeyFromPeerID item with
        | None => None
        | Some k => match GetPubKeysFromPeerIDs rest with None => None | Some l => Some (k :: l) end
        end
    end.

  (** A party as GetParties makes it (conversion/conversion.go:117-127): its key is the
      number the bytes of the public key stand for; GetKey and KeyInt().Bytes() give the
      number's bytes, without leading zeros. *)
  Definition number_bytes (v : N) : bytes := map ascii_of_N (digits (S (N.size_nat v)) 256 v []).
  (** conversion/conversion.go:37-43 (GetPeerIDFromPartyID), of the party's key;
      ValidateBasic wants a key *)
  Definition GetPeerIDFromPartyID (key : N) : option bytes :=
    if N.eqb key 0 then None else GetPeerIDFromSecp256PubKey (number_bytes key).
  (** conversion/conversion.go:45-58 (PartyIDtoPubKey) *)
  Definition PartyIDtoPubKey (key : N) : option string :=
    if N.eqb key 0 then None else Bech32ifyPubKey (number_bytes key).
End Keys.
