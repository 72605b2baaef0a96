(** conversion/conversion.go: the tables of peers of a ceremony, and the text of the
    group's public key. The text formats are those of [M_Keys]. *)
From Coq Require Import ZArith NArith Ascii String List.
From stdpp Require Import base list strings gmap.
From Verif Require Import Base M_Conv M_Keys.

(** conversion/conversion.go:99-108 (SetupIDMaps). Go goes over a map in any order:
    [l] are its entries in the order chosen. The flag: no error. *)
Fixpoint setup_loop (l : list (string * party)) (m : gmap string bytes) : gmap string bytes * bool :=
  match l with
  | [] => (m, true)
  | (id, p) :: r =>
      match GetPeerIDFromPartyID (p_key p) with
      | None => (m, false)
      | Some peer => setup_loop r (<[id := peer]> m)
      end
  end.
Definition SetupIDMaps (l : list (string * party)) (m : gmap string bytes) : gmap string bytes * bool := setup_loop l m.

(** conversion/conversion.go:85-97 (GetPeersID). [None]: a nil map; otherwise the
    entries in the order the map is gone over. [None] as the result: a panic, making a
    slice with capacity -1. *)
Definition GetPeersID (m : option (list (string * bytes))) (localPeerID : string) : option (list bytes) :=
  match m with
  | None => Some []
  | Some [] => None
  | Some l => Some (List.filter (fun peer => negb (String.eqb (id_string peer) localPeerID)) (map snd l))
  end.

(** conversion/conversion.go:150-168 (GetTssPubKey): the key as text and the address,
    [None] for an error. [address] is the hash of the key (tendermint crypto/secp256k1
    and RIPEMD-160, not in /repo). *)
Definition GetTssPubKey (address : bytes -> bytes) (pubKeyPoint : option (Z * Z)) : option (string * bytes) :=
  match pubKeyPoint with
  | None => None
  | Some (x, y) =>
      if isOnCurve x y then
        let key := SerializeCompressed (x, y) in
        match Bech32ifyPubKey key with
        | Some k => Some (k, address key)
        | None => None
        end
      else None
  end.
