(** Vocabulary for the properties of the pure functions. *)
From Coq Require Import ZArith NArith Ascii String List.
From stdpp Require Import base list strings gmap sorting.
From Verif Require Import Base M_Conv.

(** ** Leader election *)

(** What is hashed for a participant: message id, decimal height, participant. *)
Definition ticket (sha : bytes -> string) (msgID : string) (height : Z) (x : string) : string :=
  sha (to_bytes msgID ++ to_bytes (format_int height) ++ to_bytes x).

(** No two distinct participants have the same ticket. *)
Definition no_ticket_collision sha msgID height (ids : list string) : Prop :=
  forall x y, x ∈ ids -> y ∈ ids ->
    ticket sha msgID height x = ticket sha msgID height y -> x = y.

(** [l] is the participant with the smallest ticket. *)
Definition smallest_ticket sha msgID height (ids : list string) (l : string) : Prop :=
  l ∈ ids /\ forall x, x ∈ ids -> str_le (ticket sha msgID height l) (ticket sha msgID height x).

(** ** Requests *)

(** Same request up to the order of its lists. *)
Inductive same_request : request -> request -> Prop :=
  | same_keygen k1 k2 h v : k1 ≡ₚ k2 -> same_request (KeygenReq k1 h v) (KeygenReq k2 h v)
  | same_keysign p m1 m2 s1 s2 h v : m1 ≡ₚ m2 -> s1 ≡ₚ s2 ->
      same_request (KeysignReq p m1 s1 h v) (KeysignReq p m2 s2 h v).

(** The text hashed for a request: the messages in byte-wise order separated by
    commas, followed by the keys in byte-wise order. *)
Definition material (r : request) : bytes :=
  match r with
  | KeygenReq keys _ _ => to_bytes (concat_strings (sort_strings keys))
  | KeysignReq _ msgs signers _ _ =>
      to_bytes (join_strings "," (sort_strings msgs)) ++ to_bytes (concat_strings (sort_strings signers))
  end.
(** The two texts are not a collision of the hash function. *)
Definition not_a_collision (sha : bytes -> string) (a b : bytes) : Prop := sha a = sha b -> a = b.

(** The request contains nothing to hash. *)
Definition nothing_to_hash (r : request) : Prop :=
  match r with
  | KeygenReq keys _ _ => forall k, k ∈ keys -> k = EmptyString
  | KeysignReq _ msgs signers _ _ =>
      length msgs <= 1 /\ (forall m, m ∈ msgs -> m = EmptyString) /\
      (forall k, k ∈ signers -> k = EmptyString)
  end.

(** All strings of the list have the same, positive, length (as all Bech32
    account keys of one chain do). *)
Definition uniform (n : nat) (l : list string) : Prop :=
  0 < n /\ forall k, k ∈ l -> String.length k = n.
(** The string does not contain a comma (as base64 does not). *)
Definition no_comma (s : string) : Prop := ","%char ∉ to_bytes s.

(** ** Party tables *)

(** [k] is the [i]-th key of the list in byte-wise order. *)
Definition ranked (keys : list string) (i : nat) (k : string) : Prop :=
  exists sk, sk ≡ₚ keys /\ StronglySorted str_le sk /\ sk !! i = Some k.

(** What a party table must be for a key list and a local key. *)
Record party_table_ok (key_bytes : string -> option bytes)
    (keys : list string) (loc : string) (ps : list party) (lp : party) : Prop := {
  (** as many parties as keys, with ids 0 .. n-1 in decimal *)
  pt_ids : map p_id ps ≡ₚ map (fun i => itoa (N.of_nat i)) (seq 0 (length keys));
  (** the party with id i has the public key of rank i *)
  pt_keys : forall p, p ∈ ps -> exists i k b,
      p_id p = itoa (N.of_nat i) /\ ranked keys i k /\
      key_bytes k = Some b /\ p_key p = be_val b;
  (** parties are in key order and numbered by position *)
  pt_sorted : StronglySorted (fun a b => (p_key a <= p_key b)%N) ps;
  pt_index : forall i p, ps !! i = Some p -> p_index p = i;
  (** the local party is a member and carries the local key *)
  pt_local_in : lp ∈ ps;
  pt_local : exists i b, p_id lp = itoa (N.of_nat i) /\ ranked keys i loc /\
      key_bytes loc = Some b /\ p_key lp = be_val b
}.
