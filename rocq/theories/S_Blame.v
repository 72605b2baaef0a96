(** Vocabulary for the properties of the timeout blame: which members a blame list
    names, and what the node had recorded of each member. *)
From Coq Require Import ZArith Ascii String List.
From stdpp Require Import base list strings gmap.
From Verif Require Import Base M_Common S_Common.

(** [n] blames member [id], without evidence. *)
Definition blames (E : env) (C : cfg) (id : string) (n : node) : Prop :=
  exists k, cf_parties C !! id = Some k /\ e_pub E k = Some (n_pub n) /\ n_data n = [] /\ n_sig n = [].

(** [nodes] blames exactly the members with property [P], each of them once. *)
Definition blames_exactly (E : env) (C : cfg) (P : string -> Prop) (nodes : list node) : Prop :=
  exists ids, NoDup ids /\
    (forall id, id ∈ ids <-> is_Some (cf_parties C !! id) /\ P id) /\
    Forall2 (blames E C) ids nodes.

(** Every member has a valid key; every member has a peer and every peer in the
    table is a member's (conversion/conversion.go:99-108 fills the table from the
    parties); different members have different peers. *)
Definition good_tables (E : env) (C : cfg) : Prop :=
  (forall id k, cf_parties C !! id = Some k -> is_Some (e_pub E k)) /\
  dom (cf_id2peer C) = dom (cf_parties C) /\
  (forall a b p, cf_id2peer C !! a = Some p -> cf_id2peer C !! b = Some p -> a = b).

(** A broadcast of member [id] for round [round] is in the store of confirmed
    broadcasts. *)
Definition confirmed (s : state) (round id : string) : Prop :=
  exists k w, s_stored s !! k = Some w /\ w_round w = round /\ sent_by w id.

(** A unicast of round [round] of member [id] was recorded. *)
Definition unicast_seen (C : cfg) (s : state) (round id : string) : Prop :=
  exists l p, s_unicast s !! round = Some l /\ cf_id2peer C !! id = Some p /\ p ∈ l.

(** The share of member [id] for round [i] (named [name i]) of message [m] was
    accepted. *)
Definition share_in (s : state) (name : nat -> string) (m : string) (i : nat) (id : string) : Prop :=
  exists l, s_accepted s !! (i, name i, m) = Some l /\ id ∈ l.

Section Rounds.
  Context (C : cfg) (local : string) (s : state) (name : nat -> string).
  Definition other (id : string) : Prop := is_Some (cf_parties C !! id) /\ id <> local.
  (** Everybody else's share was accepted. *)
  Definition round_complete (m : string) (i : nat) : Prop := forall id, other id -> share_in s name m i id.
  (** Round [i] of [m] is the first one in which somebody's share is missing. *)
  Definition first_incomplete (m : string) (i : nat) : Prop :=
    (forall j, j < i -> round_complete m j) /\ (exists id, other id /\ ~ share_in s name m i id).
  (** The message [m] has accepted shares. *)
  Definition has_shares (m : string) : Prop := exists i l, s_accepted s !! (i, name i, m) = Some l.
  (** The accepted shares are those of a ceremony of [rounds] rounds: one name per
      round, one share per member and round, none of the node itself. *)
  Definition orderly_shares (rounds : nat) : Prop :=
    forall i nm m l, s_accepted s !! (i, nm, m) = Some l ->
      i < rounds /\ nm = name i /\ NoDup l /\ (forall id, id ∈ l -> other id).
End Rounds.

(** Rounds whose messages are unicasts according to the comments in the code: the
    second one of a keygen, the first five of a keysign. *)
Definition unicast_round (rounds i : nat) : Prop :=
  (rounds = 4 /\ i = 1) \/ (rounds = 8 /\ i < 5).

(** Same key and same evidence signature. *)
Definition same_node (a b : node) : Prop := n_pub a = n_pub b /\ n_sig a = n_sig b.
