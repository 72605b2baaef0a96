(** Vocabulary for the properties of a ceremony of honest nodes. *)
From Coq Require Import Ascii String List.
From stdpp Require Import base list strings gmap.
From Verif Require Import Base M_Common M_Honest.

(** A peer of the ceremony. *)
Definition member (N : ceremony) (p : string) : Prop := exists id, ce_peers N !! id = Some p.

(** The identities of a ceremony: each party has a peer of its own, and no id has a dash
    (party ids are decimal numbers, C133). *)
Record well_formed (E : env) (N : ceremony) : Prop := {
  wf_dom : forall id, is_Some (ce_parties N !! id) <-> is_Some (ce_peers N !! id);
  wf_inj : forall a b p, ce_peers N !! a = Some p -> ce_peers N !! b = Some p -> a = b;
  wf_dash : forall id, is_Some (ce_parties N !! id) -> "-"%char ∉ to_bytes id;
  wf_peer : forall id p, ce_peers N !! id = Some p -> e_peer_ok E p = true }.

(** The share given to tss-lib is entry [b] of a message. *)
Definition is_entry (b : bulk) (j : job) : Prop :=
  b_body b = j_body j /\ b_ident b = j_ident j /\
  exists to, b_routing b = Some (Routing (FId (j_from j)) to (j_bcast j)).

(** Nothing is under way: no message in the air, no node busy with one. *)
Definition quiet (E : env) (N : ceremony) (s : nstate) : Prop :=
  ns_air s = [] /\ forall q, member N q -> s_cur (at_node E N s q) = None.

(** A step in which a message is delivered, or a node gets on with its work. *)
Definition handles (E : env) (N : ceremony) (s s' : nstate) : Prop :=
  nstep E N Deliver s s' \/
  (nstep E N Work s s' /\ exists q, at_node E N s' q <> at_node E N s q).
