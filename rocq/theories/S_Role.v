(** Vocabulary: the roles of the nodes in the party of a signing request. *)
From Coq Require Import ZArith Ascii String List.
From stdpp Require Import base list strings.
From Verif Require Import Base M_Conv S_Conv M_Join M_Common M_KeySign.

(** The node is forming the party of its request, in this role. *)
Definition forming (E : senv) (J : sjob) (ls : list klabel) (r : role) : Prop :=
  exists leader taken, k_g (krun E J ls) = GJoin r leader taken.

(** [ps] are the peers of the nodes with these keys, in this order. *)
Definition peers_are (E : senv) (keys ps : list string) : Prop :=
  Forall2 (fun k p => peer_of E k = Some p) keys ps.

(** The node [self] leads, or it follows. *)
Definition plays (self leader : string) (r : role) : Prop :=
  (self = leader /\ exists ps, r = RLeader ps) \/ (self <> leader /\ r = RMember leader).

(** Two nodes that use the same hash and give a key the same peer. *)
Definition same_naming (E1 E2 : senv) : Prop :=
  se_sha E1 = se_sha E2 /\ forall k, peer_of E1 k = peer_of E2 k.
