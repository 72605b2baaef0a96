(** Vocabulary for the path of a share from local party to local party. *)
From Coq Require Import Ascii String List.
From stdpp Require Import base list strings gmap.
From Verif Require Import Base M_Common M_OutCh M_Wire S_Wire M_Honest S_Honest M_Ceremony.

(** What the ceremony takes for granted: the kind of message, keys that sign what verifies,
    at least one session, and names that tell the parties apart. *)
Record setting (E : env) (N : ceremony) (ty : mtype) (sign : string -> bytes -> option bytes)
    (name : string -> string) : Prop := {
  st_wf : well_formed (wire_env E) N;
  st_type : ty = TSSKeyGenMsg \/ ty = TSSKeySignMsg;
  st_sign : forall id p key data, ce_peers N !! id = Some p -> ce_parties N !! id = Some key ->
    exists sig, sign p data = Some sig /\ e_verify E key data sig = true;
  st_sessions : ce_sessions N <> ∅;
  st_name : forall a b, is_Some (ce_peers N !! a) -> is_Some (ce_peers N !! b) -> name a = name b -> a = b }.

(** Peer [p] emitted [em]: this share, with this routing. *)
Definition emitted_by (s : fstate) (p : string) (em : emission) (body : bytes) (r : orouting) : Prop :=
  (exists o1 o2, (em, o1, o2) ∈ f_out s p) /\ em_wire em = Some (body, r).
(** It is meant for peer [q]. *)
Definition meant_for (N : ceremony) (p q : string) (r : orouting) : Prop :=
  if or_bcast r then q ∈ others N p else exists d, d ∈ or_to r /\ ce_peers N !! d_id d = Some q.
(** Every session emitted its message of this type to the same place. *)
Definition round_emitted (N : ceremony) (s : fstate) (p : string) (em : emission) (r : orouting) : Prop :=
  forall session, session ∈ ce_sessions N -> exists em' body' r',
    emitted_by s p em' body' r' /\ em_ident em' = session /\ em_type em' = em_type em /\
    map d_id (or_to r') = map d_id (or_to r).
(** The share as handed to a local party. *)
Definition handed_over (id : string) (em : emission) (body : bytes) (r : orouting) (j : job) : Prop :=
  j_body j = body /\ j_ident j = em_ident em /\ j_from j = id /\ j_bcast j = or_bcast r.
