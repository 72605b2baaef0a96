(** Vocabulary for the batching of outgoing shares. *)
From Coq Require Import ZArith Ascii String List.
From stdpp Require Import base list strings gmap.
From Verif Require Import Base M_OutCh.

(** Messages belong together when they have the same type and go to the same
    place: to everybody, or to one party. *)
Definition group := (string * option string)%type.
Global Instance group_eq_dec : EqDecision group := _.

Definition place (r : orouting) : option string :=
  if or_bcast r then None else d_str <$> head (or_to r).
Definition group_of (em : emission) : option group :=
  match em_wire em with Some (_, r) => Some (em_type em, place r) | None => None end.
(** The group a sent message claims to belong to. *)
Definition group_sent (t : sent) : group := (t_round t, place (t_routing t)).

Definition entry_of (em : emission) : option entry :=
  match em_wire em with
  | Some (body, r) => Some (Entry body (em_ident em) r)
  | None => None
  end.

(** The shares of group [g], in the order they were emitted. *)
Definition emitted (g : group) (ems : list emission) : list entry :=
  omap entry_of (filter (fun em => group_of em = Some g) ems).
(** The shares of group [g], in the order they were sent. *)
Definition delivered (g : group) (l : list sent) : list entry :=
  concat (map t_list (filter (fun t => group_sent t = g) l)).

(** Type names contain no ":" and a unicast has a destination. *)
Definition proper (em : emission) : Prop :=
  ":"%char ∉ to_bytes (em_type em) /\
  forall body r, em_wire em = Some (body, r) -> or_bcast r = false -> or_to r <> [].

(** A well-formed bulk message: as many shares as there are messages to sign, all
    for the place the routing gives, encoded and signed, addressed to the peers
    of that place. *)
Definition sent_ok (E : oenv) (t : sent) : Prop :=
  length (t_list t) = oe_num E /\
  (exists e rest, t_list t = e :: rest /\ t_routing t = en_routing e) /\
  Forall (fun e => place (en_routing e) = place (t_routing t)) (t_list t) /\
  t_body t = oe_enc E (t_list t) /\
  oe_sign E (t_body t ++ to_bytes (oe_msgid E)) = Some (t_sig t) /\
  (or_to (t_routing t) = [] -> t_peers t = oe_peers E) /\
  (or_to (t_routing t) <> [] -> forall p, p ∈ t_peers t <->
      exists d, d ∈ or_to (t_routing t) /\ oe_id2peer E !! d_id d = Some p).
