(** Vocabulary for the properties of the message handling of a ceremony. The
    properties speak about the history of messages a node handled, about
    signatures and about what was handed to tss-lib, not about the caches. *)
From Coq Require Import ZArith Ascii String List.
From stdpp Require Import base list strings gmap.
From Verif Require Import Base S_Threshold M_Common.

(** In the history [tr] the node took message [m] of peer [p] from its queue. *)
Definition handled (E : env) (C : cfg) (tr : list label) (p : string) (m : inmsg) : Prop :=
  exists tr1 o1 o2 tr2, tr = tr1 ++ LRecv o1 o2 p m :: tr2 /\
    s_cur (run E C tr1) = None /\ s_crash (run E C tr1) = false.

(** The wire message in an inbound message. *)
Definition carries (m : inmsg) (w : wire) : Prop :=
  (exists t, m = MShare t (Some w)) \/ (exists c, m = MCtl (Some c) /\ c_msg c = Some w).

(** The outer routing says the message was sent by party [id]. *)
Definition sent_by (w : wire) (id : string) : Prop :=
  exists to bc, w_routing w = Some (Routing (FId id) to bc).
Definition is_broadcast (w : wire) : Prop :=
  exists from to, w_routing w = Some (Routing from to true).

(** The body of [w], together with the id of the request, is signed by party [id]. *)
Definition signed_by (E : env) (C : cfg) (w : wire) (id : string) : Prop :=
  exists key, cf_parties C !! id = Some key /\
    e_verify E key (w_body w ++ to_bytes (cf_msgid C)) (w_sig w) = true.

(** Sender and round of a wire message, as in the confirmations. *)
Definition names (k : string) (w : wire) (id : string) : Prop :=
  sent_by w id /\ k = String.append id (String.append "-" (w_round w)).

Section History.
  Variable E : env.
  Variable C : cfg.
  (** The messages handled, with the peer they came from. *)
  Variable H : string -> inmsg -> Prop.

  Definition got (w : wire) : Prop := exists p m, H p m /\ carries m w.

  (** [w] was received and is signed by the member it names as its sender. *)
  Definition authentic (w : wire) (id : string) : Prop :=
    got w /\ sent_by w id /\ signed_by E C w id.

  (** Peer [p] reported hash [h] for the broadcast [k]: it sent a confirmation, or
      it is the node itself and received such a broadcast. *)
  Definition reported (p k h : string) : Prop :=
    (exists t v, H p (MVer t (Some v)) /\ v_key v = k /\ v_hash v = h) \/
    (p = cf_local C /\ exists w id, authentic w id /\ is_broadcast w /\ names k w id /\
                                    h = e_sha E (w_body w)).

  (** Number of peers in [votes] that reported [h]. *)
  Definition votes_for (h : string) (votes : gmap string string) : nat :=
    size (filter (fun x : string * string => x.2 = h) votes).

  (** The confirmations broadcast [w] of party [id] needs. *)
  Definition has_quorum (w : wire) (id : string) : Prop :=
    exists (k ownerPeer : string) (votes : gmap string string),
      names k w id /\
      cf_id2peer C !! id = Some ownerPeer /\
      (forall p h, votes !! p = Some h -> reported p k h) /\
      votes !! ownerPeer = None /\
      (threshold_of (Z.of_nat (size (cf_parties C))) <= Z.of_nat (size votes))%Z /\
      (threshold_of (Z.of_nat (size (cf_parties C))) - 1
         <= Z.of_nat (votes_for (e_sha E (w_body w)) votes))%Z /\
      (forall h, votes_for h votes <= votes_for (e_sha E (w_body w)) votes).

  (** Share [j] is one of the entries of the signed body of its wire message. *)
  Definition listed (j : job) : Prop :=
    exists l b to, e_dec_bulk E (w_body (j_wire j)) = Some l /\ b ∈ l /\
      b_body b = j_body j /\ b_ident b = j_ident j /\
      b_routing b = Some (Routing (FId (j_from j)) to (j_bcast j)).
End History.

(** Round, session and party of a share. *)
Definition share_slot (E : env) (j : job) : option (roundinfo * string) :=
  match GetMsgRound E (j_body j) (j_from j) (j_bcast j) (j_ident j) with
  | Some r => Some (r, j_from j)
  | None => None
  end.

(** Messages are handled one after the other: no job is left when the next
    message is taken. *)
Definition orderly (E : env) (C : cfg) (tr : list label) : Prop :=
  forall tr1 o1 o2 p m tr2, tr = tr1 ++ LRecv o1 o2 p m :: tr2 ->
    s_pending (run E C tr1) = [] /\ s_updated (run E C tr1) = [].

(** All senders in the message are there: the outer one, and those of the entries
    of the signed body. *)
Definition entry_ok (b : bulk) : Prop :=
  exists id to bc, b_routing b = Some (Routing (FId id) to bc).
Definition wire_ok (E : env) (w : wire) : Prop :=
  (forall to bc, w_routing w <> Some (Routing FBare to bc)) /\
  (forall l, e_dec_bulk E (w_body w) = Some l -> Forall entry_ok l).

(** A message that asks peers for the broadcast with hash [h]. *)
Definition request_for (h : string) (o : out) : Prop :=
  exists k t, o_msg o = MCtl (Some (Control h k t None)).

(** The message types are the ones the message kinds are sent with; for a control
    message this is a field the sender chooses. *)
Definition share_type (t : mtype) : Prop := t = TSSKeyGenMsg \/ t = TSSKeySignMsg.
Definition ver_type (t : mtype) : Prop := t = TSSKeyGenVerMsg \/ t = TSSKeySignVerMsg.
Definition well_typed (m : inmsg) : Prop :=
  match m with
  | MShare t _ => share_type t
  | MVer t _ => ver_type t
  | MCtl (Some c) => share_type (c_type c)
  | _ => True
  end.
Definition well_typed_label (l : label) : Prop :=
  match l with LRecv _ _ _ m => well_typed m | _ => True end.

(** For the progress property: the receipts of one broadcast ([None]) and of the
    confirmations of several peers ([Some p]). *)
Definition receipt (w : wire) (k h : string) (e : option string) (l : label) : Prop :=
  match e with
  | None => exists o1 o2 p t, share_type t /\ l = LRecv o1 o2 p (MShare t (Some w))
  | Some p => exists o1 o2 t v, ver_type t /\ l = LRecv o1 o2 p (MVer t (Some v)) /\
                v_key v = k /\ v_hash v = h
  end.
