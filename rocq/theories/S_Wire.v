(** Vocabulary for the ceremony messages on the wire. *)
From Coq Require Import ZArith NArith Ascii String List.
From stdpp Require Import base list strings gmap.
From Verif Require Import Base S_Utf8 M_Common M_OutCh M_Wire.

(** A Go int, and a party that is not stripped of its id on the wire: either it has no
    inner structure, or not all three fields of it are empty. All strings are text. *)
Definition go_int (z : Z) : Prop := (- 2 ^ 63 <= z < 2 ^ 63)%Z.
Definition party_ok (p : option party) : Prop :=
  forall q i, p = Some (Party q i) -> go_int i /\ q <> Some (PParty "" "" []) /\
    forall pp, q = Some pp -> text (pp_id pp) /\ text (pp_moniker pp).
Definition routing_ok (r : mrouting) : Prop := party_ok (mr_from r) /\ Forall party_ok (mr_to r).
Definition wmsg_ok (w : wmsg) : Prop := (forall r, wm_routing w = Some r -> routing_ok r) /\ text (wm_round w).
Definition bmsg_ok (b : bmsg) : Prop := (forall r, bm_routing b = Some r -> routing_ok r) /\ text (bm_ident b).
Definition tcontrol_ok (c : tcontrol) : Prop :=
  (tc_type c < 256)%N /\ (forall w, tc_msg c = Some w -> wmsg_ok w) /\ text (tc_hash c) /\ text (tc_key c).
Definition confirm_ok (c : confirm) : Prop := text (v_p2p c) /\ text (v_key c) /\ text (v_hash c).

(** No character JSON skips between values (blank, tab, line feed, carriage return). *)
Definition no_blank (s : string) : Prop :=
  Forall (fun c => byte_val c <> 32%N /\ byte_val c <> 9%N /\ byte_val c <> 10%N /\ byte_val c <> 13%N) (to_bytes s).

(** The routings tss-lib makes are those [M_OutCh] keeps the ids of: the sender and the
    destinations have ids, and the index of a party is an int. *)
Definition named (id : string) (p : option party) : Prop :=
  exists q i, p = Some (Party (Some q) i) /\ pp_id q = id /\ id <> ""%string /\ go_int i /\
    text id /\ text (pp_moniker q).
Definition renders (full : entry -> mrouting) (e : entry) : Prop :=
  named (or_from (en_routing e)) (mr_from (full e)) /\
  Forall2 (fun d p => named (d_id d) p) (or_to (en_routing e)) (mr_to (full e)) /\
  mr_bcast (full e) = or_bcast (en_routing e) /\ text (en_ident e).
(** What the receiver makes of a share: its bytes, its session, and the routing. *)
Definition received_entry (e : entry) (b : bulk) : Prop :=
  b_body b = en_body e /\ b_ident b = en_ident e /\
  b_routing b = Some (Routing (FId (or_from (en_routing e))) (map d_id (or_to (en_routing e))) (or_bcast (en_routing e))).

(** The share can be handed over: its session and its sender are known, tss-lib reads
    it, and it was not taken before. *)
Definition takable (E : env) (C : cfg) (s : state) (e : entry) : Prop :=
  en_ident e ∈ cf_sessions C /\ is_Some (cf_parties C !! or_from (en_routing e)) /\
  exists r, GetMsgRound E (en_body e) (or_from (en_routing e)) (or_bcast (en_routing e)) (en_ident e) = Some r /\
    or_from (en_routing e) ∉ default [] (s_accepted s !! r).
(** What tss-lib is given for it. *)
Definition job_of (n : nat) (w : wire) (e : entry) : job :=
  Job (en_body e) (en_ident e) (or_from (en_routing e)) (or_bcast (en_routing e)) n w.

(** The outgoing side of an honest node for one request: it writes JSON, and what it
    sends was emitted by its local parties with routings that name the parties. *)
Definition honest_run (full : entry -> mrouting) (OE : oenv) (otr : list (emission * order * order)) : Prop :=
  (forall l, oe_enc OE l = entries_enc full l) /\
  Forall (fun x => forall body r, em_wire (fst (fst x)) = Some (body, r) ->
    renders full (Entry body (em_ident (fst (fst x))) r)) otr.

(** The receipt of a broadcast [t] ([None]) or of the confirmation of peer [q] for it,
    from the bytes that travel. *)
Definition arrival (full : entry -> mrouting) (msgID : string) (t : sent) (k h : string)
    (e : option string) (l : label) : Prop :=
  match e with
  | None => exists o1 o2 p ty m, (ty = TSSKeyGenMsg \/ ty = TSSKeySignMsg) /\
      inbound (share_data ty msgID (wmsg_sent full t)) = Some m /\ l = LRecv o1 o2 p m
  | Some q => exists o1 o2 ty x m, (ty = TSSKeyGenVerMsg \/ ty = TSSKeySignVerMsg) /\ text x /\
      inbound (confirm_data ty msgID (Confirm x k h)) = Some m /\ l = LRecv o1 o2 q m
  end.
