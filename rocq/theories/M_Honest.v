(** A ceremony as a whole: one node per member, each handling messages as in M_Common,
    and a network between them that delays, reorders and repeats messages but loses
    none. What a node sends (renderToP2P, common/tss.go:143-149) is put into the air
    once for every peer it names (p2p/communication.go:104-129, Broadcast). [M_Network]
    has an adversary and may lose messages; here there is none and nothing is lost.

    All nodes are honest, so what their local parties produce is restricted by
    [honest]: sendBulkMsg and ProcessOutCh (common/tss.go:446-562, M_OutCh) sign what the local party
    made and send a broadcast to all the others, one broadcast per round. tss-lib
    accepts every share. Messages that come before a node has subscribed are not
    modelled (M_Comm). *)
From Coq Require Import ZArith NArith Ascii String List.
From stdpp Require Import base list strings gmap.
From Verif Require Import Base M_Common S_Common.

(** What the members of a ceremony share: conversion.GetParties, SetupPartyIDMap and
    SetupIDMaps (C06, C133, C151). *)
Record ceremony := Ceremony {
  ce_msgid : string;
  ce_sessions : gset string;
  ce_parties : gmap string bytes;     (* party id to key *)
  ce_peers : gmap string string }.    (* party id to peer id *)

(** conversion/conversion.go:85-97 (GetPeersID), in some order *)
Definition others (N : ceremony) (p : string) : list string :=
  filter (fun q => q <> p) (map snd (map_to_list (ce_peers N))).
Definition cfg_of (N : ceremony) (p : string) : cfg :=
  Cfg (ce_msgid N) p (others N p) (ce_sessions N) (ce_parties N) (ce_peers N).

(** A message a local party produced: who, which kind, the message and its destinations. *)
Record sending := Sending { sn_id : string; sn_type : mtype; sn_wire : wire; sn_to : list string }.
Record nstate := NState {
  ns_trace : string -> list label;               (* what the node of each peer did *)
  ns_air : list (string * string * inmsg);       (* from, to, message *)
  ns_sent : list sending;                        (* what the local parties produced *)
  ns_done : list string }.                       (* peers whose local parties are done *)
Definition n_init : nstate := NState (fun _ => []) [] [] [].

(** What a step of the network is: a local party produces something, a message is
    delivered, a message is repeated, a node works on a message it took. *)
Inductive nkind := Produce | Deliver | Repeat | Work.

Section Network.
  Context (E : env) (N : ceremony).

  Definition at_node (s : nstate) (p : string) : state := run E (cfg_of N p) (ns_trace s p).
  Definition does (s : nstate) (p : string) (l : label) : string -> list label :=
    fun q => if decide (q = p) then (ns_trace s p ++ [l])%list else ns_trace s q.
  Definition frames (p : string) (m : inmsg) (to : list string) : list (string * string * inmsg) :=
    map (fun q => (p, q, m)) to.
  Definition frames_of (p : string) (outs : list out) : list (string * string * inmsg) :=
    flat_map (fun o => frames p (o_msg o) (o_peers o)) outs.

  (** The entries of a message of [id]; the round, session and sender of an entry. *)
  Definition entry_of (id : string) (b : bulk) : Prop :=
    b_ident b ∈ ce_sessions N /\
    exists to bc, b_routing b = Some (Routing (FId id) to bc) /\
      GetMsgRound E (b_body b) id bc (b_ident b) <> None.
  Definition slot_of (b : bulk) : option (roundinfo * string) :=
    match b_routing b with
    | Some (Routing (FId id) _ bc) =>
        match GetMsgRound E (b_body b) id bc (b_ident b) with Some r => Some (r, id) | None => None end
    | _ => None
    end.

  Record honest (sent : list sending) (x : sending) (p : string) (l : list bulk) : Prop := {
    h_peer : ce_peers N !! sn_id x = Some p;
    h_type : share_type (sn_type x);
    h_route : sent_by (sn_wire x) (sn_id x);
    h_signed : signed_by E (cfg_of N p) (sn_wire x) (sn_id x);
    h_bcast : is_broadcast (sn_wire x) -> forall q, q ∈ others N p -> q ∈ sn_to x;
    h_to : forall q, q ∈ sn_to x -> q ∈ others N p;
    h_dec : e_dec_bulk E (w_body (sn_wire x)) = Some l;
    h_entries : forall b, b ∈ l -> entry_of (sn_id x) b;
    h_slots : NoDup (map slot_of l);
    h_round : is_broadcast (sn_wire x) -> forall y, y ∈ sent -> is_broadcast (sn_wire y) ->
      sn_id y = sn_id x -> w_round (sn_wire y) <> w_round (sn_wire x);
    h_fresh : forall y l' q b b', y ∈ sent -> q ∈ sn_to x -> q ∈ sn_to y ->
      e_dec_bulk E (w_body (sn_wire y)) = Some l' -> b ∈ l -> b' ∈ l' -> slot_of b <> slot_of b' }.

  Inductive nstep : nkind -> nstate -> nstate -> Prop :=
  (** a local party produces a message *)
  | n_send s x p l :
      honest (ns_sent s) x p l ->
      nstep Produce s (NState (ns_trace s) (ns_air s ++ frames p (MShare (sn_type x) (Some (sn_wire x))) (sn_to x))
                      (ns_sent s ++ [x]) (ns_done s))
  (** a local party is done: NotifyTaskDone, common/tss_helper.go:221-240 *)
  | n_done s id p :
      ce_peers N !! id = Some p ->
      nstep Produce s (NState (ns_trace s) (ns_air s ++ frames p (MDone (Some true)) (others N p)) (ns_sent s)
                      (ns_done s ++ [p]))
  (** a message arrives at a node that is not busy with another one *)
  | n_recv s a b p q m o1 o2 :
      ns_air s = (a ++ (p, q, m) :: b)%list -> s_cur (at_node s q) = None ->
      let tr := does s q (LRecv o1 o2 p m) in
      let st' := run E (cfg_of N q) (tr q) in
      nstep Deliver s (NState tr (a ++ b ++ frames_of q (drop (length (s_out (at_node s q))) (s_out st')))
                      (ns_sent s) (ns_done s))
  (** the network repeats a message *)
  | n_repeat s f : f ∈ ns_air s -> nstep Repeat s (NState (ns_trace s) (ns_air s ++ [f]) (ns_sent s) (ns_done s))
  (** a node goes on with the message it is busy with *)
  | n_local s q l :
      match l with LLoop | LFinish | LAccept _ => True | LWork _ res => res = None | LRecv _ _ _ _ => False end ->
      nstep Work s (NState (does s q l) (ns_air s) (ns_sent s) (ns_done s)).

  Definition nany (s s' : nstate) : Prop := exists k, nstep k s s'.
  Definition reachable (s : nstate) : Prop := rtc nany n_init s.
End Network.
