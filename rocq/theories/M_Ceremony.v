(** A ceremony of honest nodes from local party to local party: the local parties emit
    messages, ProcessOutCh batches, encodes, signs and sends them (M_OutCh, M_Wire), the
    network carries them and the nodes handle them (M_Honest).

    What tss-lib does is [emits]: a local party of a session sends one message of a type to
    a party or to all (binance tss-lib, ecdsa/keygen/round_*.go and ecdsa/signing/round_*.go:
    a type is either broadcast, with no destinations, or sent to one party), and
    ParseWireMessage reads what it wrote. The other parties of a session have the moniker ""
    (conversion/conversion.go:119-121, GetParties; keysign/tss_keysign.go:109-115 names the local party only), so the name of a destination
    (btss.PartyID.String) is the same in all sessions and tells parties apart. *)
From Coq Require Import ZArith NArith Ascii String List.
From stdpp Require Import base list strings gmap.
From Verif Require Import Base M_Common M_OutCh M_Wire S_Wire M_Honest.

Record fstate := FState {
  f_out : string -> list (emission * order * order);   (* what the local parties of a node emitted *)
  f_net : nstate }.
Definition f_init : fstate := FState (fun _ => []) n_init.

Section Ceremony.
  Context (E : env) (N : ceremony).
  Context (full : entry -> mrouting) (ty : mtype).
  Context (sign : string -> bytes -> option bytes) (name : string -> string).

  (** common/tss.go:55-85 (NewTssCommon), SetPartyInfo: the node of peer [p] *)
  Definition out_of (p : string) : oenv :=
    OEnv (entries_enc full) (sign p) (ce_msgid N) (size (ce_sessions N)) (others N p) (ce_peers N).

  Record emits (id p : string) (before : list emission) (em : emission) (body : bytes) (r : orouting) : Prop := {
    e_wire : em_wire em = Some (body, r);
    e_from : or_from r = id;
    e_session : em_ident em ∈ ce_sessions N;
    e_colon : ":"%char ∉ to_bytes (em_type em);
    e_read : exists i, GetMsgRound E body id (or_bcast r) (em_ident em) = Some (i, em_type em, em_ident em);
    e_renders : renders full (Entry body (em_ident em) r);
    e_bcast : or_bcast r = true -> or_to r = [];
    e_unicast : or_bcast r = false -> exists d q,
      or_to r = [d] /\ d_str d = name (d_id d) /\ ce_peers N !! d_id d = Some q /\ q <> p;
    e_kind : forall em' body' r', em' ∈ before -> em_wire em' = Some (body', r') -> em_type em' = em_type em ->
      or_bcast r' = or_bcast r;
    e_once : forall em' body' r', em' ∈ before -> em_wire em' = Some (body', r') -> em_type em' = em_type em ->
      em_ident em' = em_ident em -> map d_id (or_to r') <> map d_id (or_to r) }.

  (** What is put on the wire for a bulk message, and its destinations. *)
  Definition sending_of (id : string) (t : sent) : sending :=
    Sending id ty (wire_of (wmsg_sent full t)) (t_peers t).
  Definition put (p id : string) (n : nstate) (t : sent) : nstate :=
    NState (ns_trace n) (ns_air n ++ frames p (MShare ty (Some (wire_of (wmsg_sent full t)))) (t_peers t))
      (ns_sent n ++ [sending_of id t]) (ns_done n).
  (** What ProcessOutCh sends on one more message. *)
  Definition news (p : string) (tr : list (emission * order * order)) (x : emission * order * order) : list sent :=
    drop (length (os_sent (orun (out_of p) tr))) (os_sent (orun (out_of p) (tr ++ [x]))).

  Inductive fstep : fstate -> fstate -> Prop :=
  (** a local party of the node emits a message *)
  | f_emit s id p em body r o1 o2 :
      ce_peers N !! id = Some p ->
      emits id p (map (fun x => fst (fst x)) (f_out s p)) em body r ->
      fstep s (FState (fun q => if decide (q = p) then (f_out s p ++ [(em, o1, o2)])%list else f_out s q)
                      (foldl (put p id) (f_net s) (news p (f_out s p) (em, o1, o2))))
  (** the network delivers or repeats, a node works, a local party is done *)
  | f_other s k n :
      nstep (wire_env E) N k (f_net s) n -> ns_sent n = ns_sent (f_net s) -> fstep s (FState (f_out s) n).

  Definition freachable (s : fstate) : Prop := rtc fstep f_init s.
End Ceremony.
