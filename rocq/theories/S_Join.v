(** Vocabulary for the join-party properties (C19-C27, C76-C81). *)
From Coq Require Import ZArith NArith Ascii String List.
From stdpp Require Import base list strings gmap.
From Verif Require Import Base M_Join.

(** The message asks to join a party (by either protocol). *)
Definition is_request (m : incoming) : Prop :=
  match m with InOld _ => True | InLeader lm => lm_msgtype lm = "request"%string end.
Definition id_of (m : incoming) : string :=
  match m with InOld id => id | InLeader lm => lm_id lm end.

(** The participants in [l], without [me], once each: how many. *)
Definition others (me : string) (l : list string) : gset string := list_to_set l ∖ {[me]}.

(** ** One group and the requests it gets, one after the other *)

(** The participants (of [ps]) among the senders of [reqs], in order of their first
    request. *)
Fixpoint arrivals_acc (ps : gset string) (reqs acc : list string) : list string :=
  match reqs with
  | [] => acc
  | p :: rest => arrivals_acc ps rest (if decide (p ∈ ps /\ p ∉ acc) then acc ++ [p] else acc)
  end.
Definition arrivals (ps : gset string) (reqs : list string) : list string := arrivals_acc ps reqs [].

(** ** Histories *)
Section histories.
  Context (sha : bytes -> string) (peerDecode : string -> option string) (me : string).
  Notation run := (jrun sha peerDecode me).

  (** Call [j] is in progress. *)
  Definition joining (s : jstate) (j : nat) : Prop :=
    exists c, j_calls s !! j = Some c /\ forall o, jc_stage c <> JDone o.
  (** Call [j] has returned [o]. *)
  Definition returned (s : jstate) (j : nat) (o : outcome) : Prop :=
    exists c, j_calls s !! j = Some c /\ jc_stage c = JDone o.
  (** In history [ls] the message [m] came from peer [p] while call [j] was in progress
      (and was given to a new goroutine). *)
  Definition received (ls : list jlabel) (j : nat) (p : string) (m : incoming) : Prop :=
    exists ls0 h ls1, ls = ls0 ++ LMsg h p m :: ls1 /\ joining (run ls0) j /\ j_handlers (run ls0) !! h = None.
  (** ... a request to join the party of call [j], whose id is [id]. *)
  Definition requested (ls : list jlabel) (j : nat) (id p : string) : Prop :=
    exists m, received ls j p m /\ is_request m /\ id_of m = id.
  (** ... a response for the id of call [j]. *)
  Definition responded (ls : list jlabel) (j : nat) (id p : string) (lm : leadermsg) : Prop :=
    received ls j p (InLeader lm) /\ lm_msgtype lm = "response"%string /\ lm_id lm = id.

  (** Call [j] of [ls] is JoinPartyWithLeader(id, _, peers, t), this node is the elected
      leader, and the peers are [pids]. *)
  Definition called_leader (ls : list jlabel) (j : nat) (id : string) (pids : list string) (t : Z) : Prop :=
    exists ls0 ht peers ls1, ls = ls0 ++ LJoin j id ht peers t :: ls1 /\ j_calls (run ls0) !! j = None /\
      M_Conv.LeaderNode sha id ht peers = Some me /\ mapM peerDecode peers = Some pids.
  (** ... and another node is the leader. *)
  Definition called_member (ls : list jlabel) (j : nat) (id leader : string) (peers : list string) (t : Z) : Prop :=
    exists ls0 ht ls1, ls = ls0 ++ LJoin j id ht peers t :: ls1 /\ j_calls (run ls0) !! j = None /\
      M_Conv.LeaderNode sha id ht peers = Some leader /\ leader <> me /\ is_Some (peerDecode leader).
  (** Call [j] of [ls] is JoinPartyWithRetry(id, peers), and the peers are [pids]. *)
  Definition called_leaderless (ls : list jlabel) (j : nat) (id : string) (pids : list string) : Prop :=
    exists ls0 peers ls1, ls = ls0 ++ LRetry j id peers :: ls1 /\ j_calls (run ls0) !! j = None /\
      mapM peerDecode peers = Some pids.

  (** Call [j] is the only one of [ls] with the id [id]. *)
  Definition only_call (ls : list jlabel) (j : nat) (id : string) : Prop :=
    forall l, l ∈ ls ->
      match l with LJoin j' id' _ _ _ | LRetry j' id' _ => id' = id -> j' = j | _ => True end.

  (** No handler of a request for the group of call [j] is still to be run. *)
  Definition quiet (s : jstate) (j : nat) : Prop :=
    forall h p old, j_handlers s !! h <> Some (HUpdate j p old).
End histories.
