(** Vocabulary: who is late when a ceremony times out. *)
From Coq Require Import ZArith Ascii String List.
From stdpp Require Import base list strings gmap.
From Verif Require Import Base M_Common S_Common M_Blame S_Blame.

(** The round of private shares a timeout of a signing looks at, from the type of the last
    message of the local party and whether it was a broadcast: a private message's own round;
    the first private round when the last message is the broadcast of the first round; the
    second private round otherwise. *)
Definition private_round (ty : string) (bcast : bool) (round : string) : Prop :=
  (bcast = false /\ round = ty) \/
  (bcast = true /\ (exists prefix, ty = String.append prefix "SignRound1Message2") /\ round = "SignRound1Message1") \/
  (bcast = true /\ ~ (exists prefix, ty = String.append prefix "SignRound1Message2") /\ round = "SignRound2Message").

(** The timeout of a ceremony of either kind turns the state [s] into [s']: [ty] is the type
    of the last message of the local party, [round] the round of private shares, [rounds] the
    number of rounds. *)
Definition times_out (E : env) (C : cfg) (local : string) (o : torders) (rounds : nat) (ty round : string)
    (s s' : state) : Prop :=
  (keygenTimeout E C local (Some ty) o s = Some s' /\ rounds = 4 /\ round = "KGRound2Message1") \/
  (exists bcast, keysignTimeout E C local (Some (ty, bcast)) o s = Some s' /\ rounds = 8 /\ private_round ty bcast round).

(** The other members whose private share of [round], whose broadcast of [ty] is missing. *)
Definition no_share (C : cfg) (local : string) (s : state) (round : string) (U : gset string) : Prop :=
  forall id, id ∈ U <-> other C local id /\ ~ unicast_seen C s round id.
Definition no_broadcast (C : cfg) (local : string) (s : state) (ty : string) (B : gset string) : Prop :=
  forall id, id ∈ B <-> other C local id /\ ~ confirmed s ty id.

(** Missing private shares count: some came, and those who owe one are some, but fewer than
    two thirds of the nodes. Missing broadcasts count: some came. *)
Definition shares_count (C : cfg) (s : state) (round : string) (U : gset string) : Prop :=
  is_Some (s_unicast s !! round) /\ 1 <= size U /\ 3 * size U < 2 * (length (cf_peers C) + 1).
Definition broadcasts_count (s : state) (ty : string) : Prop := exists id, confirmed s ty id.

(** Different members have different keys. *)
Definition distinct_keys (E : env) (C : cfg) : Prop :=
  forall a b ka kb pk, cf_parties C !! a = Some ka -> cf_parties C !! b = Some kb ->
    e_pub E ka = Some pk -> e_pub E kb = Some pk -> a = b.
