(** Vocabulary for shares that the library rejects. *)
From Coq Require Import ZArith Ascii String List.
From stdpp Require Import base list strings gmap.
From Verif Require Import Base M_Common S_Common.

(** After the history [tr] the [k]-th share that waits is one of kind [c], a kind the
    node knows. *)
Definition share_waits (E : env) (C : cfg) (tr : list label) (k : nat) (j : job) (c : content) : Prop :=
  s_crash (run E C tr) = false /\ s_pending (run E C tr) !! k = Some j /\
  e_parse E (j_body j) (j_from j) (j_bcast j) = Some c /\ c <> OtherContent.

(** [id] is in the party and its key has the text [pk]. *)
Definition member_key (E : env) (C : cfg) (id pk : string) : Prop :=
  exists key, cf_parties C !! id = Some key /\ e_pub E key = Some pk.

(** The name of a kind of share, as it stands in the messages. *)
Definition kind_name (c : content) (n : string) : Prop :=
  In (c, n)
    [(KGRound1Message, "KGRound1Message"); (KGRound2Message1, "KGRound2Message1");
     (KGRound2Message2, "KGRound2Message2"); (KGRound3Message, "KGRound3Message");
     (SignRound1Message1, "SignRound1Message1"); (SignRound1Message2, "SignRound1Message2");
     (SignRound2Message, "SignRound2Message"); (SignRound3Message, "SignRound3Message");
     (SignRound4Message, "SignRound4Message"); (SignRound5Message, "SignRound5Message");
     (SignRound6Message, "SignRound6Message"); (SignRound7Message, "SignRound7Message")]%string.
(** The kinds of share of a key generation and of a signing, in the order of the rounds. *)
Definition keygen_kinds : list content := [KGRound1Message; KGRound2Message1; KGRound2Message2; KGRound3Message].
Definition keysign_kinds : list content :=
  [SignRound1Message1; SignRound1Message2; SignRound2Message; SignRound3Message;
   SignRound4Message; SignRound5Message; SignRound6Message; SignRound7Message].
Definition of_round (i : nat) (c : content) : Prop := keygen_kinds !! i = Some c \/ keysign_kinds !! i = Some c.
(** The library took a share of party [id] for round [i], of kind [nm], in session [m]. *)
Definition took (E : env) (C : cfg) (tr : list label) (i : nat) (nm m id : string) : Prop :=
  exists tr1 k tr2 j c, tr = (tr1 ++ LWork k None :: tr2)%list /\ share_waits E C tr1 k j c /\
    of_round i c /\ kind_name c nm /\ j_ident j = m /\ j_from j = id.
(** The share is counted. *)
Definition counted (s : state) (i : nat) (nm m id : string) : Prop :=
  exists l, s_accepted s !! (i, nm, m) = Some l /\ id ∈ l.
(** The kinds that go to one party only (tss-lib); the others go to everybody. *)
Definition goes_to_one (c : content) : Prop := In c [KGRound2Message1; SignRound1Message1; SignRound2Message].

Definition no_evidence (n : node) : Prop := n_data n = [] /\ n_sig n = [].
(** The node [n] accuses party [id] and shows [w]. *)
Definition shows (n : node) (w : wire) : Prop := n_data n = w_body w /\ n_sig n = w_sig w.

(** The shares in the name of [id] that were handed to the library or wait for it. *)
Definition shares_of (id : string) (s : state) : list job :=
  List.filter (fun j => String.eqb (j_from j) id) (s_log s ++ s_pending s).
