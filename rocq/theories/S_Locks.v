(** What it means that goroutines get stuck on locks, and that two of them access a table
    at the same time. *)
From Coq Require Import List.
From stdpp Require Import base list relations.
From Verif Require Import Base M_Locks.

Definition finished (t : thread) : Prop := todo t = [].
(** Go stops the program when a lock is released that is not held. *)
Definition bad_release (s : state) : Prop :=
  exists t ex l r, t ∈ s /\ todo t = Release ex l :: r /\ ~ holds ex l t.
(** Somebody has work left and nobody can go on. *)
Definition deadlock (s : state) : Prop :=
  (exists t, t ∈ s /\ ~ finished t) /\ forall s', ~ sure_step s s'.
(** Two goroutines are about to access [x], one of them writing *)
Definition race (x : loc) (s : state) : Prop :=
  exists i j t u w v r q, i <> j /\ s !! i = Some t /\ s !! j = Some u /\
    todo t = Access w x :: r /\ todo u = Access v x :: q /\ (w = true \/ v = true).
Definition reaches (gs : list (list job)) (s : state) : Prop := rtc step (start gs) s.

(** The tables that have a lock of their own *)
Definition protected (x : loc) : Prop :=
  match x with
  | XUnconfirmed _ | XPeers _ | XCulprits _ | XStored _ | XRequested _ | XLastMsg _
  | XUnicast _ | XAccepted _ | XBook | XResponses _ | XLeaderResponse _ | XStreams _
  | XTopics | XSubscribers _ | XGroups | XNotifiers => True
  | XPartyInfo _ | XReason _ | XBlamed _ | XAcceptedArray _ | XLeader _ | XStreamsArray _ => False
  end.
