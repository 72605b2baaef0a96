(** Vocabulary for the messages exchanged as protocol buffers. *)
From Coq Require Import ZArith NArith Ascii String List.
From stdpp Require Import base list strings.
From Verif Require Import Base M_Notifier M_Join.
From Verif Require Export S_Utf8.

Local Open Scope N_scope.

(** ** Sizes far above what any memory holds *)
Definition sized (b : bytes) : Prop := N.of_nat (length b) < 2 ^ 60.
Definition small (b : bytes) : Prop := N.of_nat (length b) < 2 ^ 50.
Definition sized_sig (s : ecsig) : Prop :=
  small (default [] (sg_signature s)) /\ small (sg_recovery s) /\ small (sg_R s) /\ small (sg_S s) /\ small (sg_M s).
(** A signature as tss-lib makes it: the field Signature is there. *)
Definition made (s : ecsig) : Prop := exists b, sg_signature s = Some b /\ b <> [].

(** A message of the join party that a node can send. *)
Definition leader_ok (m : leadermsg) : Prop :=
  text (lm_id m) /\ sized (to_bytes (lm_id m)) /\
  text (lm_msgtype m) /\ sized (to_bytes (lm_msgtype m)) /\
  N.of_nat (lm_type m) < 2 ^ 31 /\
  Forall (fun p => text p /\ sized (to_bytes p)) (lm_peers m).
