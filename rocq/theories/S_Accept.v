(** Which signing requests a node takes on. *)
From Coq Require Import ZArith Ascii String List.
From stdpp Require Import base list strings.
From Verif Require Import Base M_Base64 S_Semver M_KeySign.

(** Something to make an id from: a non-empty text, or two messages (they are joined with a comma). *)
Definition has_content (msgs signers : list string) : Prop :=
  (exists t, (t ∈ msgs \/ t ∈ signers) /\ t <> EmptyString) \/ 2 <= length msgs.

(** For versions before 0.14.0 the request names the signers: two thirds of the pool or more. *)
Definition enough_signers (n : nat) (signers : list string) : Prop :=
  signers <> [] /\ 2 * n <= 3 * length signers.

Definition acceptable (E : senv) (pool : string) (msgs signers : list string) (version : string) : Prop :=
  has_content msgs signers /\
  (exists st, se_state E pool = Some st /\
     exists v, is_version version v /\ (before_0_14_0 v -> enough_signers (length (ls_participants st)) signers)) /\
  (forall q, q ∈ msgs -> exists m, DecodeString q = Some m).
