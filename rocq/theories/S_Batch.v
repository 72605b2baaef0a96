(** Vocabulary for the properties of batch signing. *)
From Coq Require Import NArith Ascii String List.
From stdpp Require Import base list strings.
From Verif Require Import Base M_Conv M_Base64 M_Notifier.

(** The signing sessions of the messages all ended, in some order: what they left
    in the channel is one signature per message. [over n g]: [g] signs the integer
    [n]. tss-lib stores the signed integer in the field M. *)
Definition all_signed (over : N -> ecsig -> Prop) (msgs : list bytes) (endCh : list ecsig) : Prop :=
  exists sigs, endCh ≡ₚ sigs /\
    Forall2 (fun m g => be_val (sg_M g) = MsgToHashInt m /\ over (MsgToHashInt m) g) msgs sigs.

(** The payloads of the base64 strings. *)
Definition payloads (strs : list string) (ps : list bytes) : Prop :=
  Forall2 (fun s p => DecodeString s = Some p) strs ps.
