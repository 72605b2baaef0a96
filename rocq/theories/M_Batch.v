(** The messages of a keysign request, the signing sessions made for them, and the
    response built from the signatures: tss/keysign.go and keysign/tss_keysign.go. *)
From Coq Require Import NArith Ascii String List.
From stdpp Require Import base list strings gmap.
From Verif Require Import Base M_Conv M_Base64 M_Sort M_Notifier.

(** tss/keysign.go:228-235: the first message that is not base64 ends the request. *)
Fixpoint decode_msgs (l : list string) : option (list bytes) :=
  match l with
  | [] => Some []
  | v :: l' =>
      match DecodeString v with
      | None => None
      | Some m => match decode_msgs l' with Some r => Some (m :: r) | None => None end
      end
  end.

(** tss/keysign.go:237-251: the comparator is "not lower", which is not a strict
    order (MsgToHashInt never fails). *)
Definition msg_less (a b : bytes) : bool := negb (N.ltb (MsgToHashInt a) (MsgToHashInt b)).
Definition sort_msgs (l : list bytes) : list bytes := SliceStable msg_less l.

Section Request.
  Variable sha256hex : bytes -> string.

  (** The payloads KeySign passes on (tss/keysign.go:190, 227-251):
      requestToMsgId has sorted the strings of the request in place. [None]: an
      undecodable message, or a keygen request. *)
  Definition msgsToSign (r : request) : option (list bytes) :=
    match snd (requestToMsgId sha256hex r) with
    | KeysignReq _ msgs _ _ _ =>
        match decode_msgs msgs with Some l => Some (sort_msgs l) | None => None end
    | KeygenReq _ _ _ => None
    end.
End Request.

(** keysign/tss_keysign.go:109: the moniker of the [i]-th session. *)
Definition moniker (i : nat) (m : N) : string :=
  String.append (itoa m) (String.append ":" (itoa (N.of_nat i))).

(** The loop of keysign/tss_keysign.go:104-122: identifier and integer of every
    session (GetParties, which succeeded just before, succeeds again). *)
Definition sessions (msgs : list bytes) : list (string * N) :=
  imap (fun i m => (moniker i (MsgToHashInt m), MsgToHashInt m)) msgs.
(** keySignPartyMap: a later session with the same identifier would replace the
    earlier one, and startBatchSigning would then wait for ever. *)
Definition partyMap (msgs : list bytes) : gmap string N :=
  foldl (fun acc s => <[fst s := snd s]> acc) ∅ (sessions msgs).

(** keysign/tss_keysign.go:252-270: signatures are collected from endCh until
    there are [reqNum]; [None]: the loop goes on. *)
Fixpoint collect (reqNum : nat) (acc endCh : list ecsig) : option (list ecsig) :=
  match endCh with
  | [] => None
  | s :: rest =>
      let acc' := acc ++ [s] in
      if Nat.eqb (length acc') reqNum then Some acc' else collect reqNum acc' rest
  end.

(** keysign/tss_keysign.go:163-171 *)
Definition sig_less (a b : ecsig) : bool := negb (N.ltb (be_val (sg_M a)) (be_val (sg_M b))).
Definition sort_sigs (l : list ecsig) : list ecsig := SliceStable sig_less l.

(** keysign.Signature (keysign/response.go:10-15), all base64. *)
Record rsig := RSig { rs_msg : string; rs_r : string; rs_s : string; rs_recovery : string }.

(** tss/keysign.go:335-352 (batchSignatures); [None]: msgsToSign[i] out of range. *)
Fixpoint batch_loop (i : nat) (sigs : list ecsig) (msgs : list bytes) : option (list rsig) :=
  match sigs with
  | [] => Some []
  | g :: rest =>
      match msgs !! i with
      | None => None
      | Some m =>
          match batch_loop (S i) rest msgs with
          | None => None
          | Some l =>
              Some (RSig (EncodeToString m) (EncodeToString (sg_R g)) (EncodeToString (sg_S g))
                      (EncodeToString (sg_recovery g)) :: l)
          end
      end
  end.
Definition batchSignatures (sigs : list ecsig) (msgs : list bytes) : option (list rsig) :=
  batch_loop 0 sigs msgs.
