(** Vocabulary for the properties of KeySign. *)
From Coq Require Import ZArith NArith Ascii String List.
From stdpp Require Import base list strings.
From Verif Require Import Base M_Semver M_Server M_Base64 M_Batch M_Notifier S_Notifier M_Join M_Common M_Blame M_KeySign.

(** Every label of the schedule does something. *)
Fixpoint busy (E : senv) (J : sjob) (s : kstate) (ls : list klabel) : Prop :=
  match ls with
  | [] => True
  | l :: r => kstep E J s l <> s /\ busy E J (kstep E J s l) r
  end.

Definition w_label (l : klabel) : Prop :=
  match l with KWStart | KWData _ | KWTimeout | KWTake | KWSend => True | _ => False end.
Definition g_label (l : klabel) : Prop :=
  match l with KGStart | KGTake | KGJoined _ | KGSigned _ | KGSend => True | _ => False end.
Definition w_ended (s : kstate) : Prop := exists r, k_w s = WEnd r.
Definition g_ended (s : kstate) : Prop := exists r e, k_g s = GEnd r e.

(** The answer carries these signatures, each beside the message at its position. *)
Definition carries (msgs : list bytes) (d : list ecsig) (r : response) : Prop :=
  rp_status r = Success /\ rp_blame r = Blame "" false [] /\ length (rp_sigs r) = length d /\
  forall k x, rp_sigs r !! k = Some x -> exists m g,
    msgs !! k = Some m /\ d !! k = Some g /\
    x = RSig (EncodeToString m) (EncodeToString (sg_R g)) (EncodeToString (sg_S g)) (EncodeToString (sg_recovery g)).

(** Waiting ended with the list [d], which verifies message by message. *)
Definition received (E : senv) (J : sjob) (d : list ecsig) : Prop :=
  d <> [] /\ length d <= length (sj_msgs J) /\ valid_for (se_n E) (sj_pool J) (sj_msgs J) d.

(** The peers of all the members of the pool. *)
Definition pool_peers (E : senv) (J : sjob) (l : list string) : Prop :=
  Forall2 (fun k p => peer_of E k = Some p) (sj_participants J) l.

(** The calls of UpdateKeySign / KeysignJoinParty. *)
Definition signs (s : kstate) : list bool :=
  omap (fun m => match m with MSign b => Some b | _ => None end) (k_metrics s).
Definition joins (s : kstate) : list bool :=
  omap (fun m => match m with MJoin b => Some b | _ => None end) (k_metrics s).

(** The signers whose peer is not in the list. *)
Definition offline (E : senv) (signers online : list string) : list string :=
  List.filter (fun k => match peer_of E k with Some p => negb (existsb (String.eqb p) online) | None => false end) signers.

(** Who is blamed when no party forms: without a leader the signers of the request
    that did not show up, with a leader the leader. *)
Inductive join_blame (E : senv) (J : sjob) : blame -> Prop :=
  | jb_internal :
      oldJoinParty (sj_version J) = Some true -> join_blame E J (Blame "fail to start the join party " false [])
  | jb_leaderless online :
      oldJoinParty (sj_version J) = Some true ->
      join_blame E J (Blame "signers fail to sync before keygen/keysign" false (plain <$> offline E (sj_signers J) online))
  | jb_leader ps leader :
      oldJoinParty (sj_version J) = Some false -> pool_peers E J ps ->
      M_Conv.LeaderNode (se_sha E) (sj_id J) (sj_height J) ps = Some leader ->
      join_blame E J (Blame "signers fail to sync before keygen/keysign" false match se_pub E leader with Some k => [plain k] | None => [] end)
  | jb_no_leader ps :
      oldJoinParty (sj_version J) = Some false -> pool_peers E J ps ->
      M_Conv.LeaderNode (se_sha E) (sj_id J) (sj_height J) ps = None ->
      join_blame E J (Blame "signers fail to sync before keygen/keysign" false match se_pub E "" with Some k => [plain k] | None => [] end).

(** No peer id is the text that marks the leaderless join party. *)
Definition none_is_no_peer (E : senv) : Prop := forall b, se_peer E b <> Some "NONE"%string.

(** How a node's own attempt ends, when it does not give up in favour of the others:
    the calls of KeysignJoinParty, the broadcasts and the answer. *)
Inductive own_attempt (E : senv) (J : sjob) : list bool -> list bcast -> response -> Prop :=
  (* signatures for all the messages, told to the whole pool *)
  | own_signed l peers r :
      pool_peers E J peers -> length l = length (sj_msgs J) -> carries (sj_msgs J) l r ->
      own_attempt E J [true] [(Some l, peers)] r
  | own_sign_failed b peers :
      pool_peers E J peers -> own_attempt E J [true] [(None, peers)] (Resp [] Fail b)
  | own_join_failed b peers :
      pool_peers E J peers -> (none_is_no_peer E -> join_blame E J b) -> own_attempt E J [false] [(None, peers)] (Resp [] Fail b)
  (* a peer of the party has an id that is no key *)
  | own_bad_peer online :
      Exists (fun p => se_pub E p = None) online ->
      own_attempt E J [true] [] (Resp [] Fail (Blame "" false []))
  (* a member of the pool has no peer id *)
  | own_bad_pool :
      Exists (fun k => peer_of E k = None) (sj_participants J) ->
      own_attempt E J [] [] (Resp [] Fail (Blame "fail to start the join party " false []))
  (* a peer of the party has a key that is not of the right kind *)
  | own_wrong_key p k peers :
      pool_peers E J peers -> se_pub E p = Some k -> peer_of E k = None ->
      own_attempt E J [true] [(None, peers)] (Resp [] Success (Blame "" false [])).

(** In this run a party formed that the node is in. *)
Definition formed_with (E : senv) (ls : list klabel) : Prop :=
  exists o online, KGJoined o ∈ ls /\ oc_err o = ENone /\ oc_peers o = Some online /\ se_self E ∈ online.
(** A party formed without the node. *)
Definition formed_without (E : senv) (ls : list klabel) : Prop :=
  exists o, KGJoined o ∈ ls /\ oc_err o = ENone /\ se_self E ∉ default [] (oc_peers o).
(** Before version 0.14.0 the request names the signers: the node is one of them. *)
Definition listed (E : senv) (J : sjob) : Prop :=
  oldJoinParty (sj_version J) = Some true -> exists k, se_pub E (se_self E) = Some k /\ k ∈ sj_signers J.
