(** C10: the version gate. *)
From Coq Require Import ZArith NArith Ascii String List Lia.
From stdpp Require Import base list strings.
From Verif Require Import Base L_Base M_Semver S_Semver L_Semver M_Server.

(** A version string selects the leaderless join party iff it is a semantic version
    lower than 0.14.0, the leader-based one iff it is one that is not lower; any
    other string is an error. *)
Theorem C10_version_gate s :
  (oldJoinParty s = Some true <-> exists v, is_version s v /\ before_0_14_0 v) /\
  (oldJoinParty s = Some false <-> exists v, is_version s v /\ ~ before_0_14_0 v) /\
  (oldJoinParty s = None <-> forall v, ~ is_version s v).
Proof.
  unfold oldJoinParty, VersionLTCheck.
  replace (Parse (to_bytes NEWJOINPARTYVERSION)) with (Some v0_14_0) by (vm_compute; reflexivity).
  destruct (Parse (to_bytes s)) as [v|] eqn:Hp.
  - pose proof (proj1 (Parse_spec s v) Hp) as Hv.
    assert (Hu : forall w, is_version s w -> w = v).
    { intros w Hw. apply Parse_spec in Hw. congruence. }
    assert (Hb : forall b, Some (LT v v0_14_0) = Some b <-> LT v v0_14_0 = b) by (intros; split; congruence).
    rewrite !Hb, LT_0_14_0. split; [|split].
    + split; [intros H; exists v; auto|]. intros (w & Hw & H). rewrite <- (Hu w Hw). exact H.
    + rewrite <- not_true_iff_false, LT_0_14_0.
      split; [intros H; exists v; auto|]. intros (w & Hw & H). rewrite <- (Hu w Hw). exact H.
    + split; [discriminate|]. intros H. destruct (H v Hv).
  - assert (Hn : forall v, ~ is_version s v) by (intros v Hv; apply Parse_spec in Hv; congruence).
    split; [|split].
    + split; [discriminate|]. intros (v & Hv & _). destruct (Hn v Hv).
    + split; [discriminate|]. intros (v & Hv & _). destruct (Hn v Hv).
    + tauto.
Qed.
Print Assumptions C10_version_gate.

(** The gate between any two version strings is the order of semver.org, item 11. *)
Theorem C10_check_is_semver_order cur exp b :
  VersionLTCheck cur exp = Some b <->
  exists v w, is_version cur v /\ is_version exp w /\ (b = true <-> precedes v w).
Proof.
  unfold VersionLTCheck. split.
  - destruct (Parse (to_bytes exp)) as [w|] eqn:Hw; [|discriminate].
    destruct (Parse (to_bytes cur)) as [v|] eqn:Hv; [|discriminate]. intros [= <-].
    exists v, w. split; [apply Parse_spec, Hv|]. split; [apply Parse_spec, Hw|].
    rewrite <- Compare_lt. unfold LT. destruct (Compare v w); split; congruence.
  - intros (v & w & Hv & Hw & Hb). apply Parse_spec in Hv as ->. apply Parse_spec in Hw as ->.
    rewrite <- Compare_lt in Hb. f_equal. unfold LT.
    destruct (Compare v w), b; try reflexivity; exfalso.
    + destruct Hb as [H _]. discriminate (H eq_refl).
    + destruct Hb as [_ H]. discriminate (H eq_refl).
    + destruct Hb as [H _]. discriminate (H eq_refl).
Qed.
Print Assumptions C10_check_is_semver_order.

(** A string is at most one version. *)
Theorem C10_version_unique s v w : is_version s v -> is_version s w -> v = w.
Proof. intros Hv Hw. apply Parse_spec in Hv. apply Parse_spec in Hw. congruence. Qed.
Print Assumptions C10_version_unique.

(** The order is a strict total order on versions up to build metadata. *)
Theorem C10_total_order :
  (forall v, ~ precedes v v) /\
  (forall u v w, precedes u v -> precedes v w -> precedes u w) /\
  (forall v w, precedes v w \/ same_precedence v w \/ precedes w v).
Proof.
  split; [|split].
  - intros v H. apply Compare_lt in H. rewrite (proj2 (Compare_eq v v)) in H by auto. discriminate.
  - intros u v w. rewrite <- !Compare_lt. apply Compare_trans.
  - intros v w. rewrite <- !Compare_lt, (Compare_antisym v w). destruct (Compare v w) eqn:H; auto.
    apply Compare_eq in H. auto.
Qed.
Print Assumptions C10_total_order.

(** joinParty makes the leaderless call only for a version before 0.14.0, the
    leader call only for one that is not, with the peers of all the participants,
    and fails on every string that is no version. *)
Theorem C10_join_party peer_of s keys :
  match joinParty peer_of s keys with
  | JoinLeaderless peers =>
      (exists v, is_version s v /\ before_0_14_0 v) /\ Forall2 (fun k p => peer_of k = Some p) keys peers
  | JoinLeader peers =>
      (exists v, is_version s v /\ ~ before_0_14_0 v) /\ keys <> [] /\ Forall2 (fun k p => peer_of k = Some p) keys peers
  | JoinErr l =>
      ((forall v, ~ is_version s v) /\ l = "") \/
      ((exists v, is_version s v /\ before_0_14_0 v) /\ l = "NONE" /\ Exists (fun k => peer_of k = None) keys) \/
      ((exists v, is_version s v /\ ~ before_0_14_0 v) /\ l = "" /\ (keys = [] \/ Exists (fun k => peer_of k = None) keys))
  end.
Proof.
  destruct (C10_version_gate s) as (Ht & Hf & Hn).
  assert (Hconv : match GetPeerIDsFromPubKeys peer_of keys with
    | Some peers => Forall2 (fun k p => peer_of k = Some p) keys peers
    | None => Exists (fun k => peer_of k = None) keys end).
  { unfold GetPeerIDsFromPubKeys. clear. induction keys as [|k keys IH]; simpl; [constructor|].
    destruct (peer_of k) eqn:Hk; [|left; exact Hk].
    destruct (all_some peer_of keys); [constructor; assumption|right; exact IH]. }
  unfold joinParty. destruct (oldJoinParty s) as [[]|].
  - destruct (GetPeerIDsFromPubKeys peer_of keys).
    + split; [apply Ht; reflexivity|exact Hconv].
    + right. left. split; [apply Ht; reflexivity|]. auto.
  - destruct (Nat.eqb_spec (length keys) 0) as [Hl|Hl].
    + right. right. split; [apply Hf; reflexivity|]. split; [reflexivity|]. left. apply nil_length_inv, Hl.
    + destruct (GetPeerIDsFromPubKeys peer_of keys).
      * split; [apply Hf; reflexivity|]. split; [intros ->; exact (Hl eq_refl)|exact Hconv].
      * right. right. split; [apply Hf; reflexivity|]. auto.
  - left. split; [apply Hn; reflexivity|reflexivity].
Qed.
Print Assumptions C10_join_party.

(** Beside the theorems: strings on every side of the gate. *)
Example gate_old : oldJoinParty "0.13.9" = Some true. Proof. vm_compute. reflexivity. Qed.
Example gate_pre : oldJoinParty "0.14.0-rc.1" = Some true. Proof. vm_compute. reflexivity. Qed.
Example gate_new : oldJoinParty "0.14.0" = Some false. Proof. vm_compute. reflexivity. Qed.
Example gate_build : oldJoinParty "1.0.0+build.5" = Some false. Proof. vm_compute. reflexivity. Qed.
Example gate_short : oldJoinParty "0.14" = None. Proof. vm_compute. reflexivity. Qed.
Example gate_zero : oldJoinParty "00.1.0" = None. Proof. vm_compute. reflexivity. Qed.
Example gate_empty : oldJoinParty "" = None. Proof. vm_compute. reflexivity. Qed.
Example gate_lead : oldJoinParty "v0.13.0" = None. Proof. vm_compute. reflexivity. Qed.
Example gate_space : oldJoinParty "0.13.0 " = None. Proof. vm_compute. reflexivity. Qed.
(** 2^64 is out of range, and so no version of the library. *)
Example gate_big : oldJoinParty "0.18446744073709551616.0" = None. Proof. vm_compute. reflexivity. Qed.
Example rc_version : is_version "0.14.0-rc.1" (Ver 0 14 0 [PrStr (to_bytes "rc"); PrNum 1] []).
Proof. apply Parse_spec. vm_compute. reflexivity. Qed.
Example rc_before : before_0_14_0 (Ver 0 14 0 [PrStr (to_bytes "rc"); PrNum 1] []).
Proof. split; [reflexivity|]. right. repeat split; discriminate. Qed.
Example order_numeric : VersionLTCheck "0.9.0" "0.10.0" = Some true. Proof. vm_compute. reflexivity. Qed.
Example order_pre : VersionLTCheck "1.0.0-alpha.2" "1.0.0-alpha.10" = Some true. Proof. vm_compute. reflexivity. Qed.
Definition toy_peer (k : string) : option string :=
  if String.eqb k "bad" then None else Some (String.append "p" k).
Example join_old : joinParty toy_peer "0.13.0" ["a"; "b"] = JoinLeaderless ["pa"; "pb"]. Proof. vm_compute. reflexivity. Qed.
Example join_new : joinParty toy_peer "0.14.0" ["a"; "b"] = JoinLeader ["pa"; "pb"]. Proof. vm_compute. reflexivity. Qed.
Example join_bad : joinParty toy_peer "0.13.0" ["a"; "bad"] = JoinErr "NONE". Proof. vm_compute. reflexivity. Qed.
Example join_no_version : joinParty toy_peer "latest" ["a"] = JoinErr "". Proof. vm_compute. reflexivity. Qed.
