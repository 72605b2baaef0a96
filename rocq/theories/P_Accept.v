(** C171, C172: which signing requests are taken on, and how large the party is. *)
From Coq Require Import ZArith NArith Ascii String List Lia.
From stdpp Require Import base list strings.
From Verif Require Import Base L_Base S_Threshold M_Base64 M_Conv M_Semver S_Semver M_Server M_Batch M_Join S_Join P_Join
  M_Common M_KeySign S_KeySign P_Semver P_KeySign S_Accept.

Lemma concat_empty l : concat_strings l = EmptyString <-> forall t, t ∈ l -> t = EmptyString.
Proof.
  induction l as [|a l IH]; cbn; [split; [intros _ t Ht; inversion Ht|reflexivity]|]. split.
  - destruct a; [|discriminate]. cbn. intros H t Ht. apply elem_of_cons in Ht as [->|Ht]; [reflexivity|]. apply IH; assumption.
  - intros H. rewrite (H a) by left. cbn. apply IH. intros t Ht. apply H. right. exact Ht.
Qed.
Lemma join_empty l : join_strings "," l = EmptyString <-> length l <= 1 /\ forall t, t ∈ l -> t = EmptyString.
Proof.
  destruct l as [|a [|b l]]; cbn.
  - split; [split; [lia|intros t Ht; inversion Ht]|reflexivity].
  - split; [intros ->; split; [lia|]; intros t Ht; apply elem_of_list_singleton in Ht; exact Ht|].
    intros [_ H]. apply H. left.
  - split; [destruct a; discriminate|]. intros [H _]. lia.
Qed.
Lemma decode_msgs_all l : (exists ps, decode_msgs l = Some ps) <-> forall q, q ∈ l -> exists m, DecodeString q = Some m.
Proof.
  induction l as [|a l IH]; cbn; [split; [intros _ q Hq; inversion Hq|eauto]|]. split.
  - intros [ps H] q Hq. destruct (DecodeString a) as [m|] eqn:Ha; [|discriminate].
    destruct (decode_msgs l) as [r|]; [|discriminate]. apply elem_of_cons in Hq as [->|Hq]; [eauto|].
    apply IH; eauto.
  - intros H. destruct (H a) as [m ->]; [left|]. destruct (proj2 IH) as [r ->]; [|eauto].
    intros q Hq. apply H. right. exact Hq.
Qed.
Lemma threshold_two_thirds n k :
  (Z.of_nat k <= threshold_of (Z.of_nat n))%Z <-> 3 * k < 2 * n.
Proof.
  unfold threshold_of. split; intros H.
  - assert (Hd : (Z.of_nat k + 1 <= (2 * Z.of_nat n + 2) / 3)%Z) by lia.
    pose proof (Z.mul_div_le (2 * Z.of_nat n + 2) 3). lia.
  - assert (Hd : (Z.of_nat k + 1 <= (2 * Z.of_nat n + 2) / 3)%Z) by (apply Z.div_le_lower_bound; lia). lia.
Qed.

Lemma has_content_id sha pool msgs signers h v :
  (exists id, fst (requestToMsgId sha (KeysignReq pool msgs signers h v)) = Some id) <-> has_content msgs signers.
Proof.
  cbn [requestToMsgId fst]. unfold MsgToHashString, has_content.
  set (d := (to_bytes _ ++ to_bytes _)%list).
  assert (Hd : d = [] <-> (length msgs <= 1 /\ (forall t, t ∈ msgs -> t = EmptyString)) /\ forall t, t ∈ signers -> t = EmptyString).
  { assert (Hb : forall s, to_bytes s = [] <-> s = EmptyString) by (intros []; cbn; split; congruence).
    assert (Happ : d = [] <-> join_strings "," (sort_strings msgs) = EmptyString /\ concat_strings (sort_strings signers) = EmptyString).
    { unfold d. rewrite <- !Hb. split; [apply app_eq_nil|]. intros [-> ->]. reflexivity. }
    rewrite Happ, join_empty, concat_empty, (Permutation_length (sort_strings_perm msgs)).
    setoid_rewrite (sort_strings_perm msgs). setoid_rewrite (sort_strings_perm signers). reflexivity. }
  assert (Hpos : (exists id, match d with [] => None | _ => Some (sha d) end = Some id) <-> d <> []).
  { destruct d; split; try congruence; [intros [? ?]; congruence|eauto]. }
  rewrite Hpos, Hd. clear. split.
  - intros H. destruct (decide (2 <= length msgs)); [right; assumption|]. left.
    destruct (decide (Forall (fun t => t = EmptyString) (msgs ++ signers))) as [Hf|Hf].
    + exfalso. apply H. rewrite Forall_forall in Hf. split; [split; [lia|]|]; intros t Ht; apply Hf, elem_of_app; auto.
    + apply not_Forall_Exists in Hf; [|solve_decision]. apply Exists_exists in Hf as (t & Ht & Hne).
      exists t. split; [apply elem_of_app, Ht|exact Hne].
  - intros [(t & [Ht|Ht] & Hne)|Hl] ((Hlen & Hm) & Hs); [apply Hne, Hm, Ht|apply Hne, Hs, Ht|lia].
Qed.

Lemma prepare_acceptable E pool msgs signers h v :
  (exists J, prepare E pool msgs signers h v = inr J) <-> acceptable E pool msgs signers v.
Proof.
  pose proof (has_content_id (se_sha E) pool msgs signers h v) as Hid.
  assert (Hdec : (exists ps, decode_msgs (sort_strings msgs) = Some ps) <-> forall q, q ∈ msgs -> exists m, DecodeString q = Some m).
  { rewrite (decode_msgs_all (sort_strings msgs)). setoid_rewrite (sort_strings_perm msgs). reflexivity. }
  unfold acceptable. rewrite <- Hid, <- Hdec. unfold prepare.
  destruct (requestToMsgId (se_sha E) (KeysignReq pool msgs signers h v)) as [oid req] eqn:Hr. cbn [fst] in *.
  injection Hr as Hoid <-. destruct oid as [id|]; [|split; [intros [J HJ]; discriminate|intros ([? ?] & _); discriminate]].
  destruct (se_state E pool) as [st|]; [|split; [intros [J HJ]; discriminate|intros (_ & (st & ? & _) & _); discriminate]].
  destruct (decode_msgs (sort_strings msgs)) as [ps|]; [|split; [intros [J HJ]; discriminate|intros (_ & _ & [? ?]); discriminate]].
  destruct (C10_version_gate v) as (Ht & Hf & Hn). rewrite (Permutation_length (sort_strings_perm signers)).
  destruct (oldJoinParty v) as [[]|].
  - destruct (proj1 Ht eq_refl) as (w & Hw & Hb).
    assert (Hen : (exists st0, Some st = Some st0 /\ exists w, is_version v w /\ (before_0_14_0 w -> enough_signers (length (ls_participants st0)) signers)) <->
      enough_signers (length (ls_participants st)) signers).
    { split; [intros (st0 & [= <-] & w' & Hw' & H); apply H; rewrite (C10_version_unique _ _ _ Hw' Hw); exact Hb|eauto 6]. }
    rewrite Hen. unfold enough_signers.
    destruct (Nat.eqb_spec (length signers) 0) as [H0|H0]; cbn [andb].
    { split; [intros [J HJ]; discriminate|]. intros (_ & [Hne _] & _). destruct signers; [congruence|discriminate]. }
    rewrite andb_true_r. destruct (Z.leb_spec (Z.of_nat (length signers)) (threshold_of (Z.of_nat (length (ls_participants st))))) as [Hle|Hlt].
    { split; [intros [J HJ]; discriminate|]. intros (_ & [_ Hl] & _). apply threshold_two_thirds in Hle. lia. }
    split; [|eauto]. intros _. split; [eauto|]. split; [|eauto].
    split; [destruct signers; [cbn in H0; congruence|discriminate]|].
    destruct (le_lt_dec (2 * length (ls_participants st)) (3 * length signers)) as [|Hlt']; [assumption|].
    apply threshold_two_thirds in Hlt'. lia.
  - destruct (proj1 Hf eq_refl) as (w & Hw & Hb). rewrite !andb_false_r.
    split; [|eauto]. intros _. split; [eauto|]. split; [|eauto].
    exists st. split; [reflexivity|]. exists w. split; [exact Hw|]. intros; contradiction.
  - split; [intros [J HJ]; discriminate|]. intros (_ & (st0 & _ & w & Hw & _) & _). destruct (proj1 Hn eq_refl w Hw).
Qed.

(** A signing request is refused with an error exactly when it has no content, the node has no
    state of the pool, a message is not base64, the version is none, or its version is before
    0.14.0 and it names fewer signers than two thirds of the pool. *)
Theorem C171_accepted_iff E pool msgs signers h v :
  (exists r e, keysign_returns E pool msgs signers h v r (Some e)) <-> ~ acceptable E pool msgs signers v.
Proof.
  rewrite <- (prepare_acceptable E pool msgs signers h v). split.
  - intros (r & e & H) [J HJ]. apply C100_errors_come_from_the_checks in H as (H & _). congruence.
  - intros H. destruct (prepare E pool msgs signers h v) as [[r e]|J] eqn:Hp; [|destruct H; eauto].
    exists r, e. constructor. exact Hp.
Qed.
Print Assumptions C171_accepted_iff.

(** The answer beside the error has no signatures; it is empty, except that an unreadable
    version makes it a failure. *)
Theorem C171_refusal_answer E pool msgs signers h v r e :
  keysign_returns E pool msgs signers h v r (Some e) ->
  r = Resp [] NA (Blame "" false []) \/
  (r = Resp [] Fail (Blame "fail to start the join party " false []) /\ forall w, ~ is_version v w).
Proof.
  intros H. destruct (C100_errors_come_from_the_checks _ _ _ _ _ _ _ _ H) as (Hp & _).
  unfold prepare in Hp.
  destruct (requestToMsgId _ _) as [[id|] [ks h' v'|pool' msgs' signers' h' v']];
    try (injection Hp as <- _; left; reflexivity).
  destruct (se_state E pool) as [st|]; [|injection Hp as <- _; left; reflexivity].
  destruct (decode_msgs msgs') as [ps|]; [|injection Hp as <- _; left; reflexivity].
  destruct (oldJoinParty v) as [old|] eqn:Ho; [|injection Hp as <- _; right; split; [reflexivity|apply C10_version_gate, Ho]].
  destruct (_ && old)%bool; [injection Hp as <- _; left; reflexivity|].
  destruct (_ && old)%bool; [injection Hp as <- _; left; reflexivity|discriminate].
Qed.
Print Assumptions C171_refusal_answer.

(** ** C172 *)

Lemma prepare_job E pool msgs signers h v J : prepare E pool msgs signers h v = inr J ->
  exists st, se_state E pool = Some st /\ sj_participants J = ls_participants st /\
    sj_threshold J = threshold_of (Z.of_nat (length (ls_participants st))) /\
    sj_version J = v /\ sj_signers J ≡ₚ signers /\
    (oldJoinParty v = Some true -> (sj_threshold J < Z.of_nat (length (sj_signers J)))%Z).
Proof.
  unfold prepare. intros Hp.
  destruct (requestToMsgId _ _) as [[id|] [ks h' v'|pool' msgs' signers' h' v']] eqn:Hr; try discriminate.
  destruct (se_state E pool) as [st|]; [|discriminate]. destruct (decode_msgs msgs') as [ps|]; [|discriminate].
  destruct (oldJoinParty v) as [old|]; [|discriminate].
  destruct (_ && old)%bool; [discriminate|]. destruct (Z.leb _ _) eqn:Hz; cbn [andb] in Hp.
  - destruct old; [discriminate|]. injection Hp as <-. exists st. cbn. repeat (split; [reflexivity|]).
    split; [|discriminate]. cbn in Hr. injection Hr as _ _ _ <- _ _. apply sort_strings_perm.
  - injection Hp as <-. exists st. cbn. repeat (split; [reflexivity|]).
    split; [cbn in Hr; injection Hr as _ _ _ <- _ _; apply sort_strings_perm|]. intros _. apply Z.leb_gt in Hz. exact Hz.
Qed.

(** A request was taken on. Before 0.14.0 all named signers have to show up: a party that forms
    has as many different members as there are signers in the request, two thirds of the pool
    or more. From 0.14.0 on the leader takes just as many as are needed: the smallest number
    that is two thirds or more. *)
Theorem C172_party_is_large_enough E pool msgs signers h v J sha peerDecode me :
  prepare E pool msgs signers h v = inr J -> me <> "NONE"%string ->
  exists st, se_state E pool = Some st /\
  (forall ls j id keys peers pids l,
     keys ≡ₚ signers -> joinParty (peer_of E) v keys = JoinLeaderless peers -> mapM peerDecode peers = Some pids ->
     called_leaderless sha peerDecode me ls j id pids -> returned (jrun sha peerDecode me ls) j (Outcome (Some l) ENone) ->
     NoDup l /\ length l = length signers /\ 2 * length (ls_participants st) <= 3 * length l) /\
  (forall ls j id pids l,
     ls_participants st <> [] ->
     called_leader sha peerDecode me ls j id pids (sj_threshold J) ->
     returned (jrun sha peerDecode me ls) j (Outcome (Some l) ENone) ->
     NoDup l /\ 2 * length (ls_participants st) <= 3 * length l /\ 3 * (length l - 1) < 2 * length (ls_participants st)).
Proof.
  intros Hp Hme. destruct (prepare_job _ _ _ _ _ _ _ Hp) as (st & Hst & Hpart & Hthr & Hv & Hsig & Henough).
  exists st. split; [exact Hst|]. split.
  - intros ls j id keys peers pids l Hk Hj Hm Hcall Hret.
    destruct (C19_online_peers_are_participants_that_asked sha peerDecode me Hme ls j id pids _ l (or_intror Hcall) Hret eq_refl) as (Hnd & _).
    destruct (C24_leaderless_outcome sha peerDecode me Hme ls j id pids _ Hcall Hret) as (l' & Hl' & [Hlen _] & _).
    cbn in Hl', Hlen. injection Hl' as <-. specialize (Hlen eq_refl).
    pose proof (C10_join_party (peer_of E) v keys) as Hjp. rewrite Hj in Hjp. destruct Hjp as [Hold Hall].
    apply C10_version_gate in Hold. specialize (Henough Hold).
    apply Forall2_length in Hall. apply mapM_length in Hm. apply Permutation_length in Hk, Hsig.
    split; [exact Hnd|]. split; [lia|].
    destruct (le_lt_dec (2 * length (ls_participants st)) (3 * length l)) as [|Hlt]; [assumption|].
    apply threshold_two_thirds in Hlt. lia.
  - intros ls j id pids l Hne Hcall Hret.
    assert (Hge : (0 <= sj_threshold J)%Z).
    { rewrite Hthr. apply (threshold_two_thirds _ 0). destruct (ls_participants st); [congruence|cbn; lia]. }
    destruct (C21_leader_success sha peerDecode me Hme ls j id pids _ _ Hcall Hret Hge) as (l' & c & [= <-] & _ & Hnd & _ & Hlen & _).
    split; [exact Hnd|]. rewrite Hthr in Hlen. split.
    + destruct (le_lt_dec (2 * length (ls_participants st)) (3 * length l)) as [|Hlt]; [assumption|].
      apply threshold_two_thirds in Hlt. lia.
    + apply threshold_two_thirds. lia.
Qed.
Print Assumptions C172_party_is_large_enough.

(** ** Cases *)

(** In the toy world of [P_KeySign] (pool of three): two of the three are enough for version
    0.13.0 and one is not; for 0.14.0 none need be named. *)
Example C171_case :
  acceptable toy "pool" req_msgs ["a"; "b"]%string "0.13.0" /\
  ~ acceptable toy "pool" req_msgs ["a"]%string "0.13.0" /\
  acceptable toy "pool" req_msgs [] "0.14.0".
Proof.
  split; [apply (prepare_acceptable toy "pool" req_msgs _ 10); eexists; vm_compute; reflexivity|].
  split; [|apply (prepare_acceptable toy "pool" req_msgs _ 10); eexists; vm_compute; reflexivity].
  apply (C171_accepted_iff toy "pool" req_msgs _ 10). eexists _, _. apply ks_refused. vm_compute. reflexivity.
Qed.

(** Both parts of C172: version 0.13.0 with signers "a" and "b", node "b"; version 0.14.0, leader "a". *)
Definition c172_run : list jlabel :=
  [LRetry 0 "id" ["pa"; "pb"]; LMsg 1 "pa" (InOld "id"); LHandle 1; LHandle 1; LTimeout 0; M_Join.LFinish 0 []]%string.
Example C172_case :
  (exists J, prepare toy "pool" req_msgs ["a"; "b"]%string 10 "0.13.0" = inr J) /\
  joinParty (peer_of toy) "0.13.0" ["a"; "b"]%string = JoinLeaderless ["pa"; "pb"]%string /\
  called_leaderless of_bytes Some "pb" c172_run 0 "id" ["pa"; "pb"]%string /\
  returned (jrun of_bytes Some "pb" c172_run) 0 (Outcome (Some ["pa"; "pb"]%string) ENone) /\
  prepare toy "pool" req_msgs [] 10 "0.14.0" = inr J14 /\ sj_threshold J14 = 1%Z /\
  called_leader of_bytes Some "a" leader_ok 0 "id" ["a"; "b"; "c"]%string (sj_threshold J14) /\
  returned (jrun of_bytes Some "a" leader_ok) 0 (Outcome (Some ["c"; "a"]%string) ENone).
Proof.
  split; [eexists; vm_compute; reflexivity|]. split; [vm_compute; reflexivity|].
  split; [exists [], ["pa"; "pb"]%string; eexists; repeat split|].
  split.
  { exists (JCall "id" (RLeaderless ["pa"; "pb"]%string) 1 [] "" (JDone (Outcome (Some ["pa"; "pb"]%string) ENone)) None).
    split; [vm_compute; reflexivity|reflexivity]. }
  split; [exact J14_prepared|]. split; [vm_compute; reflexivity|].
  split; [|exact leader_ok_returned]. change (sj_threshold J14) with 1%Z. exact leader_ok_called.
Qed.
