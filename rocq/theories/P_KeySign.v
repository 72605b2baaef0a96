(** C48, C49, C58 (keysign), C68, C98-C102: a whole KeySign call. *)
From Coq Require Import ZArith NArith Ascii String List Lia.
From stdpp Require Import base list strings.
From Verif Require Import Base L_Base S_Threshold M_Conv M_Semver S_Semver M_Server M_Base64 M_Batch M_Notifier S_Notifier
  M_Join M_Common M_Blame M_KeySign S_KeySign L_KeySign L_Batch.

Lemma measure_differs s s' : measure s' < measure s -> s' <> s.
Proof. intros H ->. lia. Qed.

(** ** C48 *)

(** A goroutine about to send finds room in the channel, and it is open. *)
Theorem C48_sends_never_block E J ls :
  let s := krun E J ls in
  k_crash s = false ->
  (forall r, k_w s = WSend r -> k_closed s = false /\
     k_w (kstep E J s KWSend) = WEnd (Some r) /\ k_chan (kstep E J s KWSend) = k_chan s ++ ["signature received"%string]) /\
  (forall b r, k_g s = GSend b r -> k_closed s = false /\
     k_g (kstep E J s KGSend) = GEnd r GNone /\ k_chan (kstep E J s KGSend) = k_chan s ++ ["signature generated"%string]).
Proof.
  intros s Hcr. pose proof (krun_inv E J ls) as H. fold s in H. split.
  - intros r Hw. assert (Hcl : k_closed s = false).
    { destruct (k_closed s) eqn:Hcl; [|reflexivity].
      destruct (closed_ended _ (ki_e _ _ _ H) Hcl) as [[r' Hr] _]. congruence. }
    assert (Hroom : length (k_chan s) <= 1).
    { apply (chan_room_w _ (ki_c _ _ _ H)). intros [r' Hr]. congruence. }
    unfold kstep. rewrite Hcr. unfold w_send. rewrite Hw. unfold send. rewrite Hcl.
    destruct (Nat.ltb_spec (length (k_chan s)) sig_cap) as [_|Hf]; [|unfold sig_cap in Hf; lia]. auto.
  - intros b r Hg. assert (Hcl : k_closed s = false).
    { destruct (k_closed s) eqn:Hcl; [|reflexivity].
      destruct (closed_ended _ (ki_e _ _ _ H) Hcl) as [_ (r' & e' & Hr)]. congruence. }
    assert (Hroom : length (k_chan s) <= 1).
    { apply (chan_room_g _ (ki_c _ _ _ H)). intros [r' Hr]. congruence. }
    unfold kstep. rewrite Hcr. unfold g_send. rewrite Hg. unfold send. rewrite Hcl.
    destruct (Nat.ltb_spec (length (k_chan s)) sig_cap) as [_|Hf]; [|unfold sig_cap in Hf; lia]. auto.
Qed.
Print Assumptions C48_sends_never_block.

(** Each goroutine that has not ended can go on by itself (when its bounded wait is
    over), whatever the other one does. *)
Theorem C48_never_wait_for_each_other E J ls :
  let s := krun E J ls in
  k_crash s = false ->
  (w_ended s \/ exists l, w_label l /\ kstep E J s l <> s) /\
  (g_ended s \/ exists l, g_label l /\ kstep E J s l <> s).
Proof.
  intros s Hcr. destruct (C48_sends_never_block E J ls Hcr) as [Hw Hg]. fold s in Hw, Hg. split.
  - destruct (k_w s) as [| |r|r] eqn:Es.
    + right. exists KWStart. split; [exact I|]. unfold kstep. rewrite Hcr. unfold w_start. rewrite Es.
      apply measure_differs. destruct (NewNotifier _ _ _); unfold measure; simpl; rewrite Es; simpl; lia.
    + right. exists KWTimeout. split; [exact I|]. unfold kstep. rewrite Hcr. unfold w_timeout. rewrite Es.
      apply measure_differs. unfold measure; simpl; rewrite Es; simpl; lia.
    + right. exists KWSend. split; [exact I|]. intros H. destruct (Hw r eq_refl) as (_ & Hr & _). congruence.
    + left. exists r. exact Es.
  - destruct (k_g s) as [|r ld taken|onl sg|b r|r e] eqn:Es.
    + right. exists KGStart. split; [exact I|]. destruct (kstep_better E J s KGStart) as [H|H]; [|apply measure_differs, H].
      exfalso. assert (Hng : k_g (kstep E J s KGStart) = GNew) by congruence.
      unfold kstep in Hng. rewrite Hcr in Hng. unfold g_start in Hng. rewrite Es in Hng.
      assert (Hf : forall a ld o, k_g (join_failed E J a ld o s) <> GNew).
      { intros a ld o. unfold join_failed. destruct (oc_err o); discriminate. }
      destruct (GetPeerIDsFromPubKeys _ _); [|discriminate].
      destruct (oldJoinParty _) as [[]|]; [| |discriminate].
      * destruct (se_pub E (se_self E)); [|discriminate]. destruct (existsb _ _); [|discriminate].
        destruct (joinParty _ _ _); [exact (Hf _ _ _ Hng)|discriminate|].
        destruct (join_role _ _ _) as [? [?|]]; [discriminate|exact (Hf _ _ _ Hng)].
      * destruct (joinParty _ _ _); [exact (Hf _ _ _ Hng)|discriminate|].
        destruct (join_role _ _ _) as [? [?|]]; [discriminate|exact (Hf _ _ _ Hng)].
    + right. destruct taken.
      * destruct r as [ps|ld'|ps].
        -- exists (KGJoined (Outcome None ESignReceived)). split; [exact I|]. intros H.
           apply (f_equal k_g) in H. unfold kstep in H. rewrite Hcr in H. unfold g_joined in H. rewrite Es in H.
           simpl in H. congruence.
        -- exists (KGJoined (Outcome None ESignReceived)). split; [exact I|]. intros H.
           apply (f_equal k_g) in H. unfold kstep in H. rewrite Hcr in H. unfold g_joined in H. rewrite Es in H.
           simpl in H. congruence.
        -- exfalso. pose proof (ki_g _ _ _ (krun_inv E J ls)) as Hi. fold s in Hi. unfold g_inv in Hi. rewrite Es in Hi.
           destruct Hi as (_ & _ & _ & _ & _ & Hf & _). discriminate.
      * exists (KGJoined (Outcome None ETimeout)). split; [exact I|]. intros H.
        apply (f_equal k_g) in H. unfold kstep in H. rewrite Hcr in H. unfold g_joined in H. rewrite Es in H.
        destruct r; simpl in H; congruence.
    + right. exists (KGSigned (CFail no_blame)). split; [exact I|]. intros H. pose proof H as H'.
      apply (f_equal k_crash) in H. apply (f_equal k_g) in H'. unfold kstep in H, H'. rewrite Hcr in H, H'.
      unfold g_signed in H, H'. rewrite Es in H, H'. unfold SignMessage in H, H'.
      destruct (GetParties _ _ _); [|simpl in H'; congruence].
      destruct (forallb _ _); [|simpl in H'; congruence].
      destruct (sj_msgs J); simpl in H, H'; congruence.
    + right. exists KGSend. split; [exact I|]. intros H. destruct (Hg b r eq_refl) as (_ & Hr & _). congruence.
    + left. exists r, e. exact Es.
Qed.
Print Assumptions C48_never_wait_for_each_other.

(** No schedule goes on for ever. *)
Theorem C48_bounded E J ls : busy E J k_init ls -> length ls <= 20.
Proof.
  assert (H : forall ls s, busy E J s ls -> length ls <= measure s).
  { clear ls. induction ls as [|l ls IH]; intros s; simpl; [lia|]. intros [Hne Hb]. apply IH in Hb.
    destruct (kstep_better E J s l) as [He|Hlt]; [contradiction|]. lia. }
  intros Hb. apply H in Hb. exact Hb.
Qed.
Print Assumptions C48_bounded.

(** Whatever has happened, the call can be brought to its end. *)
Theorem C48_always_ends E J ls :
  exists ls', k_crash (krun E J (ls ++ ls')) = true \/ k_result (krun E J (ls ++ ls')) <> None.
Proof.
  remember (measure (krun E J ls)) as n eqn:Hn. revert ls Hn.
  induction n as [n IH] using lt_wf_ind. intros ls Hn.
  destruct (k_crash (krun E J ls)) eqn:Hcr; [exists []; left; rewrite app_nil_r; exact Hcr|].
  assert (Hstep : forall l, kstep E J (krun E J ls) l <> krun E J ls ->
    exists ls', k_crash (krun E J (ls ++ ls')) = true \/ k_result (krun E J (ls ++ ls')) <> None).
  { intros l Hne. destruct (kstep_better E J (krun E J ls) l) as [?|Hlt]; [contradiction|].
    assert (Hr : krun E J (ls ++ [l]) = kstep E J (krun E J ls) l) by (unfold krun; rewrite fold_left_app; reflexivity).
    destruct (IH (measure (krun E J (ls ++ [l]))) ltac:(rewrite Hr; lia) (ls ++ [l]) eq_refl) as [ls' H].
    exists (l :: ls'). rewrite <- app_assoc in H. exact H. }
  destruct (C48_never_wait_for_each_other E J ls Hcr) as [[[w Hw]|(l & _ & Hl)] [(r & e & Hg)|(l' & _ & Hl')]];
    [|exact (Hstep _ Hl')|exact (Hstep _ Hl)|exact (Hstep _ Hl)].
  pose proof (ki_e _ _ _ (krun_inv E J ls)) as He. unfold e_inv in He.
  destruct (k_closed (krun E J ls)) eqn:Hcl.
  - exists []. right. rewrite app_nil_r. destruct He as (_ & _ & _ & _ & _ & resp & err & Hres & _). congruence.
  - exists [KClose]. right. unfold krun in *. rewrite fold_left_app. cbn [fold_left]. unfold kstep at 1. rewrite Hcr.
    unfold k_close. rewrite Hcl, Hw, Hg. unfold finish_keysign.
    destruct (match w with Some received => _ | None => _ end). discriminate.
Qed.
Print Assumptions C48_always_ends.

(** The channel is closed only after both goroutines ended. *)
Theorem C48_closed_after_both E J ls :
  k_closed (krun E J ls) = true -> w_ended (krun E J ls) /\ g_ended (krun E J ls).
Proof. apply closed_ended, (krun_inv E J ls). Qed.
Print Assumptions C48_closed_after_both.

(** ** What the call returns *)

Lemma prepare_inr E pool msgs signers h v J : prepare E pool msgs signers h v = inr J ->
  (exists b, oldJoinParty (sj_version J) = Some b) /\ length (sj_msgs J) = length msgs /\ sj_pool J = pool.
Proof.
  unfold prepare. destruct (requestToMsgId _ _) as [[id|] [ks h' v'|pool' msgs' signers' h' v']] eqn:Hr; try discriminate.
  destruct (se_state E pool) as [st|]; [|discriminate].
  destruct (decode_msgs msgs') as [ps|] eqn:Hd; [|discriminate].
  destruct (oldJoinParty v) as [old|] eqn:Ho; [|discriminate].
  destruct (_ && old)%bool; [discriminate|]. destruct (_ && old)%bool; [discriminate|]. intros [= <-]. simpl.
  split; [exists old; exact Ho|]. split; [|reflexivity].
  rewrite (Permutation_length (sort_msgs_perm ps)).
  assert (Hl : length ps = length msgs').
  { clear -Hd. revert ps Hd. induction msgs' as [|m l IH]; intros ps; simpl; [intros [= <-]; reflexivity|].
    destruct (DecodeString m); [|discriminate]. destruct (decode_msgs l); [|discriminate]. intros [= <-]. simpl.
    f_equal. apply IH. reflexivity. }
  rewrite Hl. simpl in Hr. injection Hr as _ _ <- _ _ _. apply Permutation_length, sort_strings_perm.
Qed.

Lemma result_cases E J ls r e : k_result (krun E J ls) = Some (r, e) ->
  exists w gr ge, k_w (krun E J ls) = WEnd w /\ k_g (krun E J ls) = GEnd gr ge /\
   (r, e) = match w with Some received => (received, GNone)
          | None => match ge with GSignReceived | GNotActive => (empty_resp, GNone) | _ => (gr, ge) end end.
Proof.
  intros Hr. pose proof (ki_e _ _ _ (krun_inv E J ls)) as He. unfold e_inv in He.
  destruct (k_closed (krun E J ls)).
  - destruct He as (w & gr & ge & Hw & Hg & resp & err & Hres & Heq & _). exists w, gr, ge.
    split; [exact Hw|]. split; [exact Hg|]. rewrite Hr in Hres. injection Hres as <- <-. exact Heq.
  - destruct He. congruence.
Qed.

(** ** C98 *)

(** Once the wait ended with a verified list, this list is the answer, whatever the
    node's own attempt came to. *)
Theorem C98_received_signature_wins E J ls w r e :
  k_w (krun E J ls) = WEnd (Some w) -> k_result (krun E J ls) = Some (r, e) ->
  r = w /\ e = GNone /\ exists d, received E J d /\ carries (sj_msgs J) d r.
Proof.
  intros Hw Hr. apply result_cases in Hr as (w' & gr & ge & Hw' & _ & Heq).
  rewrite Hw in Hw'. injection Hw' as <-. injection Heq as -> ->. split; [reflexivity|]. split; [reflexivity|].
  pose proof (ki_w _ _ _ (krun_inv E J ls)) as Hi. unfold w_inv in Hi. rewrite Hw in Hi. exact Hi.
Qed.
Print Assumptions C98_received_signature_wins.

(** The attempt is abandoned because of a signature only when there is one: it is
    the answer. *)
Theorem C98_abandoned_only_for_a_signature E J ls gr r e :
  k_g (krun E J ls) = GEnd gr GSignReceived -> k_result (krun E J ls) = Some (r, e) ->
  exists d, received E J d /\ carries (sj_msgs J) d r.
Proof.
  intros Hg Hr. destruct (ki_c _ _ _ (krun_inv E J ls)) as (_ & _ & _ & Hs).
  destruct (Hs gr Hg) as [w Hw]. apply (C98_received_signature_wins E J ls w r e Hw Hr).
Qed.
Print Assumptions C98_abandoned_only_for_a_signature.

(** The two signals are never mixed up: the join party reads only "signature
    received", the waiting goroutine only "signature generated". *)
Theorem C98_signals_reach_the_other_goroutine E J ls m rest :
  k_chan (krun E J ls) = m :: rest ->
  (k_w (krun E J ls) = WSelect -> m = "signature generated"%string) /\
  ((exists r ld t, k_g (krun E J ls) = GJoin r ld t) -> m = "signature received"%string).
Proof.
  intros Hch. destruct (ki_c _ _ _ (krun_inv E J ls)) as (_ & Hm & _). split.
  - intros Hw. destruct (Hm m) as [[_ [r Hr]]|[-> _]]; [rewrite Hch; left|congruence|reflexivity].
  - intros (r & ld & t & Hg). destruct (Hm m) as [[-> _]|[_ [r' Hr]]]; [rewrite Hch; left|reflexivity|congruence].
Qed.
Print Assumptions C98_signals_reach_the_other_goroutine.

(** ** C99 *)

(** Everything a call can return once the checks passed. *)
Theorem C99_answers E J ls r e :
  oldJoinParty (sj_version J) <> None ->
  k_result (krun E J ls) = Some (r, e) ->
  e = GNone /\
  ((exists d, received E J d /\ carries (sj_msgs J) d r) \/
   (r = Resp [] NA (Blame "" false []) /\ k_w (krun E J ls) = WEnd None /\ k_g (krun E J ls) = GEnd (Resp [] NA (Blame "" false [])) GNotActive) \/
   (k_w (krun E J ls) = WEnd None /\ own_attempt E J (joins (krun E J ls)) (k_bcasts (krun E J ls)) r)).
Proof.
  intros Hv Hr. pose proof (krun_inv E J ls) as H. apply result_cases in Hr as (w & gr & ge & Hw & Hg & Heq).
  pose proof (ki_w _ _ _ H) as Hwi. unfold w_inv in Hwi. rewrite Hw in Hwi.
  pose proof (ki_g _ _ _ H) as Hgi. unfold g_inv in Hgi. rewrite Hg in Hgi.
  destruct w as [w|].
  - injection Heq as -> ->. split; [reflexivity|]. left. exact Hwi.
  - destruct ge.
    + injection Heq as -> ->. split; [reflexivity|]. right. right. split; [exact Hw|exact Hgi].
    + destruct (ki_c _ _ _ H) as (_ & _ & _ & Hs). destruct (Hs gr Hg) as [w' Hw']. congruence.
    + injection Heq as -> ->. split; [reflexivity|]. right. left. destruct Hgi as (_ & -> & _). auto.
    + destruct Hgi as [Hgi _]. contradiction.
Qed.
Print Assumptions C99_answers.

(** In terms of the call: success means signatures from others or own ones for all
    the messages, except in the last case. *)
Theorem C99_keysign_returns E pool msgs signers h v r :
  keysign_returns E pool msgs signers h v r None ->
  exists J, prepare E pool msgs signers h v = inr J /\
  match rp_status r with
  | Success =>
      (exists d, received E J d /\ carries (sj_msgs J) d r) \/
      (exists l, length l = length msgs /\ carries (sj_msgs J) l r) \/
      (r = Resp [] Success (Blame "" false []) /\ exists p k, se_pub E p = Some k /\ peer_of E k = None)
  | Fail => rp_sigs r = []
  | NA => r = Resp [] NA (Blame "" false [])
  end.
Proof.
  intros Hret. inversion Hret as [|J ls r' e Hp Hr]; subst.
  destruct (prepare_inr _ _ _ _ _ _ _ Hp) as ((b & Hb) & Hlen & _).
  exists J. split; [exact Hp|].
  destruct (C99_answers E J ls r e) as (_ & [(d & Hd & Hc)|[(-> & _)|(_ & Ho)]]); [congruence|exact Hr| | |].
  - destruct Hc as (Hs & Hc). rewrite Hs. left. exists d. split; [exact Hd|]. split; assumption.
  - reflexivity.
  - inversion Ho as [l peers r' Hpp Hl Hc|?|?|?|?|p k peers Hpp Hk Hk']; subst; try reflexivity.
    + destruct Hc as (Hs & Hc). rewrite Hs. right. left. exists l. split; [congruence|]. split; assumption.
    + right. right. split; [reflexivity|]. exists p, k. split; [exact Hk|congruence].
Qed.
Print Assumptions C99_keysign_returns.

(** ** C100 *)

(** An error comes from the checks, before anything was sent or counted; a call that
    passed them returns no error. *)
Theorem C100_errors_come_from_the_checks E pool msgs signers h v r e :
  keysign_returns E pool msgs signers h v r (Some e) ->
  prepare E pool msgs signers h v = inl (r, e) /\ rp_status r <> Success /\ rp_sigs r = [].
Proof.
  intros Hret. inversion Hret as [r' e' Hp|J ls r' e' Hp Hr He]; subst.
  - split; [exact Hp|]. unfold prepare in Hp.
    destruct (requestToMsgId _ _) as [[id|] [ks h' v'|pool' msgs' signers' h' v']];
      try (injection Hp as <- _; split; [discriminate|reflexivity]).
    destruct (se_state E pool) as [st|]; [|injection Hp as <- _; split; [discriminate|reflexivity]].
    destruct (decode_msgs msgs') as [ps|]; [|injection Hp as <- _; split; [discriminate|reflexivity]].
    destruct (oldJoinParty v) as [old|]; [|injection Hp as <- _; split; [discriminate|reflexivity]].
    destruct (_ && old)%bool; [injection Hp as <- _; split; [discriminate|reflexivity]|].
    destruct (_ && old)%bool; [injection Hp as <- _; split; [discriminate|reflexivity]|discriminate].
  - destruct (prepare_inr _ _ _ _ _ _ _ Hp) as ((b & Hb) & _).
    destruct (C99_answers E J ls r e') as (-> & _); [congruence|exact Hr|]. discriminate.
Qed.
Print Assumptions C100_errors_come_from_the_checks.

(** ** C101 *)

(** A call broadcasts at most once, to the peers of the whole pool: the signatures
    of its own answer, or a failure when its own attempt has none. *)
Theorem C101_broadcasts E J ls sig peers :
  (sig, peers) ∈ k_bcasts (krun E J ls) ->
  k_bcasts (krun E J ls) = [(sig, peers)] /\ pool_peers E J peers /\
  exists r, k_g (krun E J ls) = GEnd r GNone /\
  match sig with
  | Some l => length l = length (sj_msgs J) /\ carries (sj_msgs J) l r
  | None => rp_sigs r = []
  end.
Proof.
  intros Hin. pose proof (krun_inv E J ls) as H. pose proof (ki_g _ _ _ H) as Hg. unfold g_inv in Hg.
  assert (Hno : k_bcasts (krun E J ls) <> []) by (intros Hn; rewrite Hn in Hin; inversion Hin).
  destruct (k_g (krun E J ls)) as [|r ld t|onl sg|b r|r [| | |]] eqn:Es; try (exfalso; tauto).
  - assert (Hcase : k_bcasts (krun E J ls) = [(sig, peers)] /\ pool_peers E J peers /\
      match sig with Some l => length l = length (sj_msgs J) /\ carries (sj_msgs J) l r | None => rp_sigs r = [] end).
    { inversion Hg as [l ps r' Hp Hl Hc Hj Hb|b ps Hp Hj Hb|b ps Hp Hjb Hj Hb|onl Hx Hj Hb|Hx Hj Hb|p k ps Hp Hk Hk' Hj Hb]; subst;
        rewrite <- Hb in Hin; try (inversion Hin; fail); apply elem_of_list_singleton in Hin; injection Hin as -> ->; auto. }
    destruct Hcase as (H1 & H2 & H3). split; [exact H1|]. split; [exact H2|]. exists r. auto.
Qed.
Print Assumptions C101_broadcasts.

(** ** C102 *)

(** When the party does not form, the answer is a failure and blames: without a
    leader the signers of the request that did not show up, otherwise the leader.
    (The empty answer is that of a node not named as a signer; the last case that of
    a pool with a key that has no peer.) *)
Theorem C102_join_failure_blame E J ls r e :
  none_is_no_peer E -> oldJoinParty (sj_version J) <> None ->
  (forall o, KGJoined o ∈ ls -> oc_err o <> ENone) ->
  k_result (krun E J ls) = Some (r, e) ->
  (forall d, ~ (received E J d /\ carries (sj_msgs J) d r)) ->
  (r = Resp [] NA (Blame "" false []) /\ ~ listed E J) \/ (exists b, r = Resp [] Fail b /\ join_blame E J b) \/
  (r = Resp [] Fail (Blame "fail to start the join party " false []) /\ Exists (fun k => peer_of E k = None) (sj_participants J)).
Proof.
  intros Hn Hv Hno Hr Hrec. destruct (C99_answers E J ls r e Hv Hr) as (_ & [(d & Hd)|[(-> & _ & Hg)|(_ & Ho)]]).
  - destruct (Hrec d Hd).
  - left. split; [reflexivity|]. pose proof (krun_hist E J ls) as Hh. unfold hist in Hh. rewrite Hg in Hh.
    destruct Hh as [_ [[Hl _]|(o & Hin & He & _)]]; [exact Hl|destruct (Hno o Hin He)].
  - right. assert (Hj : true ∉ joins (krun E J ls)).
    { intros Hin. apply result_cases in Hr as (w & gr & ge & Hw & Hg & _).
      pose proof (krun_hist E J ls) as Hh. unfold hist in Hh. rewrite Hg in Hh. destruct ge.
      - destruct (Hh Hin) as (_ & o & onl & Hin' & He & _). exact (Hno o Hin' He).
      - rewrite Hh in Hin. inversion Hin.
      - destruct Hh as [_ [[_ Hj]|(o & Hin' & He & _)]]; [rewrite Hj in Hin; inversion Hin|exact (Hno o Hin' He)].
      - rewrite Hh in Hin. inversion Hin. }
    inversion Ho as [l peers r' Hpp Hl Hc Hjo|b peers Hpp Hjo|b peers Hpp Hb Hjo|onl Hx Hjo|Hx|p k peers Hpp Hk Hk' Hjo]; subst;
      try (rewrite <- Hjo in Hj; destruct Hj; left; fail); [left; eauto|right; auto].
Qed.
Print Assumptions C102_join_failure_blame.

(** ** C103 *)

(** A node's signatures are broadcast only when a party formed that it is in, and,
    before 0.14.0, when the request names it. *)
Theorem C103_signs_only_as_member E J ls l peers :
  (Some l, peers) ∈ k_bcasts (krun E J ls) -> listed E J /\ formed_with E ls.
Proof.
  intros Hin. pose proof (krun_inv E J ls) as H. pose proof (ki_g _ _ _ H) as Hg. unfold g_inv in Hg.
  pose proof (krun_hist E J ls) as Hh. unfold hist in Hh.
  destruct (k_g (krun E J ls)) as [|r ld t|onl sg|b r|r [| | |]] eqn:Es;
    try (exfalso; assert (Hno : k_bcasts (krun E J ls) = []) by tauto; rewrite Hno in Hin; inversion Hin).
  apply Hh. inversion Hg as [l' ps r' Hp Hl Hc Hj Hb|b ps Hp Hj Hb|b ps Hp Hjb Hj Hb|onl Hx Hj Hb|Hx Hj Hb|p k ps Hp Hk Hk' Hj Hb]; subst;
    rewrite <- Hb in Hin; try (inversion Hin; fail); try left; apply elem_of_list_singleton in Hin; discriminate.
Qed.
Print Assumptions C103_signs_only_as_member.

(** The node takes itself for inactive only when the request does not name it, or a
    party formed without it. *)
Theorem C103_inactive_only_as_outsider E J ls r :
  k_g (krun E J ls) = GEnd r GNotActive -> ~ listed E J \/ formed_without E ls.
Proof.
  intros Hg. pose proof (krun_hist E J ls) as Hh. unfold hist in Hh. rewrite Hg in Hh. tauto.
Qed.
Print Assumptions C103_inactive_only_as_outsider.

(** ** C58, the keysign half *)

(** A finished call has been counted once, as a success exactly when that is what it
    answers; forming the party is counted at most once. *)
Theorem C58_keysign_counters E J ls :
  length (joins (krun E J ls)) <= 1 /\
  match k_result (krun E J ls) with
  | Some (r, e) => signs (krun E J ls) = [match rp_status r with Success => true | _ => false end]
  | None => signs (krun E J ls) = []
  end.
Proof.
  pose proof (krun_inv E J ls) as H. split.
  - pose proof (ki_g _ _ _ H) as Hg. unfold g_inv in Hg.
    destruct (k_g (krun E J ls)) as [|? ? ?|? ?|? ?|r [| | |]]; try (destruct Hg as [-> _]; simpl; lia).
    + inversion Hg; simpl; lia.
    + apply Hg.
    + apply Hg.
    + apply Hg.
  - pose proof (ki_e _ _ _ H) as He. unfold e_inv in He. destruct (k_closed (krun E J ls)).
    + destruct He as (w & r & e & _ & _ & resp & err & -> & _ & Hs). exact Hs.
    + destruct He as [-> Hs]. exact Hs.
Qed.
Print Assumptions C58_keysign_counters.

(** The party is counted as formed only when it formed, and as failed only when the
    attempt failed without signatures. *)
Theorem C58_join_counter E J ls :
  (true ∈ joins (krun E J ls) -> exists o, KGJoined o ∈ ls /\ oc_err o = ENone) /\
  (false ∈ joins (krun E J ls) -> exists b, k_g (krun E J ls) = GEnd (Resp [] Fail b) GNone).
Proof.
  pose proof (krun_inv E J ls) as H. pose proof (ki_g _ _ _ H) as Hg. unfold g_inv in Hg.
  pose proof (krun_hist E J ls) as Hh. unfold hist in Hh. split.
  - intros Hin.
    destruct (k_g (krun E J ls)) as [|? ? ?|? ?|? ?|r [| | |]] eqn:Es.
    + destruct Hg as [Hj _]. rewrite Hj in Hin. inversion Hin.
    + destruct Hg as [Hj _]. rewrite Hj in Hin. inversion Hin.
    + destruct Hh as (_ & o1 & onl1 & ? & ? & _). eauto.
    + destruct Hh as (_ & o1 & onl1 & ? & ? & _). eauto.
    + destruct (Hh Hin) as (_ & o1 & onl1 & ? & ? & _). eauto.
    + rewrite Hh in Hin. inversion Hin.
    + destruct Hh as [_ [[_ Hj]|(o1 & ? & ? & _)]]; [rewrite Hj in Hin; inversion Hin|eauto].
    + rewrite Hh in Hin. inversion Hin.
  - intros Hin.
    destruct (k_g (krun E J ls)) as [|? ? ?|? ?|? ?|r [| | |]] eqn:Es.
    + destruct Hg as [Hj _]. rewrite Hj in Hin. inversion Hin.
    + destruct Hg as [Hj _]. rewrite Hj in Hin. inversion Hin.
    + destruct Hg as [Hj _]. rewrite Hj in Hin. apply elem_of_list_singleton in Hin. discriminate.
    + destruct Hg as [Hj _]. rewrite Hj in Hin. apply elem_of_list_singleton in Hin. discriminate.
    + inversion Hg as [l' ps r' Hp Hl Hc Hj Hb|b ps Hp Hj Hb|b ps Hp Hjb Hj Hb|onl Hx Hj Hb|Hx Hj Hb|p k ps Hp Hk Hk' Hj Hb]; subst;
        rewrite <- Hj in Hin; try (apply elem_of_list_singleton in Hin; discriminate); eauto.
    + rewrite Hh in Hin. inversion Hin.
    + destruct Hh as [Hf _]. contradiction.
    + rewrite Hh in Hin. inversion Hin.
Qed.
Print Assumptions C58_join_counter.

(** ** C68 *)

(** A request with a message never crashes the node. *)
Theorem C68_no_crash E pool msgs signers h v J ls :
  msgs <> [] -> prepare E pool msgs signers h v = inr J -> k_crash (krun E J ls) = false.
Proof.
  intros Hm Hp. destruct (k_crash (krun E J ls)) eqn:Hc; [|reflexivity].
  apply (ki_crash _ _ _ (krun_inv E J ls)) in Hc. destruct (prepare_inr _ _ _ _ _ _ _ Hp) as (_ & Hl & _).
  rewrite Hc in Hl. destruct msgs; [contradiction|discriminate].
Qed.
Print Assumptions C68_no_crash.

(** ** A toy world *)

(** Three members; keys are their own bytes, the peer of key X is pX. The key "e" of
    peer "pe" is of another kind: it has no peer. *)
Definition mA : bytes := ["A"%char].
Definition mB : bytes := ["B"%char].
Definition toy_sig (b : bytes) : ecsig := EcSig (Some []) [] b [] [].
Definition toy_state (parts : list string) (self : string) : senv := {|
  se_sha := of_bytes;
  se_key := fun k => Some (to_bytes k);
  se_peer := fun b => if String.eqb (of_bytes b) "e" then None else Some (String "p" (of_bytes b));
  se_pub := fun p => match p with String "p" k => Some k | _ => None end;
  se_self := self;
  se_state := fun pool => if String.eqb pool "pool" then Some (LState parts "a") else None;
  se_n := {|
    ne_point := fun pk => if String.eqb pk "pool" then Some (1%N, 1%N) else None;
    ne_verify := fun _ m r _ => N.eqb (be_val m) r;
    ne_marshal_sig := fun g => Some (sg_R g);
    ne_unmarshal_sig := fun b => Some (toy_sig b);
    ne_marshal := fun m => Some (concat (km_sigs m));
    ne_unmarshal := fun b => Some (KsMsg "id" (map (fun c => [c]) b) true) |} |}.
Definition toy : senv := toy_state ["a"; "b"; "c"]%string "pa"%string.

(** "QQ==" and "Qg==" are A and B. *)
Definition req_msgs : list string := ["QQ=="; "Qg=="]%string.
Definition the_job (E : senv) (msgs signers : list string) (v : string) : sjob :=
  match prepare E "pool" msgs signers 10 v with inr J => J | inl _ => SJob "" "" [] [] 0 "" 0 [] "" end.
Definition J13 : sjob := the_job toy req_msgs ["a"; "b"; "c"]%string "0.13.0"%string.
Definition J14 : sjob := the_job toy req_msgs [] "0.14.0"%string.
Lemma J13_prepared : prepare toy "pool" req_msgs ["a"; "b"; "c"]%string 10 "0.13.0" = inr J13.
Proof. vm_compute. reflexivity. Qed.
Lemma J14_prepared : prepare toy "pool" req_msgs [] 10 "0.14.0" = inr J14.
Proof. vm_compute. reflexivity. Qed.

Definition formed : klabel := KGJoined (Outcome (Some ["pa"; "pb"; "pc"]%string) ENone).
Definition signed : klabel := KGSigned (CEnd [toy_sig mA; toy_sig mB]).
(** The node signs. *)
Definition run_sign : list klabel := [KWStart; KGStart; formed; signed; KGSend; KWTake; KClose].
(** The others are faster. *)
Definition run_received : list klabel :=
  [KWStart; KGStart; KWData [toy_sig mB; toy_sig mA]; KWSend; KGTake; KGJoined (Outcome None ESignReceived); KClose].
(** Nobody is there. *)
Definition run_alone : list klabel :=
  [KGStart; KGJoined (Outcome (Some ["pa"; "pc"]%string) ETimeout); KWStart; KWTimeout; KClose].

Definition full_answer : response := Resp
  [RSig "Qg==" "Qg==" "" ""; RSig "QQ==" "QQ==" "" ""] Success no_blame.
Lemma run_sign_result : k_result (krun toy J13 run_sign) = Some (full_answer, GNone).
Proof. vm_compute. reflexivity. Qed.
Lemma run_received_result : k_result (krun toy J14 run_received) = Some (full_answer, GNone).
Proof. vm_compute. reflexivity. Qed.
Lemma run_alone_result : k_result (krun toy J13 run_alone) = Some (Resp [] Fail (Blame TssSyncFail false [plain "b"]), GNone).
Proof. vm_compute. reflexivity. Qed.

(** ** The signatures answered *)

(** What is broadcast, and answered, are signatures the ceremony produced. *)
Theorem C101_signatures_come_from_the_ceremony E J ls l peers :
  (Some l, peers) ∈ k_bcasts (krun E J ls) ->
  exists endCh rest, KGSigned (CEnd endCh) ∈ ls /\ endCh ≡ₚ l ++ rest.
Proof.
  set (P (ls : list klabel) (l : list ecsig) := exists endCh rest, KGSigned (CEnd endCh) ∈ ls /\ endCh ≡ₚ l ++ rest).
  assert (H : forall ls, (forall l p r, k_g (krun E J ls) = GSend (Some (Some l, p)) r -> P ls l) /\
    (forall l p, (Some l, p) ∈ k_bcasts (krun E J ls) -> P ls l)).
  2: { intros Hin. exact (proj2 (H ls) l peers Hin). }
  clear ls l peers. intros ls. induction ls as [|lab ls IH] using rev_ind.
  { split; [intros; discriminate|intros l p Hin; inversion Hin]. }
  assert (Hmono : forall l, P ls l -> P (ls ++ [lab]) l).
  { intros l (endCh & rest & Hin & Hp). exists endCh, rest. split; [apply elem_of_app; left; exact Hin|exact Hp]. }
  unfold krun in *. rewrite fold_left_app. cbn [fold_left]. set (s := fold_left (kstep E J) ls k_init) in *.
  assert (IH' : (forall l p r, k_g s = GSend (Some (Some l, p)) r -> P (ls ++ [lab]) l) /\
    (forall l p, (Some l, p) ∈ k_bcasts s -> P (ls ++ [lab]) l)).
  { split; intros; apply Hmono; [eapply (proj1 IH)|eapply (proj2 IH)]; eauto. }
  clear IH. destruct IH' as [IHg IHb].
  assert (Hkeep : forall s', k_g s' = k_g s -> k_bcasts s' = k_bcasts s ->
    (forall l p r, k_g s' = GSend (Some (Some l, p)) r -> P (ls ++ [lab]) l) /\
    (forall l p, (Some l, p) ∈ k_bcasts s' -> P (ls ++ [lab]) l)).
  { intros s' -> ->. split; [exact IHg|exact IHb]. }
  assert (Hnone : forall g s', (forall l p r, g <> GSend (Some (Some l, p)) r) -> k_g s' = g ->
    (forall l p, (Some l, p) ∈ k_bcasts s' -> (Some l, p) ∈ k_bcasts s) ->
    (forall l p r, k_g s' = GSend (Some (Some l, p)) r -> P (ls ++ [lab]) l) /\
    (forall l p, (Some l, p) ∈ k_bcasts s' -> P (ls ++ [lab]) l)).
  { intros g s' Hg -> Hb. split; [intros l p r Hx; destruct (Hg _ _ _ Hx)|]. intros l p Hin. exact (IHb l p (Hb l p Hin)). }
  assert (Hf : forall a ld o, (forall l p r, k_g (join_failed E J a ld o s) = GSend (Some (Some l, p)) r -> P (ls ++ [lab]) l) /\
    (forall l p, (Some l, p) ∈ k_bcasts (join_failed E J a ld o s) -> P (ls ++ [lab]) l)).
  { intros a ld o. unfold join_failed. destruct (oc_err o); (eapply Hnone; [|reflexivity|]; [discriminate|]; simpl; auto);
      (intros l p Hin; apply elem_of_app in Hin as [Hin|Hin]; [exact Hin|apply elem_of_list_singleton in Hin; discriminate]). }
  unfold kstep. destruct (k_crash s); [apply Hkeep; reflexivity|].
  destruct lab as [|d| | | | | |o|c| |]; simpl.
  - unfold w_start. destruct (k_w s); try (apply Hkeep; reflexivity). destruct (NewNotifier _ _ _); apply Hkeep; reflexivity.
  - unfold w_data. destruct (k_w s); try (apply Hkeep; reflexivity). destruct (ProcessSignature _ _ _); try (apply Hkeep; reflexivity).
    destruct (Nat.eqb _ _); [apply Hkeep; reflexivity|]. destruct (batch J d); apply Hkeep; reflexivity.
  - unfold w_timeout. destruct (k_w s); apply Hkeep; reflexivity.
  - unfold w_take. destruct (k_w s); try (apply Hkeep; reflexivity). destruct (k_chan s); apply Hkeep; reflexivity.
  - unfold w_send. destruct (k_w s); try (apply Hkeep; reflexivity). unfold send.
    destruct (k_closed s); [apply Hkeep; reflexivity|]. destruct (Nat.ltb _ _); apply Hkeep; reflexivity.
  - unfold g_start. destruct (k_g s) eqn:Eg; try (apply Hkeep; [exact Eg|reflexivity]).
    destruct (GetPeerIDsFromPubKeys _ _); [|eapply Hnone; [|reflexivity|]; [discriminate|auto]].
    destruct (oldJoinParty _) as [[]|]; [| |eapply Hnone; [|reflexivity|]; [discriminate|auto]].
    + destruct (se_pub E (se_self E)); [|eapply Hnone; [|reflexivity|]; [discriminate|auto]].
      destruct (existsb _ _); [|eapply Hnone; [|reflexivity|]; [discriminate|auto]].
      destruct (joinParty _ _ _); [apply Hf|eapply Hnone; [|reflexivity|]; [discriminate|auto]|].
      destruct (join_role _ _ _) as [? [?|]]; [eapply Hnone; [|reflexivity|]; [discriminate|auto]|apply Hf].
    + destruct (joinParty _ _ _); [apply Hf|eapply Hnone; [|reflexivity|]; [discriminate|auto]|].
      destruct (join_role _ _ _) as [? [?|]]; [eapply Hnone; [|reflexivity|]; [discriminate|auto]|apply Hf].
  - unfold g_take. destruct (k_g s) as [|r0 ld0 tk0| | |] eqn:Eg; try (apply Hkeep; [exact Eg|reflexivity]).
    destruct r0, (k_chan s); try (apply Hkeep; [exact Eg|reflexivity]); try (eapply Hnone; [|reflexivity|]; [discriminate|auto]).
    destruct tk0; [apply Hkeep; [exact Eg|reflexivity]|eapply Hnone; [|reflexivity|]; [discriminate|auto]].
  - unfold g_joined. destruct (k_g s) as [|r0 ld0 tk0| | |] eqn:Eg; try (apply Hkeep; [exact Eg|reflexivity]).
    destruct (join_possible _ _ _); [|apply Hkeep; [exact Eg|reflexivity]].
    destruct (oc_err o); try apply Hf. destruct (existsb _ _); [|eapply Hnone; [|reflexivity|]; [discriminate|auto]].
    destruct (GetPeerIDsFromPubKeys _ _); (eapply Hnone; [|reflexivity|]; [discriminate|auto]).
  - unfold g_signed. destruct (k_g s) as [| |onl sg| |] eqn:Eg; try (apply Hkeep; [exact Eg|reflexivity]).
    destruct (SignMessage E J sg c) as [[b| |l|]|] eqn:Hsm; try (eapply Hnone; [|reflexivity|]; [discriminate|auto; fail]);
      try (apply Hkeep; [exact Eg|reflexivity]).
    destruct (batch J l); [|apply Hkeep; [exact Eg|reflexivity]]. split; [|exact IHb].
    cbn [k_g set_g]. intros l' p r' [= <- _ _].
    unfold SignMessage in Hsm. destruct (GetParties _ _ _); [|discriminate]. destruct (forallb _ _); [|discriminate].
    destruct (sj_msgs J) as [|m0 ms]; [discriminate|]. destruct c as [|endCh]; [discriminate|].
    destruct (collect _ [] endCh) as [l0|] eqn:Hc; [|discriminate]. injection Hsm as <-.
    apply collect_prefix in Hc as [rest Hr]. exists endCh, rest. split.
    + apply elem_of_app. right. left.
    + simpl in Hr. rewrite Hr, sort_sigs_perm. reflexivity.
  - unfold g_send. destruct (k_g s) as [| | |b r0|] eqn:Eg; try (apply Hkeep; [exact Eg|reflexivity]).
    unfold send. destruct (k_closed s); [apply Hkeep; [exact Eg|reflexivity]|].
    destruct (Nat.ltb _ _); [|apply Hkeep; [exact Eg|reflexivity]]. split; [discriminate|]. simpl. intros l p Hin.
    apply elem_of_app in Hin as [Hin|Hin]; [exact (IHb l p Hin)|].
    destruct b as [[[l0|] p0]|]; [|apply elem_of_list_singleton in Hin; discriminate|inversion Hin].
    apply elem_of_list_singleton in Hin. injection Hin as -> ->. exact (IHg _ _ _ eq_refl).
  - unfold k_close, finish_keysign. destruct (k_closed s); [apply Hkeep; reflexivity|]. destruct (k_w s); try (apply Hkeep; reflexivity).
    destruct (k_g s) eqn:Eg; try (apply Hkeep; [exact Eg|reflexivity]).
    destruct (match r with Some received => _ | None => _ end). apply Hkeep; [first [exact Eg|reflexivity]|reflexivity].
Qed.
Print Assumptions C101_signatures_come_from_the_ceremony.

(** Every signature answered is for a message of the request. *)
Theorem C99_answers_the_request E pool msgs signers h v r x :
  keysign_returns E pool msgs signers h v r None -> x ∈ rp_sigs r ->
  exists q m, q ∈ msgs /\ DecodeString q = Some m /\ rs_msg x = EncodeToString m.
Proof.
  intros Hret Hx. inversion Hret as [|J ls r' e Hp Hr]; subst.
  destruct (prepare_inr _ _ _ _ _ _ _ Hp) as ((b & Hb) & _).
  assert (Hmsg : forall d, carries (sj_msgs J) d r -> exists m, m ∈ sj_msgs J /\ rs_msg x = EncodeToString m).
  { intros d (_ & _ & _ & Hc). apply elem_of_list_lookup in Hx as [k Hk].
    destruct (Hc k x Hk) as (m & g & Hm & _ & ->). exists m. split; [apply (elem_of_list_lookup_2 _ _ _ Hm)|reflexivity]. }
  assert (Hm : exists m, m ∈ sj_msgs J /\ rs_msg x = EncodeToString m).
  { destruct (C99_answers E J ls r e) as (_ & [(d & _ & Hc)|[(-> & _)|(_ & Ho)]]); [congruence|exact Hr| | |].
    - apply (Hmsg d Hc).
    - inversion Hx.
    - inversion Ho as [l peers r' Hpp Hl Hc|?|?|?|?|p k peers Hpp Hk Hk']; subst; try (inversion Hx; fail). apply (Hmsg l Hc). }
  destruct Hm as (m & Hm & Hxm). clear -Hp Hm Hxm.
  unfold prepare in Hp.
  destruct (requestToMsgId _ _) as [[id|] [ks h' v'|pool' msgs' signers' h' v']] eqn:Hr; try discriminate.
  destruct (se_state E pool) as [st|]; [|discriminate].
  destruct (decode_msgs msgs') as [ps|] eqn:Hd; [|discriminate].
  destruct (oldJoinParty v) as [old|] eqn:Ho; [|discriminate].
  destruct (_ && old)%bool; [discriminate|]. destruct (_ && old)%bool; [discriminate|]. injection Hp as <-. simpl in Hm.
  rewrite (sort_msgs_perm ps) in Hm.
  assert (Hq : exists q, q ∈ msgs' /\ DecodeString q = Some m).
  { clear -Hd Hm. revert ps Hd Hm. induction msgs' as [|q l IH]; intros ps; simpl; [intros [= <-] Hm; inversion Hm|].
    destruct (DecodeString q) as [m'|] eqn:Hq; [|discriminate]. destruct (decode_msgs l) as [ps'|]; [|discriminate].
    intros [= <-] Hm. apply elem_of_cons in Hm as [->|Hm].
    - exists q. split; [left|exact Hq].
    - destruct (IH ps' eq_refl Hm) as (q' & Hin & Hq'). exists q'. split; [right; exact Hin|exact Hq']. }
  destruct Hq as (q & Hin & Hq). exists q, m. split; [|auto].
  simpl in Hr. injection Hr as _ _ <- _ _ _. rewrite (sort_strings_perm msgs) in Hin. exact Hin.
Qed.
Print Assumptions C99_answers_the_request.

(** ** Examples: the hypotheses above are met *)

(** C48: both sends happen, with the other goroutine's message still in the channel. *)
Example C48_sends_example :
  let s := krun toy J13 [KWStart; KGStart; formed; signed; KWData [toy_sig mB; toy_sig mA]; KWSend] in
  k_crash s = false /\ (exists b r, k_g s = GSend b r) /\ k_chan s = [sig_received].
Proof. vm_compute. eauto. Qed.
Example C48_bounded_example : busy toy J13 k_init run_sign /\ busy toy J14 k_init run_received.
Proof. vm_compute. repeat split; discriminate. Qed.
Example C48_closed_example : k_closed (krun toy J13 run_sign) = true.
Proof. vm_compute. reflexivity. Qed.

(** C98: a member gave up because of the signature received. *)
Example C98_example :
  k_w (krun toy J14 run_received) = WEnd (Some full_answer) /\
  k_g (krun toy J14 run_received) = GEnd empty_resp GSignReceived /\
  k_result (krun toy J14 run_received) = Some (full_answer, GNone).
Proof. vm_compute. auto. Qed.
Example C98_signals_example :
  let s := krun toy J14 [KWStart; KGStart; KWData [toy_sig mB; toy_sig mA]; KWSend] in
  let t := krun toy J13 [KWStart; KGStart; formed; signed; KGSend] in
  k_chan s = [sig_received] /\ (exists r ld t, k_g s = GJoin r ld t) /\ k_chan t = [sig_generated] /\ k_w t = WSelect.
Proof. vm_compute. eauto 10. Qed.

(** C99, C100 *)
Example C99_example :
  keysign_returns toy "pool" req_msgs ["a"; "b"; "c"]%string 10 "0.13.0" full_answer None /\
  keysign_returns toy "pool" req_msgs [] 10 "0.14.0" full_answer None /\
  keysign_returns toy "pool" req_msgs ["a"; "b"; "c"]%string 10 "0.13.0" (Resp [] Fail (Blame TssSyncFail false [plain "b"])) None.
Proof.
  split; [|split].
  - exact (ks_ended _ _ _ _ _ _ _ _ _ _ J13_prepared run_sign_result).
  - exact (ks_ended _ _ _ _ _ _ _ _ _ _ J14_prepared run_received_result).
  - exact (ks_ended _ _ _ _ _ _ _ _ _ _ J13_prepared run_alone_result).
Qed.
Example C99_version_example : oldJoinParty (sj_version J13) <> None /\ oldJoinParty (sj_version J14) <> None.
Proof. vm_compute. split; discriminate. Qed.
Example C100_example :
  keysign_returns toy "pool" req_msgs ["a"]%string 10 "0.13.0" empty_resp (Some "not enough signers"%string) /\
  keysign_returns toy "pool" req_msgs ["a"]%string 10 "x" internal_fail (Some "fail to parse the version"%string).
Proof. split; apply ks_refused; vm_compute; reflexivity. Qed.

(** C101 *)
Example C101_example :
  k_bcasts (krun toy J13 run_sign) = [(Some [toy_sig mB; toy_sig mA], ["pa"; "pb"; "pc"]%string)] /\
  k_bcasts (krun toy J13 run_alone) = [(None, ["pa"; "pb"; "pc"]%string)].
Proof. vm_compute. auto. Qed.

(** C102 *)
Example C102_example :
  none_is_no_peer toy /\ (forall o, KGJoined o ∈ run_alone -> oc_err o <> ENone) /\
  (exists r, k_result (krun toy J13 run_alone) = Some (r, GNone) /\ forall d, ~ (received toy J13 d /\ carries (sj_msgs J13) d r)).
Proof.
  split; [|split].
  - intros b. unfold toy, toy_state. cbn [se_peer]. destruct (String.eqb _ _); [discriminate|]. intros [= H].
  - intros o Ho. unfold run_alone in Ho. repeat (apply elem_of_cons in Ho as [Ho|Ho]; [try discriminate|]); [|inversion Ho].
    injection Ho as ->. discriminate.
  - eexists. split; [exact run_alone_result|]. intros d [_ (H & _)]. discriminate.
Qed.

(** C103 *)
Example C103_example :
  k_bcasts (krun toy J13 run_sign) = [(Some [toy_sig mB; toy_sig mA], ["pa"; "pb"; "pc"]%string)] /\
  k_g (krun toy J14 [KGStart; KGJoined (Outcome (Some ["pb"; "pc"]%string) ENone)]) = GEnd empty_resp GNotActive.
Proof. vm_compute. auto. Qed.

(** C58 *)
Example C58_keysign_example :
  signs (krun toy J13 run_sign) = [true] /\ joins (krun toy J13 run_sign) = [true] /\
  signs (krun toy J13 run_alone) = [false] /\ joins (krun toy J13 run_alone) = [false].
Proof. vm_compute. auto. Qed.

(** ** What is not so *)

(** C49: a call without error reports neither success nor failure: a node that is not
    among the signers and gets no signature. *)
Theorem C49_no_status_refuted :
  exists E pool msgs signers h v r, keysign_returns E pool msgs signers h v r None /\ rp_status r = NA.
Proof.
  exists toy, "pool"%string, req_msgs, ["b"; "c"]%string, 10%Z, "0.13.0"%string, empty_resp. split; [|reflexivity].
  exact (ks_ended toy "pool" req_msgs ["b"; "c"]%string 10 "0.13.0" (the_job toy req_msgs ["b"; "c"]%string "0.13.0")
    [KGStart; KWStart; KWTimeout; KClose] empty_resp GNone ltac:(vm_compute; reflexivity) ltac:(vm_compute; reflexivity)).
Qed.
Print Assumptions C49_no_status_refuted.

(** C49: success with a signature for only one of the two messages: the list received
    may be shorter than the messages. *)
Theorem C49_missing_signature_refuted :
  exists E pool msgs signers h v r, keysign_returns E pool msgs signers h v r None /\
    rp_status r = Success /\ length (rp_sigs r) < length msgs.
Proof.
  exists toy, "pool"%string, req_msgs, ["a"; "b"; "c"]%string, 10%Z, "0.13.0"%string, (Resp [RSig "Qg==" "Qg==" "" ""] Success no_blame).
  split; [|simpl; auto].
  exact (ks_ended toy "pool" req_msgs ["a"; "b"; "c"]%string 10 "0.13.0" J13
    [KGStart; KWStart; KWData [toy_sig mB]; KWSend; KGJoined (Outcome (Some []) ETimeout); KClose]
    (Resp [RSig "Qg==" "Qg==" "" ""] Success no_blame) GNone ltac:(vm_compute; reflexivity) ltac:(vm_compute; reflexivity)).
Qed.
Print Assumptions C49_missing_signature_refuted.

(** C49: success with no signature at all: a peer of the party has a key of another
    kind, for which SetupIDMaps fails; SignMessage then returns a nil error. *)
Theorem C49_no_signature_refuted :
  exists E pool msgs signers h v r, keysign_returns E pool msgs signers h v r None /\
    rp_status r = Success /\ rp_sigs r = [] /\ msgs <> [].
Proof.
  exists toy, "pool"%string, req_msgs, ["a"; "b"; "c"]%string, 10%Z, "0.13.0"%string, (Resp [] Success no_blame).
  split; [|auto].
  exact (ks_ended toy "pool" req_msgs ["a"; "b"; "c"]%string 10 "0.13.0" J13
    [KGStart; KWStart; KGJoined (Outcome (Some ["pa"; "pb"; "pe"]%string) ENone); KGSigned (CFail no_blame); KGSend; KWTake; KClose]
    (Resp [] Success no_blame) GNone ltac:(vm_compute; reflexivity) ltac:(vm_compute; reflexivity)).
Qed.
Print Assumptions C49_no_signature_refuted.

(** C68: a request without messages crashes the node. *)
Theorem C68_no_messages_refuted :
  exists E pool signers h v J ls, prepare E pool [] signers h v = inr J /\ k_crash (krun E J ls) = true.
Proof.
  exists toy, "pool"%string, ["a"; "b"; "c"]%string, 10%Z, "0.13.0"%string, (the_job toy [] ["a"; "b"; "c"]%string "0.13.0"),
    [KGStart; formed; KGSigned (CFail no_blame)].
  split; vm_compute; reflexivity.
Qed.
Print Assumptions C68_no_messages_refuted.
Example C68_example : req_msgs <> [] /\ prepare toy "pool" req_msgs ["a"; "b"; "c"]%string 10 "0.13.0" = inr J13.
Proof. split; [discriminate|exact J13_prepared]. Qed.
