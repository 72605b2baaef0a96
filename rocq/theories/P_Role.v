(** C177, C178: who leads the party of a signing request; what a join party returns once the
    node was told of a signature. *)
From Coq Require Import ZArith NArith Ascii String List Lia.
From stdpp Require Import base list strings gmap.
From Verif Require Import Base L_Base M_Base64 M_Conv S_Conv L_Conv M_Semver S_Semver M_Server M_Batch M_Notifier M_Join S_Join
  L_Join L_Join2 L_Join3 P_Join M_Common M_KeySign S_KeySign L_KeySign P_Semver P_KeySign P_Accept S_Role.

(** ** C177 *)
Lemma prepare_id E pool msgs signers h v J : prepare E pool msgs signers h v = inr J ->
  sj_id J = se_sha E (material (KeysignReq pool msgs signers h v)) /\ sj_height J = h.
Proof.
  unfold prepare. intros Hp.
  destruct (requestToMsgId _ _) as [[id|] [ks h' v'|pool' msgs' signers' h' v']] eqn:Hr; try discriminate.
  assert (Hid : fst (requestToMsgId (se_sha E) (KeysignReq pool msgs signers h v)) = Some id) by (rewrite Hr; reflexivity).
  apply requestToMsgId_material in Hid.
  destruct (se_state E pool) as [st|]; [|discriminate]. destruct (decode_msgs msgs') as [ps|]; [|discriminate].
  destruct (oldJoinParty v) as [old|]; [|discriminate].
  destruct (_ && old)%bool; [discriminate|]. destruct (_ && old)%bool; [discriminate|].
  injection Hp as <-. cbn. auto.
Qed.

(** What g_start chooses. *)
Definition chosen (E : senv) (J : sjob) (r : role) : Prop :=
  (oldJoinParty (sj_version J) = Some true /\ exists ps, peers_are E (sj_signers J) ps /\ r = RLeaderless ps) \/
  (oldJoinParty (sj_version J) = Some false /\ exists ps leader, peers_are E (sj_participants J) ps /\
     smallest_ticket (se_sha E) (sj_id J) (sj_height J) ps leader /\
     (se_self E = leader -> r = RLeader ps) /\ (se_self E <> leader -> r = RMember leader)).

Lemma start_chosen E J s r ld tk : k_g s = GNew -> k_g (g_start E J s) = GJoin r ld tk -> chosen E J r.
Proof.
  intros Hs Hg. unfold g_start in Hg. rewrite Hs in Hg.
  assert (Hf : forall a l o, k_g (join_failed E J a l o s) <> GJoin r ld tk).
  { intros a l o. unfold join_failed. destruct (oc_err o); discriminate. }
  destruct (GetPeerIDsFromPubKeys _ _); [|discriminate].
  destruct (C10_version_gate (sj_version J)) as (Ht & Hfa & _).
  assert (Hjoin : forall keys,
    k_g (match joinParty (peer_of E) (sj_version J) keys with
         | JoinErr leader => join_failed E J l leader (Outcome None EInvalid) s
         | JoinLeaderless peers => set_g (GJoin (RLeaderless peers) "NONE" false) s
         | JoinLeader peers =>
             match join_role E J peers with
             | (leader, Some r) => set_g (GJoin r leader false) s
             | (leader, None) => join_failed E J l leader (Outcome None EInvalid) s
             end
         end) = GJoin r ld tk ->
    (oldJoinParty (sj_version J) = Some true /\ exists ps, peers_are E keys ps /\ r = RLeaderless ps) \/
    (oldJoinParty (sj_version J) = Some false /\ exists ps leader, peers_are E keys ps /\
       smallest_ticket (se_sha E) (sj_id J) (sj_height J) ps leader /\
       (se_self E = leader -> r = RLeader ps) /\ (se_self E <> leader -> r = RMember leader))).
  { clear Hg. intros keys H. pose proof (C10_join_party (peer_of E) (sj_version J) keys) as Hp.
    destruct (joinParty (peer_of E) (sj_version J) keys) as [e|ps|ps]; [destruct (Hf _ _ _ H)| |].
    - destruct Hp as [Hv Hps]. left. split; [apply Ht, Hv|]. exists ps. split; [exact Hps|].
      injection H as <- _ _. reflexivity.
    - destruct Hp as (Hv & _ & Hps). right. split; [apply Hfa, Hv|]. unfold join_role in H.
      destruct (LeaderNode _ _ _ _) as [leader|] eqn:Hl; [|destruct (Hf _ _ _ H)].
      apply LeaderNode_smallest in Hl. exists ps, leader. split; [exact Hps|]. split; [exact Hl|].
      injection H as <- _ _. destruct (String.eqb_spec (se_self E) leader); split; intros; congruence. }
  destruct (oldJoinParty (sj_version J)) as [[]|] eqn:Ho; [| |discriminate].
  - destruct (se_pub E (se_self E)); [|discriminate]. destruct (existsb _ _); [|discriminate].
    destruct (Hjoin _ Hg) as [H|[H _]]; [left; rewrite Ho; exact H|discriminate].
  - destruct (Hjoin _ Hg) as [[H _]|H]; [discriminate|right; rewrite Ho; exact H].
Qed.

Lemma forming_step E J s l r ld tk : k_g (kstep E J s l) = GJoin r ld tk ->
  (exists tk', k_g s = GJoin r ld tk') \/ chosen E J r.
Proof.
  unfold kstep. destruct (k_crash s); [eauto|].
  assert (Hf : forall a x o, k_g (join_failed E J a x o s) <> GJoin r ld tk).
  { intros a x o. unfold join_failed. destruct (oc_err o); discriminate. }
  destruct l as [|d| | | | | |o|c| |]; intros Hg.
  - unfold w_start in Hg. destruct (k_w s); try (left; eauto; fail). destruct (NewNotifier _ _ _); left; eauto.
  - unfold w_data in Hg. destruct (k_w s); try (left; eauto; fail). destruct (ProcessSignature _ _ _); try (left; eauto; fail).
    destruct (Nat.eqb _ _); [left; eauto|]. destruct (batch J d); left; eauto.
  - unfold w_timeout in Hg. destruct (k_w s); left; eauto.
  - unfold w_take in Hg. destruct (k_w s); try (left; eauto; fail). destruct (k_chan s); left; eauto.
  - unfold w_send in Hg. destruct (k_w s); try (left; eauto; fail). unfold send in Hg.
    destruct (k_closed s); [left; eauto|]. destruct (Nat.ltb _ _); left; eauto.
  - destruct (k_g s) eqn:Eg; [right; eapply start_chosen; eauto|..]; unfold g_start in Hg; rewrite Eg in Hg; left; rewrite <- Eg; eauto.
  - unfold g_take in Hg. destruct (k_g s) as [|r0 ld0 tk0| | |] eqn:Eg; try (left; rewrite <- Eg; eauto; fail).
    destruct r0, (k_chan s); try (left; rewrite <- Eg; eauto; fail).
    + cbn in Hg. injection Hg as <- <- _. left. eauto.
    + destruct tk0; [left; rewrite <- Eg; eauto|]. cbn in Hg. injection Hg as <- <- _. left. eauto.
  - unfold g_joined in Hg. destruct (k_g s) as [|r0 ld0 tk0| | |] eqn:Eg; try (left; rewrite <- Eg; eauto; fail).
    destruct (join_possible _ _ _); [|left; rewrite <- Eg; eauto].
    destruct (oc_err o); try (destruct (Hf _ _ _ Hg); fail). destruct (existsb _ _); [|discriminate].
    destruct (GetPeerIDsFromPubKeys _ _); discriminate.
  - unfold g_signed in Hg. destruct (k_g s) as [| |onl sg| |] eqn:Eg; try (left; rewrite <- Eg; eauto; fail).
    destruct (SignMessage E J sg c) as [[b| |x|]|]; try discriminate; try (cbn in Hg; congruence).
    destruct (batch J x); cbn in Hg; congruence.
  - unfold g_send in Hg. destruct (k_g s) as [| | |b r0|] eqn:Eg; try (left; rewrite <- Eg; eauto; fail).
    unfold send in Hg. destruct (k_closed s); [cbn in Hg; congruence|]. destruct (Nat.ltb _ _); [discriminate|congruence].
  - unfold k_close, finish_keysign in Hg. destruct (k_closed s); [left; eauto|]. destruct (k_w s); try (left; eauto; fail).
    destruct (k_g s) as [| | | |gr ge] eqn:Eg; try (left; rewrite <- Eg; eauto; fail).
    match type of Hg with context [let '(_, _) := ?x in _] => destruct x end. cbn in Hg. congruence.
Qed.

Lemma forming_chosen E J ls r : forming E J ls r -> chosen E J r.
Proof.
  unfold forming, krun. induction ls as [|l ls IH] using rev_ind; intros (ld & tk & Hg); [discriminate|].
  rewrite fold_left_app in Hg. cbn [fold_left] in Hg. apply forming_step in Hg as [[tk' Hg]|H]; [|exact H].
  apply IH. eauto.
Qed.

(** The role in which a node forms the party of its request. Before version 0.14.0 there is no
    leader and the party is to consist of the signers of the request. From 0.14.0 on the leader
    is the member of the pool with the smallest ticket, for the hash of the request and its
    block height: that node leads, and all others follow it. *)
Theorem C177_role E pool msgs signers h v J ls r :
  prepare E pool msgs signers h v = inr J -> forming E J ls r ->
  exists st w, se_state E pool = Some st /\ is_version v w /\
    (before_0_14_0 w -> exists keys ps, keys ≡ₚ signers /\ peers_are E keys ps /\ r = RLeaderless ps) /\
    (~ before_0_14_0 w -> exists ps leader, peers_are E (ls_participants st) ps /\
       smallest_ticket (se_sha E) (se_sha E (material (KeysignReq pool msgs signers h v))) h ps leader /\
       (se_self E = leader -> r = RLeader ps) /\ (se_self E <> leader -> r = RMember leader)).
Proof.
  intros Hp Hf. apply forming_chosen in Hf.
  destruct (prepare_job _ _ _ _ _ _ _ Hp) as (st & Hst & Hpart & _ & Hv & Hsig & _).
  destruct (prepare_id _ _ _ _ _ _ _ Hp) as [Hid Hh].
  destruct (C10_version_gate v) as (Ht & Hfa & _).
  destruct Hf as [(Ho & ps & Hps & Hr)|(Ho & ps & leader & Hps & Hsm & H1 & H2)]; rewrite Hv in Ho.
  - apply Ht in Ho as (w & Hw & Hb). exists st, w. split; [exact Hst|]. split; [exact Hw|]. split; [eauto|contradiction].
  - apply Hfa in Ho as (w & Hw & Hb). exists st, w. split; [exact Hst|]. split; [exact Hw|]. split; [contradiction|].
    intros _. exists ps, leader. rewrite <- Hpart, <- Hid, <- Hh. auto.
Qed.
Print Assumptions C177_role.

Lemma peers_are_in E keys ps p : peers_are E keys ps -> p ∈ ps <-> exists k, k ∈ keys /\ peer_of E k = Some p.
Proof.
  intros H. induction H as [|k q keys ps Hk H IH]; [split; [intros Hp; inversion Hp|intros (k & Hk & _); inversion Hk]|].
  rewrite elem_of_cons, IH. split.
  - intros [->|(k' & Hin & Hp)]; [exists k; split; [left|exact Hk]|exists k'; split; [right; exact Hin|exact Hp]].
  - intros (k' & Hin & Hp). apply elem_of_cons in Hin as [->|Hin]; [left; congruence|right; eauto].
Qed.

(** Two nodes with the same request, up to the order of its lists, and the same members of
    the pool agree on the leader: there is one node such that each of the two leads if it is
    this node, and follows it otherwise. *)
Theorem C177_one_leader E1 E2 pool m1 m2 s1 s2 h v w J1 J2 ls1 ls2 r1 r2 st1 st2 :
  same_naming E1 E2 -> m1 ≡ₚ m2 -> s1 ≡ₚ s2 -> is_version v w -> ~ before_0_14_0 w ->
  prepare E1 pool m1 s1 h v = inr J1 -> prepare E2 pool m2 s2 h v = inr J2 ->
  se_state E1 pool = Some st1 -> se_state E2 pool = Some st2 ->
  (forall k, k ∈ ls_participants st1 <-> k ∈ ls_participants st2) ->
  (forall ps, peers_are E1 (ls_participants st1) ps ->
     no_ticket_collision (se_sha E1) (se_sha E1 (material (KeysignReq pool m1 s1 h v))) h ps) ->
  forming E1 J1 ls1 r1 -> forming E2 J2 ls2 r2 ->
  exists leader, plays (se_self E1) leader r1 /\ plays (se_self E2) leader r2.
Proof.
  intros [Hsha Hpeer] Hm Hs Hw Hnb Hp1 Hp2 Hst1 Hst2 Hsame Hcol Hf1 Hf2.
  destruct (C177_role _ _ _ _ _ _ _ _ _ Hp1 Hf1) as (st1' & w1 & Hst1' & Hw1 & _ & H1).
  destruct (C177_role _ _ _ _ _ _ _ _ _ Hp2 Hf2) as (st2' & w2 & Hst2' & Hw2 & _ & H2).
  rewrite Hst1 in Hst1'. injection Hst1' as <-. rewrite Hst2 in Hst2'. injection Hst2' as <-.
  rewrite (C10_version_unique _ _ _ Hw1 Hw) in H1. rewrite (C10_version_unique _ _ _ Hw2 Hw) in H2.
  destruct (H1 Hnb) as (ps1 & l1 & Hps1 & Hl1 & Ha1 & Hb1). destruct (H2 Hnb) as (ps2 & l2 & Hps2 & Hl2 & Ha2 & Hb2).
  assert (Hmat : material (KeysignReq pool m1 s1 h v) = material (KeysignReq pool m2 s2 h v)).
  { unfold material. rewrite (sort_strings_eq m1 m2 Hm), (sort_strings_eq s1 s2 Hs). reflexivity. }
  assert (l1 = l2) as <-.
  { rewrite <- Hsha, <- Hmat in Hl2. eapply smallest_ticket_unique; [|exact (Hcol _ Hps1)|exact Hl1|exact Hl2].
    intros p. rewrite (peers_are_in _ _ _ p Hps1), (peers_are_in _ _ _ p Hps2).
    split; intros (k & Hk & Hkp); exists k; (split; [apply Hsame, Hk|]); [rewrite <- Hpeer|rewrite Hpeer]; exact Hkp. }
  exists l1. split.
  - destruct (decide (se_self E1 = l1)) as [He|He]; [left; split; [exact He|]; eauto|right; auto].
  - destruct (decide (se_self E2 = l1)) as [He|He]; [left; split; [exact He|]; eauto|right; auto].
Qed.
Print Assumptions C177_one_leader.

(** ** C178 *)
Section member.
  Context (sha : bytes -> string) (peerDecode : string -> option string) (me : string).
  Notation run := (jrun sha peerDecode me).
  Notation step := (jstep sha peerDecode me).
  Notation sig := "signature received"%string.

  Definition msig (c : jcall) : Prop :=
    match jc_role c, jc_stage c with
    | RMember _, (JChecked | JIds _) => jc_notified c <> sig
    | RMember _, JDone o =>
        (oc_err o = ESignReceived -> jc_notified c = sig) /\
        (jc_notified c = sig -> oc_peers o = None /\ (oc_err o = ESignReceived \/ oc_err o = ELeaderNotReady))
    | _, _ => True
    end.

  Lemma msig_step l s j c' : (forall k c, j_calls s !! k = Some c -> msig c) -> j_calls (step l s) !! j = Some c' -> msig c'.
  Proof.
    intros H.
    assert (T : j_calls s !! j = Some c' -> msig c') by (intros; eauto).
    assert (U : forall k ck', <[k := ck']> (j_calls s) !! j = Some c' -> msig ck' -> msig c').
    { intros k ck' Hc' Hck. destruct (decide (k = j)) as [->|]; [|rewrite lookup_insert_ne in Hc' by congruence; auto].
      rewrite lookup_insert in Hc'. injection Hc' as <-. exact Hck. }
    destruct l as [j' id h ps t|j' id ps|j' x|h p m|h|j'|j'|j'|j' ord]; cbn [jstep]; intros Hc.
    - destruct (j_calls s !! j') eqn:Ec; [auto|].
      unfold JoinPartyWithLeader, start in Hc. destruct (LeaderNode _ _ _ _);
        [case_decide; destruct (getPeerIDs _ _)|]; cbn in Hc; (eapply U; [exact Hc|]); cbn; try exact Logic.I; split; discriminate.
    - destruct (j_calls s !! j') eqn:Ec; [auto|].
      unfold JoinPartyWithRetry, start in Hc. destruct (getPeerIDs _ _); cbn in Hc; (eapply U; [exact Hc|]); exact Logic.I.
    - destruct (j_calls s !! j') as [c0|] eqn:Ec; [|auto]. cbn in Hc. eapply U; [exact Hc|]. exact (H _ _ Ec).
    - destruct (j_handlers s !! h); [auto|]. case_decide; [auto|]. unfold dispatch in Hc.
      destruct m as [i|lm]; [|case_decide; [|case_decide; [|auto]]];
        match type of Hc with context [match j_index s !! ?i with _ => _ end] =>
          destruct (j_index s !! i) as [k|]; [|auto]; destruct (j_groups s !! k); cbn in Hc; auto end.
    - unfold handle in Hc. destruct (j_handlers s !! h) as [[k p old|k p lm|k|k]|]; [..|auto];
        (destruct (j_groups s !! k) as [g0|] eqn:Ek; [|auto]).
      + destruct (updatePeer p g0) as [g' [[|]|]]; cbn in Hc; auto.
      + case_decide; cbn in Hc; auto.
      + destruct (Nat.ltb _ _); cbn in Hc; auto.
      + destruct (Nat.ltb _ _); cbn in Hc; auto.
    - unfold on_notify in Hc. destruct (j_calls s !! j') as [c1|] eqn:E1; [|auto].
      destruct (j_groups s !! j') as [k|]; [|auto].
      destruct (jc_stage c1); auto. destruct (g_notify k); [auto|].
      destruct (jc_role c1) eqn:Er; [| |destruct (getCoordinationStatus k)]; cbn in Hc; auto;
        (eapply U; [exact Hc|]); unfold msig; cbn; rewrite Er; exact Logic.I.
    - unfold on_timeout in Hc. destruct (j_calls s !! j') as [c1|] eqn:E1; [|auto].
      destruct (jc_stage c1); auto. cbn in Hc. eapply U; [exact Hc|]. unfold msig; cbn. destruct (jc_role c1); exact Logic.I.
    - unfold on_sig in Hc. destruct (j_calls s !! j') as [c1|] eqn:E1; [|auto].
      destruct (jc_stage c1) eqn:Est; auto. destruct (jc_sig c1) as [|x rest] eqn:Es; [auto|].
      destruct (jc_role c1) eqn:Er; [| |auto]; cbn in Hc; (eapply U; [exact Hc|]); unfold msig; cbn; rewrite Er; exact Logic.I.
    - unfold finish in Hc. destruct (j_calls s !! j') as [c1|] eqn:E1; [|auto].
      destruct (j_groups s !! j') as [k|]; [|auto]. pose proof (H _ _ E1) as H1. unfold msig in H1.
      destruct (jc_role c1) eqn:Er.
      + destruct (jc_stage c1); auto. unfold finish_leader, done in Hc.
        case_decide; [|destruct (Z.ltb _ _)]; cbn in Hc; (eapply U; [exact Hc|]); unfold msig; cbn; rewrite Er; exact Logic.I.
      + unfold finish_member, done in Hc. destruct (jc_stage c1); auto.
        * destruct (g_resp k); [case_decide as Hd|]; cbn in Hc; (eapply U; [exact Hc|]); unfold msig; cbn; rewrite Er; auto.
          split; [discriminate|auto].
        * destruct (g_resp k); [|auto]. destruct (getPeerIDs _ _); [destruct (Z.ltb _ _)|]; cbn in Hc; (eapply U; [exact Hc|]);
            unfold msig; cbn; rewrite Er; try exact H1; (split; [discriminate|intros; contradiction]).
        * destruct (g_resp k); [|auto]. destruct (Nat.eqb _ _); cbn in Hc; (eapply U; [exact Hc|]);
            unfold msig; cbn; rewrite Er; (split; [discriminate|intros; contradiction]).
      + destruct (jc_stage c1); auto. unfold finish_leaderless, done in Hc. cbn in Hc.
        eapply U; [exact Hc|]. unfold msig; cbn; rewrite Er; exact Logic.I.
  Qed.
  Lemma msig_run ls j c : j_calls (run ls) !! j = Some c -> msig c.
  Proof.
    revert j c. induction ls as [|l ls IH] using rev_ind; intros j c Hc.
    - cbn in Hc. discriminate (eq_trans (eq_sym (lookup_empty (M := gmap nat) (A := jcall) j)) Hc).
    - rewrite run_snoc in Hc. eapply msig_step; [exact IH|exact Hc].
  Qed.
End member.

(** A join party that was told of a signature while it waited forms no party: its leader says
    that there is a signature, a member says so or that the leader is not ready. *)
Theorem C178_no_party_after_a_signature sha peerDecode me ls j o :
  me <> "NONE"%string -> only_received ls j -> told_of_signature sha peerDecode me ls j ->
  returned (jrun sha peerDecode me ls) j o ->
  (forall id pids t, called_leader sha peerDecode me ls j id pids t -> o = Outcome None ESignReceived) /\
  (forall id leader peers t, called_member sha peerDecode me ls j id leader peers t ->
     o = Outcome None ESignReceived \/ o = Outcome None ELeaderNotReady).
Proof.
  intros Hme Ho Ht Hret. split.
  - intros id pids t Hcall. apply (C26_leader_reports_signature sha peerDecode me Hme _ _ _ _ _ _ Hcall Ho Hret). exact Ht.
  - intros id leader peers t Hcall. destruct (member_call _ _ _ Hme _ _ _ _ _ _ Hcall) as (c & g & Hc & _ & _ & Hr & _).
    destruct Hret as (c' & Hc' & Hst). rewrite Hc in Hc'. injection Hc' as <-.
    assert (Hn : jc_notified c = "signature received"%string).
    { eapply notified_after; eauto. intros ps E. congruence. }
    pose proof (msig_run _ _ _ _ _ _ Hc) as Hs. unfold msig in Hs. rewrite Hr, Hst in Hs. destruct Hs as [_ Hs].
    destruct o as [ps e]. destruct (Hs Hn) as [H1 [H2|H2]]; cbn in H1, H2; subst; auto.
Qed.
Print Assumptions C178_no_party_after_a_signature.

(** It says that there is a signature only if it was told so while it waited, and the join
    party without a leader never does. *)
Theorem C178_signature_only_when_told sha peerDecode me ls j o :
  me <> "NONE"%string -> returned (jrun sha peerDecode me ls) j o -> oc_err o = ESignReceived ->
  (forall id pids t, called_leader sha peerDecode me ls j id pids t -> told_of_signature sha peerDecode me ls j) /\
  (forall id leader peers t, called_member sha peerDecode me ls j id leader peers t -> told_of_signature sha peerDecode me ls j) /\
  (forall id pids, ~ called_leaderless sha peerDecode me ls j id pids).
Proof.
  intros Hme (c & Hc & Hst) He. split; [|split].
  - intros id pids t Hcall. destruct (leader_call _ _ _ Hme _ _ _ _ _ Hcall) as (c' & g & Hc' & Hg & _ & Hr & _).
    rewrite Hc in Hc'. injection Hc' as <-.
    destruct (ji_group _ _ _ (jinv_run sha peerDecode me Hme ls) _ _ Hg) as (c2 & Hc2 & Hok). rewrite Hc in Hc2. injection Hc2 as <-.
    pose proof (ok_stage _ _ _ _ Hok) as Hs. unfold stage_ok in Hs. rewrite Hst, Hr in Hs. destruct o as [ps e]. cbn in He. subst e.
    destruct Hs as [(_ & _ & Hn)|[([=] & _)|([=] & _)]]. eapply notified_told; [exact Hc|]. rewrite Hn. discriminate.
  - intros id leader peers t Hcall. destruct (member_call _ _ _ Hme _ _ _ _ _ _ Hcall) as (c' & g & Hc' & _ & _ & Hr & _).
    rewrite Hc in Hc'. injection Hc' as <-. pose proof (msig_run _ _ _ _ _ _ Hc) as Hs. unfold msig in Hs. rewrite Hr, Hst in Hs.
    destruct Hs as [Hs _]. eapply notified_told; [exact Hc|]. rewrite (Hs He). discriminate.
  - intros id pids Hcall. destruct (leaderless_call _ _ _ Hme _ _ _ _ Hcall) as (c' & g & Hc' & Hg & _ & Hr).
    rewrite Hc in Hc'. injection Hc' as <-.
    destruct (ji_group _ _ _ (jinv_run sha peerDecode me Hme ls) _ _ Hg) as (c2 & Hc2 & Hok). rewrite Hc in Hc2. injection Hc2 as <-.
    pose proof (ok_stage _ _ _ _ Hok) as Hs. unfold stage_ok in Hs. rewrite Hst, Hr in Hs. destruct o as [ps e]. cbn in He. subst e.
    destruct Hs as (l & _ & _ & [([=] & _)|([=] & _)]).
Qed.
Print Assumptions C178_signature_only_when_told.

(** The model of a signing request takes the outcome of its join party as an input. It rules
    out nothing that call [j] returns in the model of the join party. *)
Theorem C178_models_agree sha peerDecode me ls j o r taken :
  me <> "NONE"%string -> only_received ls j -> returned (jrun sha peerDecode me ls) j o ->
  match r with
  | RLeader pids => (taken = true <-> told_of_signature sha peerDecode me ls j) /\ exists id t, called_leader sha peerDecode me ls j id pids t
  | RMember leader => (taken = true <-> told_of_signature sha peerDecode me ls j) /\
      exists id peers t, called_member sha peerDecode me ls j id leader peers t
  | RLeaderless pids => taken = false /\ exists id, called_leaderless sha peerDecode me ls j id pids
  end ->
  join_possible r taken o = true.
Proof.
  intros Hme Ho Hret Hr. unfold join_possible. destruct taken.
  - destruct r as [pids|leader|pids]; [| |destruct Hr as [[=] _]].
    + destruct Hr as (Htk & id & t & Hc).
      destruct (C178_no_party_after_a_signature _ _ _ _ _ _ Hme Ho (proj1 Htk eq_refl) Hret) as [H1 _].
      rewrite (H1 _ _ _ Hc). reflexivity.
    + destruct Hr as (Htk & id & peers & t & Hc).
      destruct (C178_no_party_after_a_signature _ _ _ _ _ _ Hme Ho (proj1 Htk eq_refl) Hret) as [_ H2].
      destruct (H2 _ _ _ _ Hc) as [-> | ->]; reflexivity.
  - assert (oc_err o = ESignReceived \/ oc_err o <> ESignReceived) as [He|He] by (destruct (oc_err o); auto; right; discriminate).
    + exfalso. destruct (C178_signature_only_when_told _ _ _ _ _ _ Hme Hret He) as (H1 & H2 & H3).
      destruct r as [pids|leader|pids].
      * destruct Hr as (Htk & id & t & Hc). pose proof (proj2 Htk (H1 _ _ _ Hc)). discriminate.
      * destruct Hr as (Htk & id & peers & t & Hc). pose proof (proj2 Htk (H2 _ _ _ _ Hc)). discriminate.
      * destruct Hr as (_ & id & Hc). exact (H3 _ _ Hc).
    + destruct r, (oc_err o); congruence.
Qed.
Print Assumptions C178_models_agree.

(** ** Cases *)

(** In the toy world (C97-C103) the pool has three members and tickets do not collide, so that
    "pa" leads: at its node and at that of "pb", for version 0.14.0. *)
Definition toy_b : senv := toy_state ["c"; "a"; "b"]%string "pb"%string.
Example C177_case :
  forming toy J14 [KGStart] (RLeader ["pa"; "pb"; "pc"]%string) /\
  prepare toy_b "pool" ["Qg=="; "QQ=="]%string [] 10 "0.14.0" = inr (the_job toy_b req_msgs [] "0.14.0") /\
  forming toy_b (the_job toy_b req_msgs [] "0.14.0") [KGStart] (RMember "pa") /\
  forming toy J13 [KGStart] (RLeaderless ["pa"; "pb"; "pc"]%string).
Proof.
  split; [eexists _, _; vm_compute; reflexivity|]. split; [vm_compute; reflexivity|].
  split; [eexists _, _; vm_compute; reflexivity|]. eexists _, _; vm_compute; reflexivity.
Qed.
Lemma app_inj_r {A} (a b c : list A) : (a ++ b)%list = (a ++ c)%list -> b = c.
Proof. apply app_inv_head. Qed.
(** The two nodes meet the hypotheses of C177_one_leader. *)
Example C177_case_agree :
  exists leader, plays (se_self toy) leader (RLeader ["pa"; "pb"; "pc"]%string) /\ plays (se_self toy_b) leader (RMember "pa").
Proof.
  destruct C177_case as (H1 & H2 & H3 & _).
  assert (Hv : exists w, is_version "0.14.0" w /\ ~ before_0_14_0 w) by (apply C10_version_gate; vm_compute; reflexivity).
  destruct Hv as (w & Hw & Hb).
  eapply (C177_one_leader toy toy_b "pool" req_msgs ["Qg=="; "QQ=="]%string [] [] 10 "0.14.0" w);
    [split; reflexivity|apply Permutation_swap|reflexivity|exact Hw|exact Hb|exact J14_prepared|exact H2|reflexivity|reflexivity| | |exact H1|exact H3].
  - intros k. cbn [ls_participants]. rewrite !elem_of_cons, elem_of_nil. tauto.
  - intros ps _ x y _ _ Ht. unfold ticket in Ht. cbn [se_sha toy toy_state] in Ht.
    apply (f_equal to_bytes) in Ht. rewrite !to_of_bytes in Ht. apply app_inj_r, app_inj_r in Ht.
    apply (f_equal of_bytes) in Ht. rewrite !of_to_bytes in Ht. exact Ht.
Qed.

(** A member is told of a signature, with and without a response of its leader before. *)
Definition member_sig (resp : bool) : list jlabel :=
  ([LJoin 0 "id" 7 ["a"; "b"; "c"] 1; LSig 0 "signature received"] ++
   (if resp then [LMsg 1 "a" (InLeader (P_Join.response "id" 1 ["a"; "b"])); LHandle 1] else []) ++
   [LTakeSig 0; M_Join.LFinish 0 []])%list%string.
Example C178_case resp :
  called_member of_bytes Some "b" (member_sig resp) 0 "id" "a" ["a"; "b"; "c"]%string 1 /\
  only_received (member_sig resp) 0 /\ told_of_signature of_bytes Some "b" (member_sig resp) 0 /\
  returned (jrun of_bytes Some "b" (member_sig resp)) 0 (Outcome None (if resp then ESignReceived else ELeaderNotReady)).
Proof.
  split; [exists [], 7%Z; eexists; repeat split; [discriminate|eauto]|]. split.
  { intros x H. destruct resp; unfold member_sig in H; cbn in H;
      repeat (apply elem_of_cons in H as [H|H]; [first [discriminate H|injection H as ->; reflexivity]|]); apply elem_of_nil in H; easy. }
  split.
  - destruct resp.
    + eexists [_; _; _; _], [_], (JCall "id" (RMember "a") 1 ["signature received"]%string "" JWait None), _, [].
      split; [reflexivity|]. split; [vm_compute; reflexivity|]. split; reflexivity.
    + eexists [_; _], [_], (JCall "id" (RMember "a") 1 ["signature received"]%string "" JWait None), _, [].
      split; [reflexivity|]. split; [vm_compute; reflexivity|]. split; reflexivity.
  - destruct resp.
    + exists (JCall "id" (RMember "a") 1 [] "signature received" (JDone (Outcome None ESignReceived)) None).
      split; [vm_compute; reflexivity|reflexivity].
    + exists (JCall "id" (RMember "a") 1 [] "signature received" (JDone (Outcome None ELeaderNotReady)) None).
      split; [vm_compute; reflexivity|reflexivity].
Qed.
