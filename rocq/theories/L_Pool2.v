(** One node of a pool in which nothing goes wrong. *)
From Coq Require Import ZArith NArith Ascii String List Lia.
From stdpp Require Import base list strings sorting.
From Verif Require Import Base L_Base S_Threshold M_Conv S_Conv L_Conv M_Semver M_Server M_Base64 M_Batch S_Batch L_Batch M_Sort L_Sort
  M_Notifier S_Notifier L_Notifier M_Join M_Common M_Blame M_KeySign S_KeySign L_KeySign M_Pool S_Pool L_Pool P_Batch P_KeySign.

Section Node.
  Context (e : senv) (j : sjob) (peers party : list string) (l : list ecsig).
  Context (Hid : sj_id j <> ""%string) (Hpool : sj_pool j <> ""%string) (Hmsgs : sj_msgs j <> []).
  Context (Hheight : sj_height j <> 0%Z) (Hold : oldJoinParty (sj_version j) <> None).
  Context (Hmem : Forall2 (fun k q => peer_of e k = Some q /\ se_pub e q = Some k) (sj_participants j) peers).
  Context (Hsigners : forall k, k ∈ sj_signers j -> k ∈ sj_participants j).
  Context (Hself : se_self e ∈ peers) (Hlocal : se_pub e (se_self e) = Some (sj_local j)).
  Context (Hparty : forall q, q ∈ party -> q ∈ peers) (Hlisted : se_self e ∈ party -> listed e j).
  Context (Hsorted : StronglySorted N.ge (MsgToHashInt <$> sj_msgs j)).
  Context (Hall : all_signed (fun _ _ => True) (sj_msgs j) l).
  Context (Hvalid : forall g m, g ∈ l -> m ∈ sj_msgs j -> be_val (sg_M g) = MsgToHashInt m ->
    sg_signature g <> None /\ verifies (se_n e) (sj_pool j) m g).

  Definition good (d : list ecsig) : Prop := d ≡ₚ l /\ StronglySorted N.ge ((fun g => be_val (sg_M g)) <$> d).

  Lemma good_values d : good d -> (fun g => be_val (sg_M g)) <$> d = MsgToHashInt <$> sj_msgs j.
  Proof.
    intros [Hp Hs]. apply desc_unique; [exact Hs|exact Hsorted|].
    destruct Hall as (sigs & Hp' & HF).
    transitivity ((fun g => be_val (sg_M g)) <$> sigs); [apply fmap_Permutation; rewrite Hp; exact Hp'|].
    assert (H : (fun g => be_val (sg_M g)) <$> sigs = MsgToHashInt <$> sj_msgs j); [|exact (eq_ind _ (fun l => _ ≡ₚ l) (Permutation_refl _) _ H)].
    clear -HF. induction HF as [|m g ms gs [Hm _] HF IH]; [reflexivity|]. rewrite !fmap_cons. f_equal; [exact Hm|exact IH].
  Qed.
  Lemma good_length d : good d -> length d = length (sj_msgs j).
  Proof. intros H. apply good_values in H. apply (f_equal length) in H. rewrite !fmap_length in H. exact H. Qed.
  Lemma good_not_nil d : good d -> d <> [].
  Proof. intros H ->. apply good_length in H. destruct (sj_msgs j); [contradiction|discriminate]. Qed.
  Lemma good_delivered d : good d ->
    ProcessSignature (se_n e) (Notifier (sj_id j) (sj_msgs j) (sj_pool j) None) d = PsDeliver.
  Proof.
    intros H. pose proof (good_not_nil d H) as Hne. unfold ProcessSignature. destruct d as [|g0 d0] eqn:Ed; [contradiction|].
    rewrite <- Ed in *. clear Ed Hne g0 d0. cbn [no_pool no_messages]. apply verify_loop_deliver. intros k g Hg. cbn.
    pose proof (good_values d H) as Hv.
    assert (Hk : ((fun g => be_val (sg_M g)) <$> d) !! k = (MsgToHashInt <$> sj_msgs j) !! k) by (rewrite Hv; reflexivity).
    rewrite !list_lookup_fmap, Hg in Hk. simpl in Hk. destruct (sj_msgs j !! k) as [m|] eqn:Hm; [|discriminate].
    simpl in Hk. injection Hk as Hk.
    destruct (Hvalid g m) as [H1 H2]; [|apply elem_of_list_lookup_2 in Hm; exact Hm|exact Hk|].
    - destruct H as [Hp _]. rewrite <- Hp. apply elem_of_list_lookup_2 in Hg. exact Hg.
    - split; [exact H1|]. exists m. split; [reflexivity|exact H2].
  Qed.
  Lemma good_batch d : good d -> exists r, batch j d = Some r /\ carries (sj_msgs j) d r.
  Proof.
    intros H. destruct (batch_some j d) as [r Hr]; [rewrite (good_length d H); lia|].
    exists r. split; [exact Hr|]. apply (batch_carries j d r Hr).
  Qed.
  Lemma ceremony_good endCh : endCh ≡ₚ l ->
    collect (length (sj_msgs j)) [] endCh = Some endCh /\ good (sort_sigs endCh).
  Proof.
    intros Hp. assert (Hg : good (sort_sigs endCh)).
    { split; [rewrite sort_sigs_perm; exact Hp|apply sort_sigs_desc]. }
    split; [|exact Hg]. pose proof (good_length _ Hg) as Hl. rewrite (Permutation_length (sort_sigs_perm endCh)) in Hl.
    rewrite <- Hl. apply (collect_all endCh []). intros ->. destruct (sj_msgs j); [contradiction|discriminate].
  Qed.

  Definition good_resp (r : response) : Prop := exists d, good d /\ carries (sj_msgs j) d r.

  Definition allowed (s : kstate) (lab : klabel) : Prop :=
    match lab with
    | KWTimeout => False
    | KWData d => d = [] \/ good d
    | KGJoined o =>
        (oc_err o = ENone /\ exists online, oc_peers o = Some online /\ forall q, q ∈ online <-> q ∈ party) \/ told s
    | KGSigned (CEnd endCh) => endCh ≡ₚ l
    | KGSigned (CFail _) => told s
    | _ => True
    end.

  Definition g_ok (s : kstate) : Prop :=
    match k_g s with
    | GNew | GJoin _ _ _ => True
    | GSign online _ => se_self e ∈ online /\ (told s \/ (forall q, q ∈ online <-> q ∈ party))
    | GSend (Some (Some d, ps)) r => good d /\ carries (sj_msgs j) d r /\ ps = peers
    | GSend _ _ => told s
    | GEnd r GNone => (exists d, good d /\ carries (sj_msgs j) d r /\ (Some d, peers) ∈ k_bcasts s) \/ told s
    | GEnd _ GSignReceived => told s
    | GEnd _ GNotActive => se_self e ∉ party \/ told s
    | GEnd _ GVersion => False
    end.
  Record ninv (s : kstate) : Prop := NInv {
    n_end : k_w s = WEnd None -> exists r, k_g s = GEnd r GNone;
    n_w : forall r, k_w s = WSend r \/ k_w s = WEnd (Some r) -> good_resp r;
    n_g : g_ok s;
    n_b : forall d ps, (Some d, ps) ∈ k_bcasts s -> good d /\ ps = peers;
    n_c : k_w s = WNew \/ k_w s = WSelect -> forall r, k_g s = GEnd r GNone -> k_chan s <> [] }.

  Lemma ninv_init : ninv k_init.
  Proof. split; cbn; try discriminate; auto; [intros r [H|H]; discriminate|intros d ps H; inversion H]. Qed.

  Lemma pool_ok : pool_peers e j peers.
  Proof. unfold pool_peers. eapply Forall2_impl; [exact Hmem|]. intros k q [H _]. exact H. Qed.
  Lemma conv_all conv ks ps : Forall2 (fun k p => conv k = Some p) ks ps -> GetPeerIDsFromPubKeys conv ks = Some ps.
  Proof. unfold GetPeerIDsFromPubKeys. induction 1 as [|k p ks ps Hk HF IH]; [reflexivity|]. simpl. rewrite Hk, IH. reflexivity. Qed.
  Lemma conv_exists conv ks : Forall (fun k => conv k <> None) ks -> exists ps, GetPeerIDsFromPubKeys conv ks = Some ps.
  Proof.
    unfold GetPeerIDsFromPubKeys. induction 1 as [|k ks Hk HF [ps IH]]; [eexists; reflexivity|]. simpl.
    destruct (conv k); [|contradiction]. rewrite IH. eexists. reflexivity.
  Qed.
  Lemma all_peers_ok : all_peers e j = peers.
  Proof. unfold all_peers. rewrite (conv_all _ _ _ pool_ok). reflexivity. Qed.
  Lemma key_has_peer k : k ∈ sj_participants j -> exists q, peer_of e k = Some q /\ q ∈ peers /\ se_pub e q = Some k.
  Proof.
    intros Hin. apply elem_of_list_lookup in Hin as [i Hi].
    destruct (Forall2_lookup_l _ _ _ _ _ Hmem Hi) as (q & Hq & H1 & H2). exists q. split; [exact H1|].
    split; [apply elem_of_list_lookup_2 in Hq; exact Hq|exact H2].
  Qed.
  Lemma peer_has_key q : q ∈ peers -> exists k, se_pub e q = Some k /\ k ∈ sj_participants j /\ peer_of e k = Some q.
  Proof.
    intros Hin. apply elem_of_list_lookup in Hin as [i Hi].
    destruct (Forall2_lookup_r _ _ _ _ _ Hmem Hi) as (k & Hk & H1 & H2). exists k. split; [exact H2|].
    split; [apply elem_of_list_lookup_2 in Hk; exact Hk|exact H1].
  Qed.
  Lemma participants_not_nil : sj_participants j <> [].
  Proof. intros H. rewrite H in Hmem. apply Forall2_nil_inv_l in Hmem. rewrite Hmem in Hself. inversion Hself. Qed.

  Lemma g_start_cases s : k_g s = GNew ->
    (exists r ld, g_start e j s = set_g (GJoin r ld false) s) \/
    (g_start e j s = set_g (GEnd empty_resp GNotActive) s /\ se_self e ∉ party).
  Proof.
    intros Hg. unfold g_start. rewrite Hg. rewrite (conv_all _ _ _ pool_ok).
    destruct (oldJoinParty (sj_version j)) as [[]|] eqn:Ho; [| |contradiction].
    - rewrite Hlocal. destruct (existsb _ _) eqn:Hex.
      + left. unfold joinParty. rewrite Ho.
        destruct (conv_exists (peer_of e) (sj_signers j)) as [ps ->]; [|eauto].
        apply Forall_forall. intros k Hk. destruct (key_has_peer k (Hsigners k Hk)) as (q & -> & _). discriminate.
      + right. split; [reflexivity|]. intros Hin. destruct (Hlisted Hin Ho) as (k & Hk & Hin').
        assert (k = sj_local j) as -> by congruence. apply existsb_eqb in Hin'. congruence.
    - left. unfold joinParty. rewrite Ho. pose proof participants_not_nil as Hn.
      destruct (Nat.eqb (length (sj_participants j)) 0) eqn:El.
      { apply Nat.eqb_eq, nil_length_inv in El. contradiction. }
      rewrite (conv_all _ _ _ pool_ok). unfold join_role. destruct (LeaderNode _ _ _ _) as [ld|] eqn:Hl; [eauto|].
      apply LeaderNode_none in Hl as [Hl|[Hl|Hl]]; try contradiction. rewrite Hl in Hself. inversion Hself.
  Qed.

  Lemma told_after s lab : told s -> told (kstep e j s lab).
  Proof.
    intros [r Hr]. exists r. unfold kstep. destruct (k_crash s); [exact Hr|].
    assert (Hf : forall a ld o, k_w (join_failed e j a ld o s) = WEnd (Some r)).
    { intros a ld o. destruct (join_failed_g e j a ld o s) as (_ & _ & -> & _). exact Hr. }
    destruct lab as [|d| | | | | |o|c| |]; simpl.
    - unfold w_start. rewrite Hr. exact Hr.
    - unfold w_data. rewrite Hr. exact Hr.
    - unfold w_timeout. rewrite Hr. exact Hr.
    - unfold w_take. rewrite Hr. exact Hr.
    - unfold w_send. rewrite Hr. exact Hr.
    - destruct (k_g s) eqn:Hg; try (unfold g_start; rewrite Hg; exact Hr).
      destruct (g_start_cases s Hg) as [(r' & ld & ->)|[-> _]]; exact Hr.
    - unfold g_take. destruct (k_g s) as [|r0 ld t| | |]; try exact Hr.
      destruct r0, (k_chan s); try exact Hr; destruct t; exact Hr.
    - unfold g_joined. destruct (k_g s); try exact Hr. destruct (join_possible _ _ _); [|exact Hr].
      destruct (oc_err o); try apply Hf. destruct (existsb _ _); [|exact Hr].
      destruct (GetPeerIDsFromPubKeys _ _); exact Hr.
    - unfold g_signed. destruct (k_g s); try exact Hr.
      destruct (SignMessage _ _ _ _) as [[]|]; try exact Hr. destruct (batch j l0); exact Hr.
    - unfold g_send. destruct (k_g s); try exact Hr. unfold send.
      destruct (k_closed s); [exact Hr|]. destruct (Nat.ltb _ _); exact Hr.
    - unfold k_close. destruct (k_closed s); [exact Hr|]. rewrite Hr. destruct (k_g s); exact Hr.
  Qed.

  (** The waiting goroutine moved. *)
  Lemma ninv_w s s' : ninv s -> k_g s' = k_g s -> k_bcasts s' = k_bcasts s -> (told s -> told s') ->
    (k_w s' = WEnd None -> exists r, k_g s = GEnd r GNone) ->
    (forall r, k_w s' = WSend r \/ k_w s' = WEnd (Some r) -> good_resp r) ->
    (k_w s' = WNew \/ k_w s' = WSelect -> (k_w s = WNew \/ k_w s = WSelect) /\ k_chan s' = k_chan s) -> ninv s'.
  Proof.
    intros [H1 H2 H3 H4 H5] Hg Hb Ht G1 G2 G3. split.
    - rewrite Hg. exact G1.
    - exact G2.
    - unfold g_ok in *. rewrite Hg, Hb. destruct (k_g s) as [| | |[[[d|] ps]|] r|r []]; tauto.
    - rewrite Hb. exact H4.
    - intros Hw r. rewrite Hg. destruct (G3 Hw) as [Hw' ->]. apply H5, Hw'.
  Qed.
  (** The signing goroutine moved. *)
  Lemma ninv_g s s' : ninv s -> k_w s' = k_w s -> (~ exists r, k_g s = GEnd r GNone) -> g_ok s' ->
    (forall d ps, (Some d, ps) ∈ k_bcasts s' -> (Some d, ps) ∈ k_bcasts s \/ good d /\ ps = peers) ->
    (forall r, k_g s' = GEnd r GNone -> k_chan s' <> [] \/ told s) -> ninv s'.
  Proof.
    intros [H1 H2 H3 H4 H5] Hw Hn Hg Hb Hc. split.
    - rewrite Hw. intros Hx. destruct (Hn (H1 Hx)).
    - rewrite Hw. exact H2.
    - exact Hg.
    - intros d ps Hin. destruct (Hb d ps Hin) as [H|H]; [apply H4, H|exact H].
    - rewrite Hw. intros Hx r Hr. destruct (Hc r Hr) as [H|[r' H]]; [exact H|]. destruct Hx; congruence.
  Qed.

  Lemma ninv_failed s a ld o : ninv s -> told s -> (~ exists r, k_g s = GEnd r GNone) -> ninv (join_failed e j a ld o s).
  Proof.
    intros Hn Ht Hg.
    assert (Hb : forall s', k_bcasts s' = k_bcasts s ++ [(None, a)] -> forall d ps, (Some d, ps) ∈ k_bcasts s' -> (Some d, ps) ∈ k_bcasts s \/ good d /\ ps = peers).
    { intros s' -> d ps Hin. apply elem_of_app in Hin as [Hin|Hin]; [left; exact Hin|apply elem_of_list_singleton in Hin; discriminate]. }
    unfold join_failed. destruct (oc_err o);
      (apply (ninv_g s);
        [exact Hn|reflexivity|exact Hg|unfold g_ok; cbn; try (right; exact Ht); exact Ht
        |first [apply Hb; reflexivity|intros d ps Hin; left; exact Hin]|intros r _; right; exact Ht]).
  Qed.

  Lemma kstep_ninv s lab : kinv e j s -> ninv s -> allowed s lab -> ninv (kstep e j s lab).
  Proof.
    intros Hk Hn Ha. pose proof (told_after s lab) as Ht. revert Ht. unfold kstep. destruct (k_crash s) eqn:Hcr; [auto|].
    destruct lab as [|d| | | | | |o|c| |]; intros Ht; cbn in Ha.
    - unfold w_start in *. destruct (k_w s) eqn:Es; try exact Hn.
      destruct (NewNotifier _ _ _) eqn:Hnn.
      + apply (ninv_w s); try exact Hn; try exact Ht; try reflexivity; try (cbn; discriminate).
        * cbn. intros r [H|H]; discriminate.
        * intros _. split; [left; exact Es|reflexivity].
      + exfalso. unfold NewNotifier in Hnn.
        destruct (Nat.eqb_spec (String.length (sj_id j)) 0) as [H0|_]; [destruct (sj_id j); [apply Hid; reflexivity|discriminate]|].
        destruct (Nat.eqb_spec (length (sj_msgs j)) 0) as [H0|_]; [destruct (sj_msgs j); [apply Hmsgs; reflexivity|discriminate]|].
        destruct (Nat.eqb_spec (String.length (sj_pool j)) 0) as [H0|_]; [destruct (sj_pool j); [apply Hpool; reflexivity|discriminate]|discriminate].
    - unfold w_data in *. destruct (k_w s) eqn:Es; try exact Hn.
      destruct Ha as [->|Hg]; [exact Hn|].
      rewrite (good_delivered d Hg) in *. destruct (Nat.eqb_spec (length d) 0) as [H0|_].
      { apply nil_length_inv in H0. destruct (good_not_nil d Hg H0). }
      destruct (good_batch d Hg) as (r & Hr & Hc). rewrite Hr in *.
      apply (ninv_w s); try exact Hn; try exact Ht; try reflexivity; try (cbn; discriminate).
      + cbn. intros r' [[= <-]|H]; [|discriminate]. exists d. auto.
      + cbn. intros [H|H]; discriminate.
    - contradiction.
    - unfold w_take in *. destruct (k_w s) eqn:Es; try exact Hn. destruct (k_chan s) as [|m rest] eqn:Hch; [exact Hn|].
      apply (ninv_w s); try exact Hn; try exact Ht; try reflexivity.
      + intros _. destruct (ki_c _ _ _ Hk) as (_ & Hm & _). destruct (Hm m) as [[_ [r Hr]]|[_ H]]; [rewrite Hch; left|congruence|exact H].
      + cbn. intros r [H|H]; discriminate.
      + cbn. intros [H|H]; discriminate.
    - unfold w_send in *. destruct (k_w s) eqn:Es; try exact Hn. unfold send in *.
      destruct (k_closed s) eqn:Hcl.
      { destruct (closed_ended _ (ki_e _ _ _ Hk) Hcl) as [[r' Hr] _]. congruence. }
      destruct (Nat.ltb _ _); [|exact Hn].
      apply (ninv_w s); try exact Hn; try exact Ht; try reflexivity; try (cbn; discriminate).
      + cbn. intros r' [H|[= <-]]; [discriminate|]. apply (n_w _ Hn). left. exact Es.
      + cbn. intros [H|H]; discriminate.
    - destruct (k_g s) eqn:Hg; try (unfold g_start; rewrite Hg; exact Hn).
      assert (Hnn : ~ exists r, k_g s = GEnd r GNone) by (intros [r Hr]; congruence).
      destruct (g_start_cases s Hg) as [(r' & ld & ->)|[-> Hp]]; apply (ninv_g s); try exact Hn; try exact Hnn; try reflexivity;
        try (intros d ps Hin; left; exact Hin); try (cbn; discriminate).
      left. exact Hp.
    - unfold g_take in *. destruct (k_g s) as [|r ld t| | |] eqn:Hg; try exact Hn.
      assert (Hnn : ~ exists r, k_g s = GEnd r GNone) by (intros [r' Hr]; congruence).
      assert (Hgo : forall t' rest, ninv (set_g (GJoin r ld t') (set_chan rest s))).
      { intros t' rest. apply (ninv_g s); try exact Hn; try exact Hnn; try reflexivity; try (cbn; discriminate).
        intros d ps Hin. left. exact Hin. }
      destruct r, (k_chan s); try exact Hn; destruct t; try exact Hn; apply Hgo.
    - unfold g_joined in *. destruct (k_g s) as [|r ld t| | |] eqn:Hg; try exact Hn.
      assert (Hnn : ~ exists r, k_g s = GEnd r GNone) by (intros [r' Hr]; congruence).
      destruct (join_possible _ _ _) eqn:Hjp; [|exact Hn].
      destruct (oc_err o) eqn:Hoe;
        try (destruct Ha as [[Ha _]|Ha]; [discriminate|apply ninv_failed; assumption]).
      destruct (existsb _ _) eqn:Hex.
      + destruct (GetPeerIDsFromPubKeys _ _) as [sg|] eqn:Hgp.
        * apply (ninv_g s); try exact Hn; try exact Hnn; try reflexivity; try (cbn; discriminate); [|intros d ps Hin; left; exact Hin].
          unfold g_ok. cbn. split; [apply existsb_eqb, Hex|]. destruct Ha as [(_ & online & Ho & Hon)|Ha]; [right|left; exact Ha].
          rewrite Ho. exact Hon.
        * apply (ninv_g s); try exact Hn; try exact Hnn; try reflexivity; try (cbn; discriminate); [|intros d ps Hin; left; exact Hin].
          unfold g_ok. cbn. destruct Ha as [(_ & online & Ho & Hon)|Ha]; [|exact Ha]. exfalso.
          rewrite Ho in Hgp. change (default [] (Some online)) with online in Hgp. destruct (conv_exists (se_pub e) online) as [ps Hps]; [|congruence].
          apply Forall_forall. intros q Hq. destruct (peer_has_key q (Hparty q (proj1 (Hon q) Hq))) as (k & -> & _). discriminate.
      + apply (ninv_g s); try exact Hn; try exact Hnn; try reflexivity; try (cbn; discriminate); [|intros d ps Hin; left; exact Hin].
        unfold g_ok. cbn. destruct Ha as [(_ & online & Ho & Hon)|Ha]; [left|right; exact Ha].
        intros Hin. apply Hon in Hin. rewrite Ho in Hex. cbn in Hex. apply existsb_eqb in Hin. congruence.
    - unfold g_signed in *. destruct (k_g s) as [| |onl sg| |] eqn:Hg; try exact Hn.
      assert (Hnn : ~ exists r, k_g s = GEnd r GNone) by (intros [r' Hr]; congruence).
      assert (Hgo : forall b r, g_ok (set_g (GSend b r) s) -> ninv (set_g (GSend b r) s)).
      { intros b r Hok. apply (ninv_g s); try exact Hn; try exact Hnn; try reflexivity; try (cbn; discriminate); [exact Hok|].
        intros d ps Hin. left. exact Hin. }
      assert (Hkeys : told s \/ (exists x, GetParties (se_key e) sg (sj_local j) = Some x) /\
        forallb (fun k => match peer_of e k with Some _ => true | None => false end) sg = true).
      { pose proof (n_g _ Hn) as Hok. unfold g_ok in Hok. rewrite Hg in Hok. destruct Hok as [Hin [Hok|Hon]]; [left; exact Hok|right].
        pose proof (ki_g _ _ _ Hk) as Hgi. unfold g_inv in Hgi. rewrite Hg in Hgi. destruct Hgi as (_ & _ & _ & HF).
        assert (Hsg : forall k, k ∈ sg -> exists q, peer_of e k = Some q).
        { intros k Hkin. apply elem_of_list_lookup in Hkin as [i Hi].
          destruct (Forall2_lookup_r _ _ _ _ _ HF Hi) as (q & Hq & Hpk).
          destruct (peer_has_key q (Hparty q (proj1 (Hon q) (elem_of_list_lookup_2 _ _ _ Hq)))) as (k' & Hk' & _ & Hp').
          assert (k' = k) as -> by congruence. eauto. }
        assert (Hdone : sj_local j ∈ sg -> (exists x, GetParties (se_key e) sg (sj_local j) = Some x) /\
          forallb (fun k => match peer_of e k with Some _ => true | None => false end) sg = true).
        { intros Hloc. split.
          - destruct (GetParties (se_key e) sg (sj_local j)) as [x|] eqn:Hgp; [eauto|exfalso].
            apply GetParties_none in Hgp as [(k & Hkin & Hkn)|Hx]; [|contradiction].
            destruct (Hsg k Hkin) as [q Hq]. unfold peer_of in Hq. rewrite Hkn in Hq. discriminate.
          - apply forallb_forall. intros k Hkin. apply elem_of_list_In in Hkin. destruct (Hsg k Hkin) as [q ->]. reflexivity. }
        apply Hdone. apply elem_of_list_lookup in Hin as [i Hi].
        destruct (Forall2_lookup_l _ _ _ _ _ HF Hi) as (k & Hk' & Hpk). rewrite Hlocal in Hpk. injection Hpk as ->.
        apply elem_of_list_lookup_2 in Hk'. exact Hk'. }
      destruct (SignMessage e j sg c) as [[b| |ls|]|] eqn:Hsm; [| | | |exact Hn].
      + apply Hgo. unfold g_ok. cbn. destruct Hkeys as [Hto|[[x Hx] Hfb]]; [exact Hto|].
        unfold SignMessage in Hsm. rewrite Hx, Hfb in Hsm. destruct (sj_msgs j); [discriminate|].
        destruct c as [b'|endCh]; [exact Ha|]. destruct (collect _ _ _); discriminate.
      + apply Hgo. unfold g_ok. cbn. destruct Hkeys as [Hto|[[x Hx] Hfb]]; [exact Hto|].
        unfold SignMessage in Hsm. rewrite Hx, Hfb in Hsm. destruct (sj_msgs j); [discriminate|].
        destruct c as [b'|endCh]; [discriminate|]. destruct (collect _ _ _); discriminate.
      + assert (Hgd : good ls).
        { unfold SignMessage in Hsm. destruct (GetParties _ _ _); [|discriminate]. destruct (forallb _ _); [|discriminate].
          destruct c as [b'|endCh]; [destruct (sj_msgs j); discriminate|]. destruct (ceremony_good endCh Ha) as [Hc Hgd].
          rewrite Hc in Hsm. destruct (sj_msgs j); [discriminate|]. injection Hsm as <-. exact Hgd. }
        destruct (good_batch ls Hgd) as (r & Hr & Hc). rewrite Hr in *. apply Hgo. unfold g_ok. cbn.
        split; [exact Hgd|]. split; [exact Hc|apply all_peers_ok].
      + exfalso. unfold SignMessage in Hsm. destruct (GetParties _ _ _); [|discriminate]. destruct (forallb _ _); [|discriminate].
        destruct (sj_msgs j); [contradiction|]. destruct c as [b'|endCh]; [discriminate|]. destruct (collect _ _ _); discriminate.
    - unfold g_send in *. destruct (k_g s) as [| | |b r|] eqn:Hg; try exact Hn.
      assert (Hnn : ~ exists r, k_g s = GEnd r GNone) by (intros [r' Hr]; congruence).
      pose proof (n_g _ Hn) as Hok. unfold g_ok in Hok. rewrite Hg in Hok.
      unfold send in *. destruct (k_closed s) eqn:Hcl.
      { destruct (closed_ended _ (ki_e _ _ _ Hk) Hcl) as [_ (r' & e' & Hr)]. congruence. }
      destruct (Nat.ltb _ _); [|exact Hn].
      apply (ninv_g s); try exact Hn; try exact Hnn; try reflexivity.
      + unfold g_ok. cbn. destruct b as [[[d|] ps]|]; try (right; exact Hok).
        destruct Hok as (H1 & H2 & ->). left. exists d. split; [exact H1|]. split; [exact H2|].
        apply elem_of_app. right. left.
      + intros d ps Hin. cbn in Hin. apply elem_of_app in Hin as [Hin|Hin]; [left; exact Hin|right].
        destruct b as [[[d'|] ps']|]; [| |inversion Hin]; apply elem_of_list_singleton in Hin; [|discriminate].
        injection Hin as -> ->. tauto.
      + intros r' _. left. cbn. destruct (k_chan s); discriminate.
    - unfold k_close in *. destruct (k_closed s) eqn:Hcl; [exact Hn|]. destruct (k_w s) as [| | |w] eqn:Hw; try exact Hn.
      destruct (k_g s) as [| | | |r0 e0] eqn:Hg; try exact Hn.
      assert (Hsame : forall s', k_w s' = k_w s -> k_g s' = k_g s -> k_bcasts s' = k_bcasts s -> k_chan s' = k_chan s -> ninv s').
      { intros s' E1 E2 E3 E4. destruct Hn as [H1 H2 H3 H4 H5]. split; unfold g_ok, told in *; rewrite ?E1, ?E2, ?E3, ?E4; assumption. }
      unfold finish_keysign in *. destruct (match w with Some received => _ | None => _ end).
      apply Hsame; cbn; congruence.
  Qed.

  (** ** What the node answers *)
  Lemma ninv_answer s r er : kinv e j s -> ninv s -> k_result s = Some (r, er) -> er = GNone /\ good_resp r.
  Proof.
    intros Hk Hn Hr. pose proof (ki_e _ _ _ Hk) as He. unfold e_inv in He. destruct (k_closed s); [|destruct He; congruence].
    destruct He as (w & gr & ge & Hw & Hg & resp & err & Hres & Heq & _). rewrite Hr in Hres. injection Hres as <- <-.
    destruct w as [w|].
    - injection Heq as -> ->. split; [reflexivity|]. apply (n_w _ Hn). right. exact Hw.
    - destruct (n_end _ Hn Hw) as [r' Hr']. rewrite Hg in Hr'. injection Hr' as -> ->. injection Heq as -> ->.
      split; [reflexivity|]. pose proof (n_g _ Hn) as Hok. unfold g_ok in Hok. rewrite Hg in Hok.
      destruct Hok as [(d & H1 & H2 & _)|[r'' Hr'']]; [exists d; auto|congruence].
  Qed.

  (** ** A node that has not answered can go on, or waits to be told *)
  Lemma ninv_enabled s : kinv e j s -> ninv s -> k_crash s = false -> k_closed s = false ->
    (exists lab, allowed s lab /\ (forall d, lab <> KWData d) /\ kstep e j s lab <> s) \/
    (k_w s = WSelect /\ (exists r, k_g s = GEnd r GNotActive) /\ se_self e ∉ party).
  Proof.
    intros Hk Hn Hcr Hcl.
    assert (Hdo : forall lab, allowed s lab -> (forall d, lab <> KWData d) -> kstep e j s lab <> s ->
      exists lab, allowed s lab /\ (forall d, lab <> KWData d) /\ kstep e j s lab <> s) by eauto.
    destruct (k_g s) as [|r ld t|onl sg|b r|r er] eqn:Hg.
    - left. apply (Hdo KGStart); [exact I|discriminate|]. intros H. apply (f_equal k_g) in H. unfold kstep in H. rewrite Hcr in H.
      destruct (g_start_cases s Hg) as [(r' & ld & Hx)|[Hx _]]; rewrite Hx in H; cbn in H; congruence.
    - left. destruct t.
      + assert (Ht : told s) by (destruct (ki_c _ _ _ Hk) as (_ & _ & Hj & _); apply (Hj r ld Hg)).
        apply (Hdo (KGJoined (Outcome None ESignReceived))); [right; exact Ht|discriminate|]. intros H.
        apply (f_equal k_g) in H. unfold kstep in H. rewrite Hcr in H. unfold g_joined in H. rewrite Hg in H.
        pose proof (ki_g _ _ _ Hk) as Hgi. unfold g_inv in Hgi. rewrite Hg in Hgi. destruct Hgi as (_ & _ & _ & Hctx).
        destruct r; cbn in H; try congruence. destruct Hctx as (_ & _ & Hx & _). discriminate.
      + apply (Hdo (KGJoined (Outcome (Some party) ENone))); [left; split; [reflexivity|]; exists party; split; [reflexivity|tauto]|discriminate|].
        intros H. apply (f_equal k_g) in H. unfold kstep in H. rewrite Hcr in H. unfold g_joined in H. rewrite Hg in H.
        change (join_possible r false (Outcome (Some party) ENone)) with (match r, false, ENone with
          | RLeader _, true, ESignReceived => true | RMember _, true, ESignReceived => true | RMember _, true, ELeaderNotReady => true
          | _, true, _ => false | _, false, ESignReceived => false | _, false, _ => true end) in H.
        assert (Hjp : forall X Y : kstate, (if match r, false, ENone with
          | RLeader _, true, ESignReceived => true | RMember _, true, ESignReceived => true | RMember _, true, ELeaderNotReady => true
          | _, true, _ => false | _, false, ESignReceived => false | _, false, _ => true end then X else Y) = X) by (destruct r; reflexivity).
        rewrite Hjp in H. cbn [oc_err oc_peers default] in H. destruct (existsb _ _); [|cbn in H; congruence].
        destruct (GetPeerIDsFromPubKeys _ _); cbn in H; congruence.
    - left. assert (Hal : allowed s (KGSigned (CEnd l))) by exact (Permutation_refl l).
      apply (Hdo (KGSigned (CEnd l))); [exact Hal|discriminate|]. intros H. apply (f_equal k_g) in H.
      unfold kstep in H. rewrite Hcr in H. unfold g_signed in H. rewrite Hg in H. unfold SignMessage in H.
      destruct (GetParties _ _ _); [|cbn in H; congruence]. destruct (forallb _ _); [|cbn in H; congruence].
      destruct (ceremony_good l (Permutation_refl l)) as [Hc Hgd]. rewrite Hc in H.
      destruct (good_batch _ Hgd) as (r & Hr & _).
      destruct (sj_msgs j) eqn:Em; [contradiction|]. cbv beta iota in H. rewrite Hr in H. cbn in H. congruence.
    - left. apply (Hdo KGSend); [exact I|discriminate|]. intros H. apply (f_equal k_g) in H. unfold kstep in H. rewrite Hcr in H.
      unfold g_send in H. rewrite Hg in H. unfold send in H. rewrite Hcl in H.
      assert (Hroom : length (k_chan s) <= 1) by (apply (chan_room_g _ (ki_c _ _ _ Hk)); intros [r' Hr]; congruence).
      destruct (Nat.ltb_spec (length (k_chan s)) sig_cap) as [_|Hf]; [|unfold sig_cap in Hf; lia]. cbn in H. congruence.
    - destruct (k_w s) as [| |wr|w] eqn:Hw.
      + left. apply (Hdo KWStart); [exact I|discriminate|]. intros H. apply (f_equal k_w) in H. unfold kstep in H. rewrite Hcr in H.
        unfold w_start in H. rewrite Hw in H. destruct (NewNotifier _ _ _); cbn in H; congruence.
      + destruct (k_chan s) as [|m rest] eqn:Hch.
        * right. split; [reflexivity|]. pose proof (n_g _ Hn) as Hok. unfold g_ok in Hok. rewrite Hg in Hok.
          assert (Hnt : ~ told s) by (intros [r' Hr']; congruence).
          destruct er.
          -- exfalso. apply (n_c _ Hn (or_intror Hw) r Hg). exact Hch.
          -- contradiction.
          -- split; [eauto|tauto].
          -- contradiction.
        * left. apply (Hdo KWTake); [exact I|discriminate|]. intros H. apply (f_equal k_w) in H. unfold kstep in H. rewrite Hcr in H.
          unfold w_take in H. rewrite Hw, Hch in H. cbn in H. congruence.
      + left. apply (Hdo KWSend); [exact I|discriminate|]. intros H. apply (f_equal k_w) in H. unfold kstep in H. rewrite Hcr in H.
        unfold w_send in H. rewrite Hw in H. unfold send in H. rewrite Hcl in H.
        assert (Hroom : length (k_chan s) <= 1) by (apply (chan_room_w _ (ki_c _ _ _ Hk)); intros [r' Hr]; congruence).
        destruct (Nat.ltb_spec (length (k_chan s)) sig_cap) as [_|Hf]; [|unfold sig_cap in Hf; lia]. cbn in H. congruence.
      + left. apply (Hdo KClose); [exact I|discriminate|]. intros H. apply (f_equal k_closed) in H. unfold kstep in H. rewrite Hcr in H.
        unfold k_close in H. rewrite Hcl, Hw, Hg in H. unfold finish_keysign in H.
        destruct (match w with Some received => _ | None => _ end). cbn in H. congruence.
  Qed.

  (** Being told ends the wait. *)
  Lemma told_moves s d : k_crash s = false -> k_w s = WSelect -> good d -> kstep e j s (KWData d) <> s.
  Proof.
    intros Hcr Hw Hg H. apply (f_equal k_w) in H. unfold kstep in H. rewrite Hcr in H. unfold w_data in H. rewrite Hw in H.
    rewrite (good_delivered d Hg) in H. destruct (Nat.eqb _ _); [cbn in H; congruence|].
    destruct (good_batch d Hg) as (r & Hr & _). rewrite Hr in H. cbn in H. congruence.
  Qed.
  Lemma data_wakes s d : k_crash s = false -> k_w s <> WNew -> good d ->
    k_w (kstep e j s (KWData d)) <> WNew /\ k_w (kstep e j s (KWData d)) <> WSelect.
  Proof.
    intros Hcr Hw Hg. unfold kstep. rewrite Hcr. unfold w_data. destruct (k_w s) eqn:Es; try contradiction; try (rewrite Es; split; discriminate).
    rewrite (good_delivered d Hg). destruct (Nat.eqb _ _); [cbn; split; discriminate|].
    destruct (good_batch d Hg) as (r & Hr & _). rewrite Hr. cbn. split; discriminate.
  Qed.
  (** A wait that ended stays ended. *)
  Lemma wait_over s lab : kinv e j s -> k_w s <> WNew /\ k_w s <> WSelect ->
    k_w (kstep e j s lab) <> WNew /\ k_w (kstep e j s lab) <> WSelect.
  Proof.
    intros Hk [H1 H2]. unfold kstep. destruct (k_crash s); [split; assumption|].
    assert (Hf : forall a ld o, k_w (join_failed e j a ld o s) = k_w s).
    { intros a ld o. apply (join_failed_g e j a ld o s). }
    destruct lab as [|d| | | | | |o|c| |]; simpl.
    - unfold w_start. destruct (k_w s) eqn:Es; try contradiction; rewrite Es; split; assumption.
    - unfold w_data. destruct (k_w s) eqn:Es; try contradiction; rewrite Es; split; assumption.
    - unfold w_timeout. destruct (k_w s) eqn:Es; try contradiction; rewrite Es; split; assumption.
    - unfold w_take. destruct (k_w s) eqn:Es; try contradiction; rewrite Es; split; assumption.
    - unfold w_send. destruct (k_w s) eqn:Es; try contradiction; try (rewrite Es; split; assumption). unfold send.
      destruct (k_closed s); [cbn; rewrite Es; split; assumption|]. destruct (Nat.ltb _ _); [cbn; split; discriminate|rewrite Es; split; assumption].
    - destruct (k_g s) eqn:Hg; try (unfold g_start; rewrite Hg; split; assumption).
      destruct (g_start_cases s Hg) as [(r' & ld & ->)|[-> _]]; split; assumption.
    - unfold g_take. destruct (k_g s) as [|r0 ld t| | |]; try (split; assumption).
      destruct r0, (k_chan s); try (split; assumption); destruct t; split; assumption.
    - unfold g_joined. destruct (k_g s); try (split; assumption). destruct (join_possible _ _ _); [|split; assumption].
      destruct (oc_err o); try (rewrite Hf; split; assumption). destruct (existsb _ _); [|split; assumption].
      destruct (GetPeerIDsFromPubKeys _ _); split; assumption.
    - unfold g_signed. destruct (k_g s); try (split; assumption).
      destruct (SignMessage _ _ _ _) as [[]|]; try (split; assumption). destruct (batch j l0); split; assumption.
    - unfold g_send. destruct (k_g s); try (split; assumption). unfold send.
      destruct (k_closed s); [split; assumption|]. destruct (Nat.ltb _ _); split; assumption.
    - unfold k_close. destruct (k_closed s); [split; assumption|]. destruct (k_w s) eqn:Es; try contradiction; try (rewrite Es; split; assumption).
      destruct (k_g s); try (rewrite Es; split; assumption). unfold finish_keysign. destruct (match r with Some received => _ | None => _ end).
      cbn. rewrite Es. split; assumption.
  Qed.
End Node.
