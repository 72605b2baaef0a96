(** Lemmas about the KeySign machine. *)
From Coq Require Import ZArith NArith Ascii String List Lia.
From stdpp Require Import base list strings.
From Verif Require Import Base L_Base M_Conv S_Conv L_Conv M_Semver S_Semver L_Semver M_Server M_Base64 M_Batch L_Batch M_Sort L_Sort
  M_Notifier S_Notifier L_Notifier M_Join M_Common M_Blame M_KeySign S_KeySign.

Section L.
  Context (E : senv) (J : sjob).

  (** ** Steps end *)

  Definition m_w (w : wstage) : nat := match w with WNew => 3 | WSelect => 2 | WSend _ => 1 | WEnd _ => 0 end.
  Definition m_g (g : gstage) : nat :=
    match g with GNew => 5 | GJoin _ _ false => 4 | GJoin _ _ true => 3 | GSign _ _ => 2 | GSend _ _ => 1 | GEnd _ _ => 0 end.
  Definition bit (b : bool) : nat := if b then 0 else 1.
  Definition measure (s : kstate) : nat :=
    2 * (m_w (k_w s) + m_g (k_g s) + bit (k_closed s) + bit (k_crash s)) + length (k_chan s).

  Definition better (s s' : kstate) : Prop := s' = s \/ measure s' < measure s.

  Lemma join_failed_g all leader o s : k_g (join_failed E J all leader o s) = k_g (join_failed E J all leader o s) /\
    m_g (k_g (join_failed E J all leader o s)) = 0 /\ k_w (join_failed E J all leader o s) = k_w s /\
    k_chan (join_failed E J all leader o s) = k_chan s /\ k_closed (join_failed E J all leader o s) = k_closed s /\
    k_crash (join_failed E J all leader o s) = k_crash s.
  Proof. unfold join_failed. destruct (oc_err o); repeat split. Qed.
  Lemma join_failed_measure all leader o s : measure (join_failed E J all leader o s) + 2 * m_g (k_g s) = measure s.
  Proof.
    destruct (join_failed_g all leader o s) as (_ & H1 & H2 & H3 & H4 & H5).
    unfold measure. rewrite H1, H2, H3, H4, H5. lia.
  Qed.

  Lemma kstep_better s l : better s (kstep E J s l).
  Proof.
    unfold kstep. destruct (k_crash s) eqn:Hc; [left; reflexivity|].
    assert (Hcrash : measure (set_crash s) < measure s).
    { unfold measure, set_crash; simpl. rewrite Hc. simpl. lia. }
    assert (Hsend : forall m f, (forall t, k_chan t = k_chan s ++ [m] -> k_w t = k_w s -> k_g t = k_g s ->
              k_closed t = k_closed s -> k_crash t = k_crash s -> measure (f t) < measure s) ->
            better s (send m f s)).
    { intros m f Hf. unfold send. destruct (k_closed s) eqn:Hcl; [right; exact Hcrash|].
      destruct (Nat.ltb _ _); [|left; reflexivity]. right. apply Hf; reflexivity || (simpl; congruence). }
    destruct l as [|d| | | | | |o|c| |]; simpl.
    - unfold w_start. destruct (k_w s) eqn:Hw; try (left; reflexivity).
      right. destruct (NewNotifier _ _ _); unfold measure; simpl; rewrite Hw; simpl; lia.
    - unfold w_data. destruct (k_w s) eqn:Hw; try (left; reflexivity).
      destruct (ProcessSignature _ _ d); try (left; reflexivity).
      right. destruct (Nat.eqb _ _); [unfold measure; simpl; rewrite Hw; simpl; lia|].
      destruct (batch J d); [|exact Hcrash]. unfold measure; simpl; rewrite Hw; simpl; lia.
    - unfold w_timeout. destruct (k_w s) eqn:Hw; try (left; reflexivity).
      right. unfold measure; simpl; rewrite Hw; simpl; lia.
    - unfold w_take. destruct (k_w s) eqn:Hw; try (left; reflexivity).
      destruct (k_chan s) eqn:Hch; [left; reflexivity|].
      right. unfold measure; simpl; rewrite Hw, Hch; simpl; lia.
    - unfold w_send. destruct (k_w s) eqn:Hw; try (left; reflexivity).
      apply Hsend. intros t Ht1 Ht2 Ht3 Ht4 Ht5. unfold measure. simpl.
      rewrite Ht1, Ht3, Ht4, Ht5, Hw, app_length. simpl. lia.
    - unfold g_start. destruct (k_g s) eqn:Hg; try (left; reflexivity). right.
      assert (Hend : forall r e, measure (set_g (GEnd r e) s) < measure s).
      { intros. unfold measure; simpl; rewrite Hg; simpl; lia. }
      assert (Hjoin : forall r ld, measure (set_g (GJoin r ld false) s) < measure s).
      { intros. unfold measure; simpl; rewrite Hg; simpl; lia. }
      assert (Hfail : forall a ld o, measure (join_failed E J a ld o s) < measure s).
      { intros. pose proof (join_failed_measure a ld o s) as H. rewrite Hg in H. simpl in H. lia. }
      destruct (GetPeerIDsFromPubKeys _ _); [|apply Hend].
      destruct (oldJoinParty _) as [[]|]; [| |apply Hend].
      + destruct (se_pub E (se_self E)); [|apply Hend]. destruct (existsb _ _); [|apply Hend].
        destruct (joinParty _ _ _); [apply Hfail|apply Hjoin|].
        destruct (join_role _ _ _) as [ld [r|]]; [apply Hjoin|apply Hfail].
      + destruct (joinParty _ _ _); [apply Hfail|apply Hjoin|].
        destruct (join_role _ _ _) as [ld [r|]]; [apply Hjoin|apply Hfail].
    - unfold g_take. destruct (k_g s) as [|r ld taken| | |] eqn:Hg; try (left; reflexivity).
      assert (H : forall m rest, k_chan s = m :: rest ->
        measure (set_g (GJoin r ld (taken || String.eqb m sig_received)) (set_chan rest s)) < measure s).
      { intros m rest Hch. unfold measure; simpl. rewrite Hg, Hch. destruct taken, (String.eqb m sig_received); simpl; lia. }
      destruct r as [ps|ld'|ps], (k_chan s) as [|m rest] eqn:Hch; try (left; reflexivity).
      + right. apply H. reflexivity.
      + destruct taken; [left; reflexivity|]. right. apply (H m rest eq_refl).
    - unfold g_joined. destruct (k_g s) as [|r ld taken| | |] eqn:Hg; try (left; reflexivity).
      destruct (join_possible _ _ _); [|left; reflexivity]. right.
      assert (Hm : m_g (k_g s) >= 3) by (rewrite Hg; destruct taken; simpl; lia).
      assert (Hfail : measure (join_failed E J (all_peers E J) ld o s) < measure s).
      { pose proof (join_failed_measure (all_peers E J) ld o s) as H. lia. }
      destruct (oc_err o); try exact Hfail.
      destruct (existsb _ _); [|unfold measure in *; simpl; lia].
      destruct (GetPeerIDsFromPubKeys _ _); unfold measure in *; simpl; lia.
    - unfold g_signed. destruct (k_g s) as [|r ld taken|onl sg| |] eqn:Hg; try (left; reflexivity).
      destruct (SignMessage _ _ _ _) as [[]|]; try (left; reflexivity); right; try exact Hcrash;
        try (unfold measure; simpl; rewrite Hg; simpl; lia).
      destruct (batch J l); [|exact Hcrash]. unfold measure; simpl; rewrite Hg; simpl; lia.
    - unfold g_send. destruct (k_g s) eqn:Hg; try (left; reflexivity).
      apply Hsend. intros t Ht1 Ht2 Ht3 Ht4 Ht5. unfold measure. simpl.
      rewrite Ht1, Ht2, Ht4, Ht5, Hg, app_length. simpl. lia.
    - unfold k_close, finish_keysign.
      destruct (k_closed s) eqn:Hcl; [left; reflexivity|]. destruct (k_w s) eqn:Hw; try (left; reflexivity).
      destruct (k_g s) eqn:Hg; try (left; reflexivity). right.
      destruct (match r with Some received => _ | None => _ end) as [resp err].
      unfold measure; simpl; rewrite Hw, Hg, Hcl; simpl; lia.
  Qed.

  (** ** Answers *)

  Lemma batch_carries d r : batch J d = Some r -> carries (sj_msgs J) d r /\ length d <= length (sj_msgs J).
  Proof.
    unfold batch. destruct (batchSignatures d (sj_msgs J)) as [l|] eqn:Hb; [|discriminate]. intros [= <-].
    unfold batchSignatures in Hb.
    assert (Hlen : length d <= length (sj_msgs J)).
    { destruct (Nat.le_gt_cases (length d) (length (sj_msgs J))) as [|Hgt]; [assumption|].
      rewrite batch_loop_panic in Hb; [discriminate|simpl; lia|]. intros ->. simpl in Hgt. lia. }
    split; [|exact Hlen].
    destruct (batch_loop_ok d 0 (sj_msgs J)) as (resp & Hr & Hl & Hx); [simpl; lia|].
    rewrite Hr in Hb. injection Hb as <-. split; [reflexivity|]. split; [reflexivity|]. split; [exact Hl|]. exact Hx.
  Qed.
  Lemma batch_some d : length d <= length (sj_msgs J) -> exists r, batch J d = Some r.
  Proof.
    intros Hl. unfold batch, batchSignatures.
    destruct (batch_loop_ok d 0 (sj_msgs J)) as (resp & -> & _); [simpl; lia|]. eauto.
  Qed.
  Lemma deliver_received d :
    ProcessSignature (se_n E) (Notifier (sj_id J) (sj_msgs J) (sj_pool J) None) d = PsDeliver -> received E J d.
  Proof.
    unfold ProcessSignature. destruct d as [|g d]; [discriminate|]. intros H. cbn [no_pool no_messages] in H.
    pose proof (proj1 (verify_loop_deliver (se_n E) (sj_pool J) (sj_msgs J) (g :: d) 0) H) as H'.
    split; [discriminate|]. split.
    - destruct (Nat.le_gt_cases (length (g :: d)) (length (sj_msgs J))) as [|Hgt]; [assumption|].
      destruct (lookup_lt_is_Some_2 (g :: d) (length (sj_msgs J)) Hgt) as [x Hx].
      destruct (H' _ _ Hx) as (_ & m & Hm & _). simpl in Hm. apply lookup_lt_Some in Hm. lia.
    - intros i s Hs. destruct (H' i s Hs) as (_ & m & Hm & Hv). eauto.
  Qed.
  Lemma collect_length n : forall endCh acc l, collect n acc endCh = Some l -> length l = n.
  Proof.
    induction endCh as [|s rest IH]; intros acc l; cbn [collect]; [discriminate|].
    destruct (Nat.eqb_spec (length (acc ++ [s])) n) as [Hl|Hl]; [intros [= <-]; exact Hl|apply IH].
  Qed.
  Lemma collect_prefix n : forall endCh acc l, collect n acc endCh = Some l -> exists r, acc ++ endCh = l ++ r.
  Proof.
    induction endCh as [|s rest IH]; intros acc l; cbn [collect]; [discriminate|].
    destruct (Nat.eqb_spec (length (acc ++ [s])) n) as [Hl|Hl].
    - intros [= <-]. exists rest. rewrite <- app_assoc. reflexivity.
    - intros H. apply IH in H as [r Hr]. exists r. rewrite <- Hr, <- app_assoc. reflexivity.
  Qed.

  (** ** The invariant *)

  Definition join_ctx (r : role) (leader : string) (taken : bool) : Prop :=
    match r with
    | RLeaderless ps => leader = "NONE" /\ oldJoinParty (sj_version J) = Some true /\ taken = false /\
        Forall2 (fun k p => peer_of E k = Some p) (sj_signers J) ps
    | _ => oldJoinParty (sj_version J) = Some false /\ exists ps, pool_peers E J ps /\
        LeaderNode (se_sha E) (sj_id J) (sj_height J) ps = Some leader
    end.
  Definition opt {A} (b : option A) : list A := match b with Some x => [x] | None => [] end.
  Definition g_inv (s : kstate) : Prop :=
    match k_g s with
    | GNew => joins s = [] /\ k_bcasts s = []
    | GJoin r leader t => joins s = [] /\ k_bcasts s = [] /\ pool_peers E J (all_peers E J) /\ join_ctx r leader t
    | GSign online signers => joins s = [true] /\ k_bcasts s = [] /\ pool_peers E J (all_peers E J) /\
        Forall2 (fun p k => se_pub E p = Some k) online signers
    | GSend b r => joins s = [true] /\ k_bcasts s = [] /\ own_attempt E J [true] (opt b) r
    | GEnd r GNone => own_attempt E J (joins s) (k_bcasts s) r
    | GEnd r GVersion => oldJoinParty (sj_version J) = None /\ k_bcasts s = [] /\ length (joins s) <= 1
    | GEnd r _ => k_bcasts s = [] /\ r = empty_resp /\ length (joins s) <= 1
    end.
  Definition w_inv (s : kstate) : Prop :=
    match k_w s with
    | WSend r | WEnd (Some r) => exists d, received E J d /\ carries (sj_msgs J) d r
    | _ => True
    end.
  Definition w_sent (s : kstate) : Prop := exists r, k_w s = WEnd (Some r).
  Definition g_sent (s : kstate) : Prop := exists r, k_g s = GEnd r GNone.
  Definition c_inv (s : kstate) : Prop :=
    NoDup (k_chan s) /\
    (forall m, m ∈ k_chan s -> m = sig_received /\ w_sent s \/ m = sig_generated /\ g_sent s) /\
    (forall r l, k_g s = GJoin r l true -> w_sent s) /\
    (forall r, k_g s = GEnd r GSignReceived -> w_sent s).
  Definition e_inv (s : kstate) : Prop :=
    if k_closed s then exists w r e, k_w s = WEnd w /\ k_g s = GEnd r e /\
      (exists resp err, k_result s = Some (resp, err) /\
        (resp, err) = match w with Some received => (received, GNone)
          | None => match e with GSignReceived | GNotActive => (empty_resp, GNone) | _ => (r, e) end end /\
        signs s = [match rp_status resp with Success => true | _ => false end])
    else k_result s = None /\ signs s = [].
  Record kinv (s : kstate) : Prop := KInv {
    ki_g : g_inv s; ki_w : w_inv s; ki_c : c_inv s; ki_e : e_inv s;
    ki_crash : k_crash s = true -> sj_msgs J = [] }.

  Lemma joins_app s b : joins (add_metric (MJoin b) s) = joins s ++ [b].
  Proof. unfold joins. simpl. rewrite omap_app. reflexivity. Qed.
  Lemma signs_app s b : signs (add_metric (MJoin b) s) = signs s.
  Proof. unfold signs. simpl. rewrite omap_app. simpl. apply app_nil_r. Qed.

  (** Few messages are in the channel before a send. *)
  Lemma chan_room_w s : c_inv s -> ~ w_sent s -> length (k_chan s) <= 1.
  Proof.
    intros (Hnd & Hm & _) Hw. destruct (k_chan s) as [|a [|b l]]; simpl; try lia.
    assert (Ha : a = sig_generated) by (destruct (Hm a) as [[_ ?]|[? _]]; [left|contradiction|assumption]).
    assert (Hb : b = sig_generated) by (destruct (Hm b) as [[_ ?]|[? _]]; [right; left|contradiction|assumption]).
    apply NoDup_cons in Hnd as [Hn _]. exfalso. apply Hn. subst. left.
  Qed.
  Lemma chan_room_g s : c_inv s -> ~ g_sent s -> length (k_chan s) <= 1.
  Proof.
    intros (Hnd & Hm & _) Hw. destruct (k_chan s) as [|a [|b l]]; simpl; try lia.
    assert (Ha : a = sig_received) by (destruct (Hm a) as [[? _]|[_ ?]]; [left|assumption|contradiction]).
    assert (Hb : b = sig_received) by (destruct (Hm b) as [[? _]|[_ ?]]; [right; left|assumption|contradiction]).
    apply NoDup_cons in Hnd as [Hn _]. exfalso. apply Hn. subst. left.
  Qed.

  Lemma kinv_init : kinv k_init.
  Proof.
    constructor; simpl; auto; try discriminate.
    - split; reflexivity.
    - exact I.
    - split; [constructor|]. split; [intros m H; inversion H|]. split; intros; discriminate.
    - split; reflexivity.
  Qed.

  (** Not closed, the end part only looks at the result and the counters. *)
  Lemma e_inv_open s s' : k_closed s = false -> k_closed s' = false -> k_result s' = k_result s -> signs s' = signs s ->
    e_inv s -> e_inv s'.
  Proof. unfold e_inv. intros -> -> -> ->. auto. Qed.
  Lemma closed_ended s : e_inv s -> k_closed s = true -> w_ended s /\ g_ended s.
  Proof.
    unfold e_inv. intros H Hc. rewrite Hc in H. destruct H as (w & r & e & Hw & Hg & _).
    split; [exists w; exact Hw|exists r, e; exact Hg].
  Qed.

  (** The first goroutine moves, the channel keeps its messages or loses some. *)
  Lemma w_moves s w c : kinv s -> ~ w_ended s ->
    (forall m, m ∈ c -> m ∈ k_chan s) -> NoDup c ->
    w_inv (set_w w s) -> kinv (set_w w (set_chan c s)).
  Proof.
    intros [Hg Hw Hc He Hcr] Hnw Hsub Hnd Hw'.
    assert (Hns : ~ w_sent s) by (intros [r Hr]; apply Hnw; exists (Some r); exact Hr).
    constructor; simpl; auto.
    - destruct Hc as (_ & Hm & Ht & Hs). split; [exact Hnd|]. split.
      + intros m Hin. apply Hsub, Hm in Hin as [[_ H]|H]; [contradiction|right; exact H].
      + split; intros; exfalso; eauto.
    - assert (Hcl : k_closed s = false).
      { destruct (k_closed s) eqn:Hcl; [|reflexivity]. destruct Hnw. apply closed_ended; assumption. }
      apply (e_inv_open s); auto.
  Qed.
  Lemma set_chan_id s : set_chan (k_chan s) s = s.
  Proof. destruct s; reflexivity. Qed.
  Lemma w_moves' s w : kinv s -> ~ w_ended s -> w_inv (set_w w s) -> kinv (set_w w s).
  Proof.
    intros H Hn Hw. rewrite <- (set_chan_id s) at 1. apply w_moves; auto. destruct H as [_ _ (Hnd & _) _ _]. exact Hnd.
  Qed.
  Lemma crash_inv s : kinv s -> sj_msgs J = [] -> kinv (set_crash s).
  Proof. intros [Hg Hw Hc He Hcr] Hm. constructor; auto. Qed.

  Lemma kstep_w s l : w_label l -> kinv s -> kinv (kstep E J s l).
  Proof.
    intros Hl H. unfold kstep. destruct (k_crash s) eqn:Hcr; [exact H|].
    destruct l as [|d| | | | | |o|c| |]; try destruct Hl; simpl.
    - unfold w_start. destruct (k_w s) eqn:Hw; try exact H.
      assert (Hn : ~ w_ended s) by (intros [r Hr]; congruence).
      destruct (NewNotifier _ _ _); apply w_moves'; auto; exact I.
    - unfold w_data. destruct (k_w s) eqn:Hw; try exact H.
      assert (Hn : ~ w_ended s) by (intros [r Hr]; congruence).
      destruct (ProcessSignature _ _ d) eqn:Hp; try exact H.
      apply deliver_received in Hp as Hr.
      destruct (Nat.eqb _ _); [apply w_moves'; auto; exact I|].
      destruct (batch J d) as [r|] eqn:Hb.
      + apply w_moves'; auto. exists d. split; [exact Hr|]. apply batch_carries, Hb.
      + destruct Hr as (_ & Hlen & _). destruct (batch_some d Hlen) as [r Hr']. congruence.
    - unfold w_timeout. destruct (k_w s) eqn:Hw; try exact H.
      assert (Hn : ~ w_ended s) by (intros [r Hr]; congruence). apply w_moves'; auto; exact I.
    - unfold w_take. destruct (k_w s) eqn:Hw; try exact H.
      assert (Hn : ~ w_ended s) by (intros [r Hr]; congruence).
      destruct (k_chan s) as [|m rest] eqn:Hch; [exact H|]. apply w_moves; auto.
      + intros x Hx. rewrite Hch. right. exact Hx.
      + destruct H as [_ _ (Hnd & _) _ _]. rewrite Hch in Hnd. apply NoDup_cons in Hnd. apply Hnd.
      + exact I.
    - unfold w_send. destruct (k_w s) as [| |r|r] eqn:Hw; try exact H.
      assert (Hn : ~ w_ended s) by (intros [r' Hr]; congruence).
      assert (Hns : ~ w_sent s) by (intros [r' Hr]; congruence).
      assert (Hcl : k_closed s = false).
      { destruct (k_closed s) eqn:Hcl; [|reflexivity]. destruct Hn. apply closed_ended; [apply H|assumption]. }
      unfold send. rewrite Hcl. pose proof (chan_room_w s (ki_c s H) Hns) as Hroom.
      destruct (Nat.ltb_spec (length (k_chan s)) sig_cap) as [_|Hf]; [|unfold sig_cap in Hf; lia].
      destruct H as [Hg Hw' Hc He Hcr']. constructor; simpl; auto.
      + unfold w_inv in Hw'. rewrite Hw in Hw'. exact Hw'.
      + destruct Hc as (Hnd & Hm & Ht & Hs).
        assert (Hws : w_sent (set_w (WEnd (Some r)) (set_chan (k_chan s ++ [sig_received]) s))) by (exists r; reflexivity).
        split; [|split].
        * simpl. apply NoDup_app. split; [exact Hnd|]. split; [|apply NoDup_singleton].
          intros x Hx Hin. apply elem_of_list_singleton in Hin as ->. apply Hm in Hx as [[_ ?]|[? _]]; [contradiction|discriminate].
        * simpl. intros x Hx. apply elem_of_app in Hx as [Hx|Hx].
          -- apply Hm in Hx as [[_ ?]|Hx]; [contradiction|]. right. exact Hx.
          -- apply elem_of_list_singleton in Hx as ->. left. split; [reflexivity|exact Hws].
        * split; intros; exact Hws.
      + apply (e_inv_open s); auto.
  Qed.

  (** The second goroutine moves. *)
  Lemma g_moves s s' : kinv s -> ~ g_ended s ->
    k_w s' = k_w s -> k_closed s' = k_closed s -> k_result s' = k_result s -> signs s' = signs s ->
    k_crash s' = k_crash s ->
    (forall m, m ∈ k_chan s' -> m ∈ k_chan s) -> NoDup (k_chan s') ->
    (forall r l, k_g s' = GJoin r l true -> w_sent s) -> (forall r, k_g s' = GEnd r GSignReceived -> w_sent s) ->
    g_inv s' -> kinv s'.
  Proof.
    intros [Hg Hw Hc He Hcr] Hn Ew Ecl Eres Esi Ecr Hsub Hnd Ht Hs Hg'.
    assert (Hws : w_sent s' <-> w_sent s) by (unfold w_sent; rewrite Ew; reflexivity).
    constructor; auto.
    - unfold w_inv. rewrite Ew. exact Hw.
    - split; [exact Hnd|]. split.
      + intros m Hm. apply Hsub in Hm. destruct Hc as (_ & Hm' & _). apply Hm' in Hm as [[? ?]|[? [r Hr]]].
        * left. rewrite Hws. auto.
        * destruct Hn. exists r, GNone. exact Hr.
      + split; intros; apply Hws; eauto.
    - assert (Hcl : k_closed s = false).
      { destruct (k_closed s) eqn:Hcl; [|reflexivity]. destruct Hn. apply closed_ended; assumption. }
      apply (e_inv_open s); congruence.
    - rewrite Ecr. exact Hcr.
  Qed.
  Lemma kinv_nodup s : kinv s -> NoDup (k_chan s).
  Proof. intros [_ _ (H & _) _ _]. exact H. Qed.

  Lemma existsb_eqb p l : existsb (String.eqb p) l = true <-> p ∈ l.
  Proof.
    rewrite existsb_exists. split.
    - intros (x & Hx & He). apply String.eqb_eq in He as ->. apply elem_of_list_In, Hx.
    - intros H. exists p. split; [apply elem_of_list_In, H|apply String.eqb_refl].
  Qed.
  Lemma sync_offline keys ps online : Forall2 (fun k p => peer_of E k = Some p) keys ps ->
    sync_nodes E keys online = plain <$> offline E keys online.
  Proof.
    induction 1 as [|k p keys ps Hk _ IH]; [reflexivity|]. simpl. unfold offline in *. simpl. rewrite Hk, IH.
    destruct (existsb (String.eqb p) online); reflexivity.
  Qed.
  Lemma peers_spec conv l : match GetPeerIDsFromPubKeys conv l with
    | Some ps => Forall2 (fun k p => conv k = Some p) l ps
    | None => Exists (fun k => conv k = None) l end.
  Proof.
    unfold GetPeerIDsFromPubKeys. induction l as [|k l IH]; simpl; [constructor|].
    destruct (conv k) eqn:Hk; [|left; exact Hk].
    destruct (all_some conv l); [constructor; assumption|right; exact IH].
  Qed.

  Lemma leader_not_none ps leader : none_is_no_peer E -> pool_peers E J ps ->
    LeaderNode (se_sha E) (sj_id J) (sj_height J) ps = Some leader -> leader <> "NONE".
  Proof.
    intros Hnone Hps Hl ->. apply LeaderNode_smallest in Hl as [Hin _].
    apply elem_of_list_lookup in Hin as [i Hi].
    destruct (Forall2_lookup_r _ _ _ _ _ Hps Hi) as (k & _ & Hk).
    unfold peer_of in Hk. destruct (se_key E k); [|discriminate]. exact (Hnone _ Hk).
  Qed.

  Lemma join_failed_inv s all leader o : kinv s -> ~ g_ended s -> joins s = [] -> k_bcasts s = [] ->
    pool_peers E J all -> oc_err o <> ESignReceived ->
    (none_is_no_peer E -> join_blame E J
      (if String.eqb leader "NONE" then
            match oc_peers o with
            | None => Blame InternalError false []
            | Some online => Blame TssSyncFail false (sync_nodes E (sj_signers J) online)
            end
          else Blame TssSyncFail false match se_pub E leader with Some k => [plain k] | None => [] end)) ->
    kinv (join_failed E J all leader o s).
  Proof.
    intros H Hn Hj Hb Hall Hne Hblame. unfold join_failed.
    destruct (oc_err o) eqn:He; [..|congruence| | |];
      (apply (g_moves s); simpl; auto;
       [apply signs_app|apply kinv_nodup, H|discriminate|discriminate|];
       unfold g_inv; cbn [k_g set_g];
       change (joins (set_g ?g (add_bcast ?b ?t))) with (joins t);
       rewrite joins_app, Hj; cbn [k_bcasts set_g add_bcast add_metric]; rewrite Hb; simpl; constructor; auto;
       exact Hblame).
  Qed.

  Lemma kstep_g_start s : kinv s -> kinv (g_start E J s).
  Proof.
    intros H. unfold g_start. destruct (k_g s) eqn:Hg; try exact H.
    pose proof (ki_g s H) as Hi. unfold g_inv in Hi. rewrite Hg in Hi. destruct Hi as [Hj Hb].
    assert (Hn : ~ g_ended s) by (intros (r & e & Hr); congruence).
    assert (Hend : forall r e, g_inv (set_g (GEnd r e) s) -> e <> GSignReceived -> kinv (set_g (GEnd r e) s)).
    { intros r e Hi He. apply (g_moves s); simpl; auto; [apply kinv_nodup, H|discriminate|congruence]. }
    pose proof (peers_spec (peer_of E) (sj_participants J)) as Hps.
    assert (Hall : forall l, GetPeerIDsFromPubKeys (peer_of E) (sj_participants J) = Some l -> all_peers E J = l).
    { intros l Hl. unfold all_peers. rewrite Hl. reflexivity. }
    destruct (GetPeerIDsFromPubKeys (peer_of E) (sj_participants J)) as [all|].
    2: { apply Hend; [|discriminate]. unfold g_inv. cbn [k_g set_g]. change (joins (set_g ?g ?t)) with (joins t).
         cbn [k_bcasts set_g]. rewrite Hj, Hb. apply own_bad_pool, Hps. }
    specialize (Hall all eq_refl).
    assert (Hjoin : forall r ld, join_ctx r ld false -> kinv (set_g (GJoin r ld false) s)).
    { intros r ld Hctx. apply (g_moves s); simpl; auto; [apply kinv_nodup, H|discriminate|discriminate|].
      unfold g_inv. cbn [k_g set_g]. change (joins (set_g ?g ?t)) with (joins t). cbn [k_bcasts set_g].
      rewrite Hall. auto. }
    assert (Hna : kinv (set_g (GEnd empty_resp GNotActive) s)).
    { apply Hend; [|discriminate]. unfold g_inv. cbn [k_g set_g]. change (joins (set_g ?g ?t)) with (joins t).
      cbn [k_bcasts set_g]. rewrite Hj. simpl. auto. }
    destruct (oldJoinParty (sj_version J)) as [[]|] eqn:Hold.
    - destruct (se_pub E (se_self E)) as [me|]; [|exact Hna]. destruct (existsb _ _); [|exact Hna].
      unfold joinParty. rewrite Hold. pose proof (peers_spec (peer_of E) (sj_signers J)) as Hs.
      destruct (GetPeerIDsFromPubKeys (peer_of E) (sj_signers J)) as [ps|].
      + apply Hjoin. simpl. auto.
      + apply join_failed_inv; auto; try discriminate. intros _. simpl. apply jb_internal, Hold.
    - assert (Hlead : LeaderNode (se_sha E) (sj_id J) (sj_height J) all = None ->
        kinv (join_failed E J all "" (Outcome None EInvalid) s)).
      { intros Hl. apply join_failed_inv; auto; try discriminate. intros _. simpl. apply (jb_no_leader _ _ all); auto. }
      unfold joinParty. rewrite Hold. destruct (Nat.eqb_spec (length (sj_participants J)) 0) as [Hl|Hl].
      + apply Hlead, LeaderNode_none. left. apply Forall2_length in Hps. rewrite Hl in Hps. symmetry in Hps.
        apply nil_length_inv, Hps.
      + pose proof (peers_spec (peer_of E) (sj_participants J)) as Hps'.
        destruct (GetPeerIDsFromPubKeys (peer_of E) (sj_participants J)) as [all'|] eqn:Hall'.
        * assert (all' = all) as -> by (unfold all_peers in Hall; rewrite Hall' in Hall; exact Hall).
          unfold join_role. destruct (LeaderNode _ _ _ _) as [ld|] eqn:Hld; [|apply Hlead; reflexivity].
          apply Hjoin. unfold join_ctx. destruct (String.eqb _ _); (split; [exact Hold|]; exists all; auto).
        * exfalso. clear -Hps Hps'. induction Hps as [|k p ks ps Hk Hps IH]; [inversion Hps'|].
          inversion Hps' as [? ? Hk'|? ? Hk']; subst; [congruence|]. apply IH, Hk'.
    - apply Hend; [|discriminate]. unfold g_inv. cbn [k_g set_g]. change (joins (set_g ?g ?t)) with (joins t).
      rewrite Hj. simpl. auto.
  Qed.

  Lemma kstep_g_take s : kinv s -> kinv (g_take s).
  Proof.
    intros H. unfold g_take. destruct (k_g s) as [|r ld taken| | |] eqn:Hg; try exact H.
    assert (Hn : ~ g_ended s) by (intros (r' & e & Hr); congruence).
    pose proof (ki_g s H) as Hi. unfold g_inv in Hi. rewrite Hg in Hi. destruct Hi as (Hj & Hb & Hp & Hctx).
    assert (Hgo : forall m rest, k_chan s = m :: rest -> (forall t, join_ctx r ld t) ->
      kinv (set_g (GJoin r ld (taken || String.eqb m sig_received)) (set_chan rest s))).
    { intros m rest Hch Hctx'. apply (g_moves s); simpl; auto; try discriminate.
      - intros x Hx. rewrite Hch. right. exact Hx.
      - pose proof (kinv_nodup s H) as Hnd. rewrite Hch in Hnd. apply NoDup_cons in Hnd. apply Hnd.
      - intros r' l [= _ _ Ht]. destruct (ki_c s H) as (_ & Hm & Htk & _).
        destruct taken; [apply (Htk r ld Hg)|]. simpl in Ht. apply String.eqb_eq in Ht as ->.
        destruct (Hm sig_received) as [[_ Hw]|[? _]]; [rewrite Hch; left|exact Hw|discriminate].
      - unfold g_inv. cbn [k_g set_g]. auto. }
    destruct r as [ps|ld'|ps], (k_chan s) as [|m rest] eqn:Hch; try exact H.
    - apply Hgo; [reflexivity|]. intros t. exact Hctx.
    - destruct taken; [exact H|]. apply (Hgo m rest eq_refl). intros t. exact Hctx.
  Qed.

  Lemma kstep_g_joined o s : kinv s -> kinv (g_joined E J o s).
  Proof.
    intros H. unfold g_joined. destruct (k_g s) as [|r ld taken| | |] eqn:Hg; try exact H.
    assert (Hn : ~ g_ended s) by (intros (r' & e & Hr); congruence).
    pose proof (ki_g s H) as Hi. unfold g_inv in Hi. rewrite Hg in Hi. destruct Hi as (Hj & Hb & Hp & Hctx).
    destruct (join_possible r taken o) eqn:Hpos; [|exact H].
    assert (Hblame : none_is_no_peer E -> join_blame E J
      (if String.eqb ld "NONE" then
            match oc_peers o with
            | None => Blame InternalError false []
            | Some online => Blame TssSyncFail false (sync_nodes E (sj_signers J) online)
            end
          else Blame TssSyncFail false match se_pub E ld with Some k => [plain k] | None => [] end)).
    { intros Hnone. assert (Hl : oldJoinParty (sj_version J) = Some false /\ (exists ps, pool_peers E J ps /\
        LeaderNode (se_sha E) (sj_id J) (sj_height J) ps = Some ld) ->
        join_blame E J
      (if String.eqb ld "NONE" then
            match oc_peers o with
            | None => Blame InternalError false []
            | Some online => Blame TssSyncFail false (sync_nodes E (sj_signers J) online)
            end
          else Blame TssSyncFail false match se_pub E ld with Some k => [plain k] | None => [] end)).
      { intros (Ho & ps & Hps & Hld). pose proof (leader_not_none ps ld Hnone Hps Hld) as Hne.
        destruct (String.eqb_spec ld "NONE"); [contradiction|]. apply (jb_leader _ _ ps); auto. }
      destruct r as [ps|ld'|ps]; [apply Hl, Hctx|apply Hl, Hctx|].
      destruct Hctx as (-> & Ho & _ & Hps). simpl. destruct (oc_peers o) as [online|]; [|apply jb_internal, Ho].
      rewrite (sync_offline _ _ _ Hps). apply jb_leaderless, Ho. }
    destruct (oc_err o) eqn:Herr.
    - assert (Hs : signs (add_metric (MJoin true) s) = signs s) by apply signs_app.
      assert (Hjo : joins (add_metric (MJoin true) s) = [true]) by (rewrite joins_app, Hj; reflexivity).
      destruct (existsb _ _) eqn:Hme.
      + pose proof (peers_spec (se_pub E) (default [] (oc_peers o))) as Hsg.
        destruct (GetPeerIDsFromPubKeys (se_pub E) (default [] (oc_peers o))) as [signers|].
        * apply (g_moves s); simpl; auto; [apply kinv_nodup, H|discriminate|discriminate|].
          unfold g_inv. cbn [k_g set_g]. change (joins (set_g ?g ?t)) with (joins t). cbn [k_bcasts set_g add_metric].
          rewrite Hjo. auto.
        * apply (g_moves s); simpl; auto; [apply kinv_nodup, H|discriminate|discriminate|].
          unfold g_inv. cbn [k_g set_g]. change (joins (set_g ?g ?t)) with (joins t). cbn [k_bcasts set_g add_metric].
          rewrite Hjo. split; [reflexivity|]. split; [exact Hb|]. apply (own_bad_peer _ _ _ Hsg).
      + apply (g_moves s); simpl; auto; [apply kinv_nodup, H|discriminate|discriminate|].
        unfold g_inv. cbn [k_g set_g]. change (joins (set_g ?g ?t)) with (joins t). cbn [k_bcasts set_g add_metric].
        rewrite Hjo. simpl. auto.
    - apply join_failed_inv; auto; congruence.
    - apply join_failed_inv; auto; congruence.
    - (* signature received *)
      assert (Hws : w_sent s).
      { destruct (ki_c s H) as (_ & _ & Ht & _). destruct taken; [apply (Ht r ld Hg)|].
        unfold join_possible in Hpos. rewrite Herr in Hpos. destruct r; discriminate. }
      unfold join_failed. rewrite Herr. apply (g_moves s); simpl; auto; [apply kinv_nodup, H|].
      unfold g_inv. cbn [k_g set_g]. change (joins (set_g ?g ?t)) with (joins t). cbn [k_bcasts set_g]. rewrite Hj.
      simpl. auto.
    - apply join_failed_inv; auto; congruence.
    - apply join_failed_inv; auto; congruence.
    - apply join_failed_inv; auto; congruence.
  Qed.

  Lemma kstep_g_signed c s : kinv s -> kinv (g_signed E J c s).
  Proof.
    intros H. unfold g_signed. destruct (k_g s) as [| |online signers| |] eqn:Hg; try exact H.
    assert (Hn : ~ g_ended s) by (intros (r' & e & Hr); congruence).
    pose proof (ki_g s H) as Hi. unfold g_inv in Hi. rewrite Hg in Hi. destruct Hi as (Hj & Hb & Hp & Hsg).
    assert (Hgo : forall b r, own_attempt E J [true] (opt b) r -> kinv (set_g (GSend b r) s)).
    { intros b r Ho. apply (g_moves s); simpl; auto; [apply kinv_nodup, H|discriminate|discriminate|].
      unfold g_inv. cbn [k_g set_g]. auto. }
    unfold SignMessage. destruct (GetParties _ _ _) as [[ps me]|]; [|apply Hgo; apply own_sign_failed, Hp].
    destruct (forallb _ signers) eqn:Hf.
    - destruct (sj_msgs J) as [|m0 ms] eqn:Hm; [apply crash_inv; assumption|]. rewrite <- Hm.
      destruct c as [b|endCh]; [apply Hgo; apply own_sign_failed, Hp|].
      destruct (collect (length (sj_msgs J)) [] endCh) as [l|] eqn:Hc; [|exact H].
      apply collect_length in Hc.
      assert (Hlen : length (sort_sigs l) = length (sj_msgs J)).
      { rewrite <- Hc. apply Permutation_length, sort_sigs_perm. }
      destruct (batch J (sort_sigs l)) as [r|] eqn:Hbt.
      + apply Hgo. simpl. apply own_signed; auto. apply batch_carries, Hbt.
      + destruct (batch_some (sort_sigs l)) as [r Hr]; [lia|congruence].
    - assert (Hbad : exists p k, se_pub E p = Some k /\ peer_of E k = None).
      { clear -Hsg Hf. induction Hsg as [|p k ps ks Hk _ IH]; [discriminate|]. simpl in Hf.
        destruct (peer_of E k) eqn:Hpk; [apply IH, Hf|exists p, k; auto]. }
      destruct Hbad as (p & k & Hpk & Hk). apply Hgo. simpl. apply (own_wrong_key _ _ p k); auto.
  Qed.

  Lemma kstep_g_send s : kinv s -> kinv (g_send s).
  Proof.
    intros H. unfold g_send. destruct (k_g s) as [| | |b r|] eqn:Hg; try exact H.
    assert (Hn : ~ g_ended s) by (intros (r' & e & Hr); congruence).
    assert (Hns : ~ g_sent s) by (intros (r' & Hr); congruence).
    pose proof (ki_g s H) as Hi. unfold g_inv in Hi. rewrite Hg in Hi. destruct Hi as (Hj & Hb & Ho).
    assert (Hcl : k_closed s = false).
    { destruct (k_closed s) eqn:Hcl; [|reflexivity]. destruct Hn. apply closed_ended; [apply H|assumption]. }
    unfold send. rewrite Hcl. pose proof (chan_room_g s (ki_c s H) Hns) as Hroom.
    destruct (Nat.ltb_spec (length (k_chan s)) sig_cap) as [_|Hf]; [|unfold sig_cap in Hf; lia].
    destruct H as [_ Hw Hc He Hcr]. constructor; simpl; auto.
    - unfold g_inv. cbn [k_g set_g]. change (joins (set_g ?g (add_bcast ?b' (set_chan ?c ?t)))) with (joins t).
      cbn [k_bcasts set_g add_bcast set_chan]. rewrite Hj, Hb. simpl. exact Ho.
    - destruct Hc as (Hnd & Hm & Ht & Hs). split; [|split].
      + simpl. apply NoDup_app. split; [exact Hnd|]. split; [|apply NoDup_singleton].
        intros x Hx Hin. apply elem_of_list_singleton in Hin as ->. apply Hm in Hx as [[? _]|[_ ?]]; [discriminate|contradiction].
      + simpl. intros x Hx. apply elem_of_app in Hx as [Hx|Hx].
        * apply Hm in Hx as [Hx|[_ ?]]; [|contradiction]. left. exact Hx.
        * apply elem_of_list_singleton in Hx as ->. right. split; [reflexivity|]. exists r. reflexivity.
      + simpl. split; discriminate.
    - apply (e_inv_open s); auto.
  Qed.

  Lemma kstep_close s : kinv s -> kinv (k_close s).
  Proof.
    intros H. unfold k_close. destruct (k_closed s) eqn:Hcl; [exact H|].
    destruct (k_w s) as [| | |w] eqn:Hw; try exact H. destruct (k_g s) as [| | | |r e] eqn:Hg; try exact H.
    destruct H as [Hgi Hwi Hci Hei Hcr]. unfold e_inv in Hei. rewrite Hcl in Hei. destruct Hei as [Hres Hsi].
    unfold finish_keysign.
    destruct (match w with Some received => (received, GNone)
          | None => match e with GSignReceived | GNotActive => (empty_resp, GNone) | _ => (r, e) end end) as [resp err] eqn:Hr.
    constructor; simpl; auto.
    - unfold g_inv in *. cbn [k_g k_bcasts] in *. unfold joins in *. cbn [k_metrics]. rewrite omap_app. simpl. rewrite app_nil_r.
      exact Hgi.
    - exists w, r, e. split; [exact Hw|]. split; [exact Hg|]. exists resp, err. split; [reflexivity|]. split; [symmetry; exact Hr|].
      unfold signs in *. cbn [k_metrics]. rewrite omap_app, Hsi. reflexivity.
  Qed.

  Lemma kstep_inv s l : kinv s -> kinv (kstep E J s l).
  Proof.
    intros H. destruct l as [|d| | | | | |o|c| |];
      try (apply kstep_w; [exact I|exact H]); unfold kstep; (destruct (k_crash s); [exact H|]).
    - apply kstep_g_start, H.
    - apply kstep_g_take, H.
    - apply kstep_g_joined, H.
    - apply kstep_g_signed, H.
    - apply kstep_g_send, H.
    - apply kstep_close, H.
  Qed.
  Lemma krun_inv ls : kinv (krun E J ls).
  Proof.
    unfold krun. generalize kinv_init. generalize k_init. induction ls as [|l ls IH]; intros s H; simpl; [exact H|].
    apply IH, kstep_inv, H.
  Qed.

  (** ** What happened before *)
  Definition hist (ls : list klabel) (s : kstate) : Prop :=
    match k_g s with
    | GNew => True
    | GJoin _ _ _ => listed E J
    | GSign _ _ | GSend _ _ => listed E J /\ formed_with E ls
    | GEnd r GNone => (true ∈ joins s -> listed E J /\ formed_with E ls)
    | GEnd r GNotActive => false ∉ joins s /\ ((~ listed E J /\ joins s = []) \/ formed_without E ls)
    | GEnd r _ => joins s = []
    end.
  Lemma hist_mono ls l s : hist ls s -> hist (ls ++ [l]) s.
  Proof.
    assert (H : formed_with E ls -> formed_with E (ls ++ [l])).
    { intros (o & onl & Hin & H). exists o, onl. split; [apply elem_of_app; left; exact Hin|exact H]. }
    assert (H' : formed_without E ls -> formed_without E (ls ++ [l])).
    { intros (o & Hin & H0). exists o. split; [apply elem_of_app; left; exact Hin|exact H0]. }
    unfold hist. destruct (k_g s) as [| | | |r []]; tauto.
  Qed.
  Lemma hist_keep ls s s' : k_g s' = k_g s -> joins s' = joins s -> hist ls s -> hist ls s'.
  Proof. unfold hist. intros -> ->. auto. Qed.
  Lemma joins_set_g g s : joins (set_g g s) = joins s.
  Proof. reflexivity. Qed.
  Lemma joins_close s w r e : joins (finish_keysign w r e s) = joins s.
  Proof.
    unfold finish_keysign. destruct (match w with Some received => _ | None => _ end).
    unfold joins. simpl. rewrite omap_app. simpl. apply app_nil_r.
  Qed.

  Lemma krun_hist ls : hist ls (krun E J ls).
  Proof.
    induction ls as [|lab ls IH] using rev_ind; [exact I|].
    pose proof (krun_inv ls) as Hinv. unfold krun in *. rewrite fold_left_app. cbn [fold_left].
    set (s := fold_left (kstep E J) ls k_init) in *.
    apply (hist_mono ls lab) in IH. unfold kstep. destruct (k_crash s); [exact IH|].
    pose proof (ki_g _ Hinv) as Hgi. unfold g_inv in Hgi.
    assert (Hf : forall a ld o, joins s = [] -> hist (ls ++ [lab]) (join_failed E J a ld o s)).
    { intros a ld o Hj. unfold join_failed. destruct (oc_err o); try exact Hj;
        (unfold hist; cbn [k_g set_g]; change (joins (set_g ?g (add_bcast ?b ?t))) with (joins t);
         rewrite joins_app, Hj; simpl; intros Hin; apply elem_of_list_singleton in Hin; discriminate). }
    destruct lab as [|d| | | | | |o|c| |]; simpl.
    - unfold w_start. destruct (k_w s); try exact IH. destruct (NewNotifier _ _ _); exact IH.
    - unfold w_data. destruct (k_w s); try exact IH. destruct (ProcessSignature _ _ _); try exact IH.
      destruct (Nat.eqb _ _); [exact IH|]. destruct (batch J d); exact IH.
    - unfold w_timeout. destruct (k_w s); exact IH.
    - unfold w_take. destruct (k_w s); try exact IH. destruct (k_chan s); exact IH.
    - unfold w_send. destruct (k_w s); try exact IH. unfold send.
      destruct (k_closed s); [exact IH|]. destruct (Nat.ltb _ _); exact IH.
    - unfold g_start. destruct (k_g s) eqn:Eg; try exact IH. destruct Hgi as [Hj _].
      destruct (GetPeerIDsFromPubKeys _ _); [|unfold hist; cbn [k_g set_g]; rewrite joins_set_g, Hj; intros Hin; inversion Hin].
      destruct (oldJoinParty (sj_version J)) as [[]|] eqn:Ho.
      + assert (Hna : ~ listed E J -> hist (ls ++ [KGStart]) (set_g (GEnd empty_resp GNotActive) s)).
        { intros Hl. unfold hist. cbn [k_g set_g]. rewrite joins_set_g, Hj. split; [intros Hi; inversion Hi|auto]. }
        destruct (se_pub E (se_self E)) as [me|] eqn:Hme.
        2: { apply Hna. intros Hl. destruct (Hl Ho) as (k & Hk & _). congruence. }
        destruct (existsb (String.eqb me) (sj_signers J)) eqn:Hex.
        2: { apply Hna. intros Hl. destruct (Hl Ho) as (k & Hk & Hin). apply existsb_eqb in Hin. congruence. }
        apply existsb_eqb in Hex.
        assert (Hl : listed E J) by (intros _; eauto).
        destruct (joinParty _ _ _); [apply Hf, Hj|exact Hl|].
        destruct (join_role _ _ _) as [? [?|]]; [exact Hl|apply Hf, Hj].
      + assert (Hl : listed E J) by (intros Ho'; congruence).
        destruct (joinParty _ _ _); [apply Hf, Hj|exact Hl|].
        destruct (join_role _ _ _) as [? [?|]]; [exact Hl|apply Hf, Hj].
      + exact Hj.
    - unfold g_take. destruct (k_g s) as [|r0 ld0 tk0| | |] eqn:Eg; try exact IH. unfold hist in IH. rewrite Eg in IH.
      destruct r0, (k_chan s); try destruct tk0; try exact IH; unfold hist; rewrite Eg; exact IH.
    - unfold g_joined. destruct (k_g s) as [|r0 ld0 tk0| | |] eqn:Eg; try exact IH. destruct Hgi as [Hj _].
      destruct (join_possible _ _ _); [|exact IH]. unfold hist in IH. rewrite Eg in IH.
      destruct (oc_err o) eqn:Herr; try (apply Hf, Hj).
      assert (Hin : KGJoined o ∈ ls ++ [KGJoined o]) by (apply elem_of_app; right; left).
      destruct (existsb _ _) eqn:Hex.
      + apply existsb_eqb in Hex.
        assert (Hfw : formed_with E (ls ++ [KGJoined o])).
        { destruct (oc_peers o) as [onl|] eqn:Hp; [|inversion Hex]. exists o, onl. auto. }
        destruct (GetPeerIDsFromPubKeys _ _); unfold hist; simpl; auto.
      + unfold hist. cbn [k_g set_g]. rewrite joins_set_g, joins_app, Hj. split.
        { simpl. intros Hi. apply elem_of_list_singleton in Hi. discriminate. }
        right. exists o. split; [exact Hin|]. split; [exact Herr|]. intros Hi. apply existsb_eqb in Hi. congruence.
    - unfold g_signed. destruct (k_g s) as [| |onl sg| |] eqn:Eg; try exact IH.
      unfold hist in IH. rewrite Eg in IH.
      destruct (SignMessage E J sg c) as [[b| |l|]|]; try exact IH; try (unfold hist; simpl; rewrite Eg; exact IH).
      + destruct (batch J l); [exact IH|unfold hist; simpl; rewrite Eg; exact IH].
    - unfold g_send. destruct (k_g s) as [| | |b r0|] eqn:Eg; try exact IH. unfold hist in IH. rewrite Eg in IH.
      unfold send. destruct (k_closed s); [unfold hist; simpl; rewrite Eg; exact IH|].
      destruct (Nat.ltb _ _); [|unfold hist; rewrite Eg; exact IH]. unfold hist. simpl. intros _. exact IH.
    - unfold k_close. destruct (k_closed s); [exact IH|]. destruct (k_w s); try exact IH.
      destruct (k_g s) eqn:Eg; try exact IH.
      apply (hist_keep _ s); [|apply joins_close|exact IH].
      unfold finish_keysign. destruct (match r with Some received => _ | None => _ end). reflexivity.
  Qed.
End L.
