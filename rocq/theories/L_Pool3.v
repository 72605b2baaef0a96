(** The whole pool, when nothing goes wrong. *)
From Coq Require Import ZArith NArith Ascii String List Lia.
From stdpp Require Import base list list_numbers strings sorting.
From Verif Require Import Base L_Base S_Threshold M_Conv S_Conv L_Conv M_Semver M_Server M_Base64 M_Batch S_Batch L_Batch M_Sort L_Sort
  M_Notifier S_Notifier L_Notifier M_Join M_Common M_Blame M_KeySign S_KeySign L_KeySign M_Pool S_Pool L_Pool L_Pool2 P_Batch P_KeySign.

Lemma prepare_job e pool strs signers h v j : prepare e pool strs signers h v = inr j ->
  oldJoinParty v <> None /\ exists ps st, decode_msgs (sort_strings strs) = Some ps /\
  j = SJob (se_sha e (to_bytes (join_strings "," (sort_strings strs)) ++ to_bytes (concat_strings (sort_strings signers)))) pool
        (sort_msgs ps) (sort_strings signers) h v (threshold_of (Z.of_nat (length (ls_participants st)))) (ls_participants st) (ls_local st).
Proof.
  unfold prepare. cbn [requestToMsgId]. unfold MsgToHashString.
  destruct (_ ++ _)%list as [|a x']; [discriminate|].
  destruct (se_state e pool) as [st|]; [|discriminate].
  destruct (decode_msgs (sort_strings strs)) as [ps|] eqn:Hd; [|discriminate].
  destruct (oldJoinParty v) as [old|] eqn:Ho; [|discriminate].
  destruct (_ && old)%bool; [discriminate|]. destruct (_ && old)%bool; [discriminate|]. intros [= <-].
  split; [discriminate|]. exists ps, st. split; reflexivity.
Qed.
Lemma prepare_msgs e pool strs signers h v j ms : prepare e pool strs signers h v = inr j -> payloads strs ms ->
  sj_msgs j ≡ₚ ms /\ StronglySorted N.ge (MsgToHashInt <$> sj_msgs j).
Proof.
  intros Hp Hm. apply prepare_job in Hp as (_ & ps & st & Hd & ->). cbn [sj_msgs]. split; [|apply sort_msgs_desc].
  apply decode_msgs_payloads in Hd. destruct (payloads_perm _ strs _ Hd) as (ps' & Hps & Hp); [apply sort_strings_perm|].
  rewrite sort_msgs_perm, Hp. clear -Hm Hps. unfold payloads in *. revert ps' Hps.
  induction Hm as [|s m ss ms Hs HF IH]; intros ps' Hps; inversion Hps as [|s' m' ss' ms' Hs' HF']; subst; [reflexivity|].
  assert (m' = m) as -> by congruence. rewrite (IH _ HF'). reflexivity.
Qed.

Lemma all_signed_perm ms ms' l : ms ≡ₚ ms' -> all_signed (fun _ _ => True) ms l -> all_signed (fun _ _ => True) ms' l.
Proof.
  intros Hp (sigs & Hs & HF). destruct (Permutation_Forall2 Hp HF) as (sigs' & Hp' & HF').
  exists sigs'. split; [rewrite Hs; exact Hp'|exact HF'].
Qed.

Section Pool.
  Context (E : string -> senv) (J : string -> sjob) (sha : bytes -> string) (keys peers : list string).
  Context (pool : string) (strs signers : list string) (h : Z) (v : string) (ms : list bytes).
  Context (party : list string) (l : list ecsig).
  Context (Hone : one_request E J sha keys peers pool strs signers h v).
  Context (Hpay : payloads strs ms) (Hset : signature_set E peers pool ms l) (Hread : readable E J peers l).
  Context (Hne : party <> []) (Hsub : forall q, q ∈ party -> q ∈ peers) (Hlist : forall q, q ∈ party -> listed (E q) (J q)).

  Record node_ok (e : senv) (j : sjob) : Prop := NodeOk {
    no_id : sj_id j <> ""%string; no_pool : sj_pool j <> ""%string; no_msgs : sj_msgs j <> [];
    no_height : sj_height j <> 0%Z; no_old : oldJoinParty (sj_version j) <> None;
    no_mem : Forall2 (fun k q => peer_of e k = Some q /\ se_pub e q = Some k) (sj_participants j) peers;
    no_signers : forall k, k ∈ sj_signers j -> k ∈ sj_participants j;
    no_self : se_self e ∈ peers; no_local : se_pub e (se_self e) = Some (sj_local j);
    no_listed : se_self e ∈ party -> listed e j;
    no_sorted : StronglySorted N.ge (MsgToHashInt <$> sj_msgs j);
    no_all : all_signed (fun _ _ => True) (sj_msgs j) l;
    no_valid : forall g m, g ∈ l -> m ∈ sj_msgs j -> be_val (sg_M g) = MsgToHashInt m ->
      sg_signature g <> None /\ verifies (se_n e) (sj_pool j) m g }.

  Lemma the_nodes p : p ∈ peers -> node_ok (E p) (J p) /\ se_self (E p) = p /\ sj_msgs (J p) ≡ₚ ms /\ sj_pool (J p) = pool.
  Proof.
    intros Hin. destruct Hone as [Hh Hs Hp Hht Hk Hsg Hn]. destruct (Hn p Hin) as (H1 & H2 & H3 & H4 & H5 & H6).
    destruct (prepare_msgs _ _ _ _ _ _ _ _ H3 Hpay) as [Hm Hso]. pose proof (prepare_job _ _ _ _ _ _ _ H3) as (Ho & ps & st & Hd & Hj).
    assert (Hpl : sj_pool (J p) = pool) by (rewrite Hj; reflexivity).
    split; [|split; [exact H2|split; [exact Hm|exact Hpl]]]. split.
    - rewrite Hj. cbn. rewrite H1. apply Hh.
    - rewrite Hpl. exact Hp.
    - intros H0. rewrite H0 in Hm. apply Permutation_nil in Hm. subst ms. inversion Hpay; congruence.
    - rewrite Hj. exact Hht.
    - rewrite Hj. exact Ho.
    - rewrite H4. exact H5.
    - intros k. rewrite H4, Hj. cbn [sj_signers]. rewrite (sort_strings_perm signers). apply Hsg.
    - rewrite H2. exact Hin.
    - rewrite H2. exact H6.
    - rewrite H2. apply Hlist.
    - exact Hso.
    - apply (all_signed_perm ms); [symmetry; exact Hm|apply Hset].
    - intros g m Hg Hmin Hv. rewrite Hpl. apply (ss_valid _ _ _ _ _ Hset p g m Hin Hg); [rewrite <- Hm; exact Hmin|exact Hv].
  Qed.

  Lemma same_id p q : p ∈ peers -> q ∈ peers -> sj_id (J p) = sj_id (J q) /\ sj_msgs (J p) = sj_msgs (J q).
  Proof.
    intros Hp Hq. destruct (or_node _ _ _ _ _ _ _ _ _ _ Hone p Hp) as (H1 & _ & H3 & _).
    destruct (or_node _ _ _ _ _ _ _ _ _ _ Hone q Hq) as (G1 & _ & G3 & _).
    apply prepare_job in H3 as (_ & ps & st & Hd & ->). apply prepare_job in G3 as (_ & ps' & st' & Hd' & ->).
    cbn [sj_id sj_msgs]. rewrite H1, G1. split; [reflexivity|]. congruence.
  Qed.

  Lemma step_ninv p s lab : p ∈ peers -> kinv (E p) (J p) s -> ninv (E p) (J p) peers party l s -> allowed party l s lab ->
    ninv (E p) (J p) peers party l (kstep (E p) (J p) s lab).
  Proof. intros Hp. destruct (the_nodes p Hp) as [[] _]. apply kstep_ninv; assumption. Qed.
  Lemma step_over p s lab : p ∈ peers -> kinv (E p) (J p) s -> k_w s <> WNew /\ k_w s <> WSelect ->
    k_w (kstep (E p) (J p) s lab) <> WNew /\ k_w (kstep (E p) (J p) s lab) <> WSelect.
  Proof. intros Hp. destruct (the_nodes p Hp) as [[] _]. apply (wait_over _ _ peers party); assumption. Qed.
  Lemma node_inv tr p : kinv (E p) (J p) (at_node E J tr p).
  Proof. apply krun_inv. Qed.
  Lemma node_no_crash tr p : p ∈ peers -> k_crash (at_node E J tr p) = false.
  Proof.
    intros Hp. destruct (k_crash (at_node E J tr p)) eqn:Hc; [|reflexivity].
    destruct (the_nodes p Hp) as [[] _]. destruct (no_msgs0 (ki_crash _ _ _ (node_inv tr p) Hc)).
  Qed.
  Lemma mail_to tr p sig ps : p ∈ peers -> (sig, ps) ∈ k_bcasts (at_node E J tr p) -> ps = peers.
  Proof.
    intros Hp Hin. destruct (C101_broadcasts _ _ _ _ _ Hin) as (_ & Hpp & _).
    destruct (the_nodes p Hp) as [Hn _]. pose proof (no_mem _ _ Hn) as Hm. clear -Hpp Hm. unfold pool_peers in Hpp.
    revert ps Hpp. induction Hm as [|k q ks qs [Hk _] HF IH]; intros ps Hpp; inversion Hpp as [|k' q' ks' qs' Hk' HF']; subst; [reflexivity|].
    f_equal; [congruence|apply IH, HF'].
  Qed.

  Definition over (tr : list (string * klabel)) (q : string) : Prop :=
    k_w (at_node E J tr q) <> WNew /\ k_w (at_node E J tr q) <> WSelect.
  Record pinv (tr : list (string * klabel)) (air : list mail) : Prop := PInv {
    pi_node : forall p, p ∈ peers -> ninv (E p) (J p) peers party l (at_node E J tr p);
    pi_others : forall p, p ∉ peers -> at_node E J tr p = k_init;
    pi_mail : forall p q d ps, (Some d, ps) ∈ k_bcasts (at_node E J tr p) -> q ∈ peers -> q <> p ->
      (q, notification (se_n (E p)) (sj_id (J p)) (Some d)) ∈ air \/ over tr q }.

  Lemma pinv_intact tr air : pinv tr air -> intact E J tr.
  Proof.
    intros [Hn Ho Hm] p q sig ps b Hin Hq Hb.
    assert (Hp : p ∈ peers).
    { destruct (decide (p ∈ peers)) as [|Hx]; [assumption|]. rewrite (Ho p Hx) in Hin. inversion Hin. }
    pose proof (mail_to _ _ _ _ Hp Hin) as ->.
    destruct sig as [d|].
    - destruct (n_b _ _ _ _ _ _ (Hn p Hp) d peers Hin) as [[Hd _] _].
      destruct (rd_sigs _ _ _ _ Hread p q d Hp Hq Hd) as (b' & Hb' & Hde). assert (b' = b) as -> by congruence. exact Hde.
    - apply (rd_failure _ _ _ _ Hread p q b Hp Hq Hb).
  Qed.

  Lemma goes_allowed tr p lab : goes_well E J peers party l tr p lab -> (forall d, lab <> KWData d) ->
    allowed party l (at_node E J tr p) lab.
  Proof. intros [_ Hg] Hl. destruct lab as [|d| | | | | |o|c| |]; try exact Hg. destruct (Hl d eq_refl). Qed.
  Lemma allowed_goes tr p lab : p ∈ peers -> allowed party l (at_node E J tr p) lab -> (forall d, lab <> KWData d) ->
    goes_well E J peers party l tr p lab.
  Proof. intros Hp Hg Hl. split; [exact Hp|]. destruct lab as [|d| | | | | |o|c| |]; try exact Hg. destruct (Hl d eq_refl). Qed.

  Lemma over_snoc tr x q : q ∈ peers -> over tr q -> over (tr ++ [x]) q.
  Proof.
    intros Hq Ho. destruct x as [p lab]. unfold over. destruct (decide (p = q)) as [->|Hne'].
    - rewrite at_node_same. apply step_over; [exact Hq|apply node_inv|exact Ho].
    - rewrite at_node_other by exact Hne'. exact Ho.
  Qed.

  Lemma run_pinv tr air : pool_run E J (goes_well E J peers party l) False tr air -> pinv tr air.
  Proof.
    induction 1 as [|tr air p lab Hr IH Hl Hok|tr a1 q pl a2 d Hr IH Ha Hok|tr a1 q pl a2 Hr IH Ha|tr a1 x a2 Hr IH Hlo].
    - split; [intros; apply ninv_init|reflexivity|]. intros p q d ps Hin. inversion Hin.
    - destruct IH as [Hn Ho Hm]. pose proof (proj1 Hok) as Hp. split.
      + intros p' Hp'. destruct (decide (p = p')) as [<-|Hd]; [|rewrite at_node_other by exact Hd; apply Hn, Hp'].
        rewrite at_node_same. apply step_ninv; [exact Hp|apply node_inv|apply Hn, Hp|apply goes_allowed; assumption].
      + intros p' Hp'. rewrite at_node_other; [apply Ho, Hp'|]. intros ->. contradiction.
      + intros p' q d ps Hin Hq Hqp.
        assert (Hold : (Some d, ps) ∈ k_bcasts (at_node E J tr p') ->
          (q, notification (se_n (E p')) (sj_id (J p')) (Some d)) ∈ air ++ mails E J p (drop (length (k_bcasts (at_node E J tr p))) (k_bcasts (at_node E J (tr ++ [(p, lab)]) p))) \/ over (tr ++ [(p, lab)]) q).
        { intros Hin'. destruct (Hm p' q d ps Hin' Hq Hqp) as [H|H]; [left; apply elem_of_app; left; exact H|right; apply over_snoc; assumption]. }
        destruct (decide (p = p')) as [<-|Hd]; [|rewrite at_node_other in Hin by exact Hd; exact (Hold Hin)].
        pose proof Hin as Hin0. rewrite at_node_same in Hin |- *. destruct (kstep_bcasts (E p) (J p) (at_node E J tr p) lab) as [b Hb].
        rewrite Hb in Hin |- *. rewrite at_node_same, Hb in Hold. rewrite drop_app in *.
        apply elem_of_app in Hin as [Hin|Hin]; [exact (Hold Hin)|]. left. apply elem_of_app. right.
        destruct (the_nodes p Hp) as (_ & Hself & _).
        apply (in_mails E J p b q (Some d) ps Hin); [|rewrite Hself; exact Hqp].
        rewrite (mail_to _ _ _ _ Hp Hin0). exact Hq.
    - pose proof (pinv_intact _ _ IH) as Hint. destruct IH as [Hn Ho Hm]. destruct Hok as [Hq Hok]. cbn in Hok.
      destruct (air_origin _ _ _ _ _ _ Hr q pl) as (p & sig & ps & Hb & Hqp & Hs & Hpl); [apply elem_of_app; right; left|].
      assert (Hp : p ∈ peers).
      { destruct (decide (p ∈ peers)) as [|Hx]; [assumption|]. rewrite (Ho p Hx) in Hb. inversion Hb. }
      assert (Hd : d = default [] sig).
      { unfold arrives in Ha. rewrite Hpl in Ha. destruct (notification _ _ sig) as [b|] eqn:Hno; [|discriminate].
        rewrite (Hint p q sig ps b Hb Hqp Hno) in Ha. destruct (String.eqb _ _); [congruence|discriminate]. }
      assert (Hdg : d = [] \/ good l d).
      { destruct sig as [d'|]; cbn in Hd; [|left; exact Hd]. subst d'. right. apply (n_b _ _ _ _ _ _ (Hn p Hp) d ps Hb). }
      split.
      + intros p' Hp'. destruct (decide (q = p')) as [<-|Hx]; [|rewrite at_node_other by exact Hx; apply Hn, Hp'].
        rewrite at_node_same. apply step_ninv; [exact Hq|apply node_inv|apply Hn, Hq|exact Hdg].
      + intros p' Hp'. rewrite at_node_other; [apply Ho, Hp'|]. intros ->. contradiction.
      + intros p' q' d' ps' Hin Hq' Hqp'.
        assert (Hin' : (Some d', ps') ∈ k_bcasts (at_node E J tr p')).
        { destruct (decide (q = p')) as [<-|Hx]; [|rewrite at_node_other in Hin by exact Hx; exact Hin].
          rewrite at_node_same in Hin. unfold kstep in Hin. destruct (k_crash _); [exact Hin|]. unfold w_data in Hin.
          destruct (k_w _); try exact Hin. destruct (ProcessSignature _ _ _); try exact Hin.
          destruct (Nat.eqb _ _); [exact Hin|]. destruct (batch _ _); exact Hin. }
        destruct (Hm p' q' d' ps' Hin' Hq' Hqp') as [H|H]; [|right; apply over_snoc; assumption].
        apply elem_of_app in H as [H|H]; [left; apply elem_of_app; left; exact H|].
        apply elem_of_cons in H as [H|H]; [|left; apply elem_of_app; right; exact H].
        pose proof (f_equal fst H) as Hqq. pose proof (f_equal snd H) as Hpl'. cbn [fst snd] in Hqq, Hpl'. subst q'. right.
        assert (Hp' : p' ∈ peers).
        { destruct (decide (p' ∈ peers)) as [|Hx]; [assumption|]. rewrite (Ho p' Hx) in Hin'. inversion Hin'. }
        assert (d = d').
        { unfold arrives in Ha. rewrite <- Hpl' in Ha. destruct (notification _ _ (Some d')) as [b|] eqn:Hno; [|discriminate].
          pose proof (mail_to _ _ _ _ Hp' Hin') as ->.
          rewrite (Hint p' q (Some d') peers b Hin' Hq Hno) in Ha. destruct (String.eqb _ _); [cbn in Ha; congruence|discriminate]. }
        subst d'. unfold over. rewrite at_node_same. destruct (the_nodes q Hq) as [[] _].
        apply (data_wakes _ _ l); try assumption; [apply node_no_crash, Hq|apply (n_b _ _ _ _ _ _ (Hn p' Hp') d ps' Hin')].
    - pose proof (pinv_intact _ _ IH) as Hint. destruct IH as [Hn Ho Hm]. split; [exact Hn|exact Ho|].
      intros p q' d ps Hin Hq Hqp. destruct (Hm p q' d ps Hin Hq Hqp) as [H|H]; [|right; exact H].
      apply elem_of_app in H as [H|H]; [left; apply elem_of_app; left; exact H|].
      apply elem_of_cons in H as [H|H]; [|left; apply elem_of_app; right; exact H].
      pose proof (f_equal fst H) as Hqq. pose proof (f_equal snd H) as Hpl. cbn [fst snd] in Hqq, Hpl. subst q'. exfalso.
      assert (Hp : p ∈ peers).
      { destruct (decide (p ∈ peers)) as [|Hx]; [assumption|]. rewrite (Ho p Hx) in Hin. inversion Hin. }
      destruct (n_b _ _ _ _ _ _ (Hn p Hp) d ps Hin) as [[Hd _] _].
      destruct (rd_sigs _ _ _ _ Hread p q d Hp Hq Hd) as (b & Hb & Hde). unfold arrives in Ha. rewrite <- Hpl, Hb, Hde in Ha.
      rewrite (proj1 (same_id p q Hp Hq)), String.eqb_refl in Ha. discriminate.
    - contradiction.
  Qed.

  (** ** Nobody waits for ever *)
  Lemma pool_progress tr air q : pool_run E J (goes_well E J peers party l) False tr air ->
    q ∈ peers -> k_result (at_node E J tr q) = None ->
    exists p lab air', pool_run E J (goes_well E J peers party l) False (tr ++ [(p, lab)]) air' /\ p ∈ peers /\
      kstep (E p) (J p) (at_node E J tr p) lab <> at_node E J tr p.
  Proof.
    intros Hr Hq Hres. pose proof (run_pinv _ _ Hr) as Hpi. pose proof (pinv_intact _ _ Hpi) as Hint. destruct Hpi as [Hn Ho Hm].
    assert (Hopen : forall p, k_result (at_node E J tr p) = None -> k_closed (at_node E J tr p) = false).
    { intros p Hp. destruct (k_closed (at_node E J tr p)) eqn:Hc; [|reflexivity].
      pose proof (ki_e _ _ _ (node_inv tr p)) as He. unfold e_inv in He. rewrite Hc in He.
      destruct He as (? & ? & ? & _ & _ & ? & ? & Hx & _). congruence. }
    assert (Hen : forall p, p ∈ peers -> k_closed (at_node E J tr p) = false ->
      (exists p lab air', pool_run E J (goes_well E J peers party l) False (tr ++ [(p, lab)]) air' /\ p ∈ peers /\
        kstep (E p) (J p) (at_node E J tr p) lab <> at_node E J tr p) \/
      (k_w (at_node E J tr p) = WSelect /\ (exists r, k_g (at_node E J tr p) = GEnd r GNotActive) /\ p ∉ party)).
    { intros p Hp Hc. destruct (the_nodes p Hp) as ([] & Hself & _).
      destruct (ninv_enabled (E p) (J p) peers party l) with (s := at_node E J tr p) as [(lab & Hal & Hnd & Hst)|Hx]; try assumption;
        [apply node_inv|apply Hn, Hp|apply node_no_crash, Hp| |right; rewrite Hself in Hx; exact Hx].
      left. exists p, lab. eexists. split; [apply pr_local; [exact Hr|exact Hnd|apply allowed_goes; assumption]|]. split; [exact Hp|exact Hst]. }
    destruct (Hen q Hq (Hopen q Hres)) as [H|(Hw & (r & Hg) & Hnp)]; [exact H|].
    destruct party as [|p0 rest] eqn:Epa; [contradiction|]. rewrite <- Epa in *.
    assert (Hp0 : p0 ∈ party) by (rewrite Epa; left).
    pose proof (Hsub p0 Hp0) as Hp0'.
    destruct (k_closed (at_node E J tr p0)) eqn:Hc0.
    2: { destruct (Hen p0 Hp0' Hc0) as [H|(_ & _ & Hx)]; [exact H|contradiction]. }
    (* p0 has answered: somebody has broadcast the signatures *)
    assert (Hb : exists p d, p ∈ peers /\ (Some d, peers) ∈ k_bcasts (at_node E J tr p) /\ good l d).
    { assert (Htold : told (at_node E J tr p0) -> exists p d, p ∈ peers /\ (Some d, peers) ∈ k_bcasts (at_node E J tr p) /\ good l d).
      { intros [r0 Hr0]. destruct (waited_for (E p0) (J p0) (mine p0 tr) r0) as (d & Hd & (Hdn & _) & _); [right; exact Hr0|].
        apply mine_in in Hd. destruct (data_origin _ _ _ _ _ _ Hr Hint p0 d Hd Hdn) as (p & ps & Hb & _ & _ & _).
        assert (Hp : p ∈ peers).
        { destruct (decide (p ∈ peers)) as [|Hx]; [assumption|]. rewrite (Ho p Hx) in Hb. inversion Hb. }
        pose proof (mail_to _ _ _ _ Hp Hb) as ->. exists p, d. split; [exact Hp|]. split; [exact Hb|].
        apply (n_b _ _ _ _ _ _ (Hn p Hp) d peers Hb). }
      destruct (closed_ended _ (ki_e _ _ _ (node_inv tr p0)) Hc0) as [[w Hw0] (r0 & e0 & Hg0)].
      pose proof (n_g _ _ _ _ _ _ (Hn p0 Hp0')) as Hok. unfold g_ok in Hok. rewrite Hg0 in Hok.
      destruct (the_nodes p0 Hp0') as (_ & Hself & _).
      destruct e0.
      - destruct Hok as [(d & H1 & _ & H3)|Ht]; [exists p0, d; auto|exact (Htold Ht)].
      - exact (Htold Hok).
      - destruct Hok as [Hx|Ht]; [rewrite Hself in Hx; contradiction|exact (Htold Ht)].
      - contradiction. }
    destruct Hb as (p & d & Hp & Hb & Hd).
    assert (Hqp : q <> p).
    { intros ->. pose proof (ki_g _ _ _ (node_inv tr p)) as Hgi. unfold g_inv in Hgi. rewrite Hg in Hgi.
      destruct Hgi as [Hx _]. rewrite Hx in Hb. inversion Hb. }
    destruct (Hm p q d peers Hb Hq Hqp) as [Hair|[_ Hov]]; [|contradiction].
    apply elem_of_list_split in Hair as (a1 & a2 & ->).
    destruct (rd_sigs _ _ _ _ Hread p q d Hp Hq (proj1 Hd)) as (b & Hbn & Hde). rewrite Hbn in Hr.
    exists q, (KWData d), (a1 ++ a2). split.
    - apply (pr_deliver _ _ _ _ tr a1 q (Some b) a2 d Hr).
      + unfold arrives. rewrite Hde, (proj1 (same_id p q Hp Hq)), String.eqb_refl. reflexivity.
      + split; [exact Hq|]. cbn. congruence.
    - split; [exact Hq|]. destruct (the_nodes q Hq) as [[] _]. apply (told_moves _ _ l); try assumption. apply node_no_crash, Hq.
  Qed.

  Definition total (tr : list (string * klabel)) : nat := sum_list_with (fun p => measure (at_node E J tr p)) peers.
  Lemma total_less tr p lab : p ∈ peers -> kstep (E p) (J p) (at_node E J tr p) lab <> at_node E J tr p ->
    total (tr ++ [(p, lab)]) < total tr.
  Proof.
    intros Hp Hne'. unfold total.
    assert (Hle : forall q, measure (at_node E J (tr ++ [(p, lab)]) q) <= measure (at_node E J tr q)).
    { intros q. destruct (decide (p = q)) as [<-|Hx]; [|rewrite at_node_other by exact Hx; lia].
      rewrite at_node_same. destruct (kstep_better (E p) (J p) (at_node E J tr p) lab) as [Hx|Hx]; [rewrite Hx|]; lia. }
    assert (Hlt : measure (at_node E J (tr ++ [(p, lab)]) p) < measure (at_node E J tr p)).
    { rewrite at_node_same. destruct (kstep_better (E p) (J p) (at_node E J tr p) lab) as [Hx|Hx]; [contradiction|exact Hx]. }
    assert (Hall : forall ps, sum_list_with (fun q => measure (at_node E J (tr ++ [(p, lab)]) q)) ps <= sum_list_with (fun q => measure (at_node E J tr q)) ps).
    { induction ps as [|q ps IH]; cbn [sum_list_with]; [lia|]. pose proof (Hle q). lia. }
    clear -Hp Hlt Hall Hle. revert Hp. generalize peers as qs. induction qs as [|q ps IH]; intros Hp; [inversion Hp|]. cbn [sum_list_with].
    pose proof (Hall ps). pose proof (Hle q). apply elem_of_cons in Hp as [<-|Hp]; [lia|]. specialize (IH Hp). lia.
  Qed.

  Lemma pool_finishes tr air : pool_run E J (goes_well E J peers party l) False tr air ->
    exists tr' air', pool_run E J (goes_well E J peers party l) False (tr ++ tr') air' /\
      forall q, q ∈ peers -> k_result (at_node E J (tr ++ tr') q) <> None.
  Proof.
    remember (total tr) as n eqn:Hn. revert tr air Hn. induction n as [n IH] using lt_wf_ind. intros tr air Hn Hr.
    destruct (decide (Exists (fun q => k_result (at_node E J tr q) = None) peers)) as [Hex|Hno].
    - apply Exists_exists in Hex as (q & Hq & Hres).
      destruct (pool_progress tr air q Hr Hq Hres) as (p & lab & air' & Hr' & Hp & Hst).
      destruct (IH (total (tr ++ [(p, lab)]))) with (tr := tr ++ [(p, lab)]) (air := air') as (tr' & air'' & Hr'' & Hall);
        [rewrite Hn; apply total_less; assumption|reflexivity|exact Hr'|].
      exists ((p, lab) :: tr'), air''. rewrite <- app_assoc in Hr'', Hall. split; [exact Hr''|exact Hall].
    - exists [], air. rewrite app_nil_r. split; [exact Hr|]. intros q Hq Hres. apply Hno, Exists_exists. eauto.
  Qed.

  (** ** The answers *)
  Lemma good_answer q r : q ∈ peers -> good_resp (J q) l r ->
    signed_answer (E q) pool ms l r.
  Proof.
    intros Hq (d & Hd & Hst & Hbl & Hlen & Hx). destruct (the_nodes q Hq) as ([] & _ & Hms & Hpl).
    split; [exact Hst|]. split; [exact Hbl|]. exists (zip (sj_msgs (J q)) d).
    pose proof (good_length (J q) l no_sorted0 no_all0 d Hd) as Hl.
    pose proof (good_values (J q) l no_sorted0 no_all0 d Hd) as Hv.
    split; [rewrite fst_zip by lia; exact Hms|]. split; [rewrite snd_zip by lia; apply Hd|]. split.
    - intros m g Hin. apply elem_of_list_lookup in Hin as [k Hk]. apply lookup_zip_with_Some in Hk as (m' & g' & [= <- <-] & Hm' & Hg').
      assert (Hv' : ((fun g => be_val (sg_M g)) <$> d) !! k = (MsgToHashInt <$> sj_msgs (J q)) !! k) by (rewrite Hv; reflexivity).
      rewrite !list_lookup_fmap, Hm', Hg' in Hv'. cbn in Hv'. injection Hv' as Hv'. split; [exact Hv'|]. rewrite <- Hpl.
      apply no_valid0; [|apply (elem_of_list_lookup_2 _ _ _ Hm')|exact Hv'].
      rewrite <- (proj1 Hd). apply (elem_of_list_lookup_2 _ _ _ Hg').
    - apply list_eq. intros k. rewrite list_lookup_fmap.
      destruct (rp_sigs r !! k) as [x|] eqn:Hk.
      + destruct (Hx k x Hk) as (m & g & Hm & Hg & ->).
        assert (Hz : zip (sj_msgs (J q)) d !! k = Some (m, g)) by (apply lookup_zip_with_Some; eauto). rewrite Hz. reflexivity.
      + apply lookup_ge_None in Hk. rewrite (proj2 (lookup_ge_None (zip (sj_msgs (J q)) d) k)); [reflexivity|].
        rewrite zip_with_length. lia.
  Qed.

  Lemma pool_answer tr air q r er : pool_run E J (goes_well E J peers party l) False tr air -> q ∈ peers ->
    k_result (at_node E J tr q) = Some (r, er) -> er = GNone /\ good_resp (J q) l r.
  Proof.
    intros Hr Hq Hres. apply (ninv_answer (E q) (J q) peers party l (at_node E J tr q) r er (node_inv tr q)); [|exact Hres].
    apply (pi_node _ _ (run_pinv _ _ Hr)), Hq.
  Qed.
End Pool.
