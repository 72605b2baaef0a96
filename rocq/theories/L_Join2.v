(** Lemmas: histories of the join-party machine. *)
From Coq Require Import ZArith NArith Ascii String List Lia.
From stdpp Require Import base list strings gmap.
From Verif Require Import Base L_Base M_Conv M_Join S_Join L_Join.

Section hist.
  Context (sha : bytes -> string) (peerDecode : string -> option string) (me : string).
  Notation run := (jrun sha peerDecode me).
  Notation step := (jstep sha peerDecode me).

  (** What one step does to a call. *)
  Definition call_le (c c' : jcall) : Prop :=
    jc_msg c' = jc_msg c /\ jc_role c' = jc_role c /\ jc_threshold c' = jc_threshold c /\
    forall o, jc_stage c = JDone o -> jc_stage c' = JDone o /\ jc_sent c' = jc_sent c /\ jc_notified c' = jc_notified c.
  Lemma call_le_refl c : call_le c c.
  Proof. repeat split; auto. Qed.
  Lemma call_le_trans a b c : call_le a b -> call_le b c -> call_le a c.
  Proof.
    intros (A1 & A2 & A3 & A4) (B1 & B2 & B3 & B4). repeat split; try congruence.
    - apply A4 in H as (H & _). apply B4 in H as (H & _). exact H.
    - apply A4 in H as (H & E & _). apply B4 in H as (_ & E' & _). congruence.
    - apply A4 in H as (H & _ & E). apply B4 in H as (_ & _ & E'). congruence.
  Qed.

  Lemma set_call_le j j' c c0 c' s :
    j_calls s !! j = Some c -> j_calls s !! j' = Some c0 -> (call_le c0 c') ->
    exists c1, <[j' := c']> (j_calls s) !! j = Some c1 /\ call_le c c1.
  Proof.
    intros H H0 Hle. destruct (decide (j = j')) as [->|Hne].
    - rewrite lookup_insert. rewrite H in H0. injection H0 as ->. eauto.
    - rewrite lookup_insert_ne by congruence. exists c. auto using call_le_refl.
  Qed.
  Lemma set_call_fresh j j' c c' s :
    j_calls s !! j = Some c -> j_calls s !! j' = None ->
    exists c1, <[j' := c']> (j_calls s) !! j = Some c1 /\ call_le c c1.
  Proof.
    intros H H0. rewrite lookup_insert_ne by congruence. exists c. auto using call_le_refl.
  Qed.

  Ltac triv := eexists; split; [eassumption|apply call_le_refl].
  Ltac le := repeat split; cbn; intros; try reflexivity; try congruence; try assumption.

  Lemma call_step l s j c :
    j_calls s !! j = Some c -> exists c', j_calls (step l s) !! j = Some c' /\ call_le c c'.
  Proof.
    intros H. destruct l as [j' id h ps t|j' id ps|j' x|h p m|h|j'|j'|j'|j' ord]; cbn [jstep].
    - destruct (j_calls s !! j') eqn:Ec; [triv|]. unfold JoinPartyWithLeader, start.
      destruct (LeaderNode _ _ _ _) as [leader|]; [|cbn; eapply set_call_fresh; eauto].
      case_decide; destruct (getPeerIDs _ _); cbn; eapply set_call_fresh; eauto.
    - destruct (j_calls s !! j') eqn:Ec; [triv|]. unfold JoinPartyWithRetry, start.
      destruct (getPeerIDs _ _); cbn; eapply set_call_fresh; eauto.
    - destruct (j_calls s !! j') eqn:Ec; [|triv]. cbn. eapply set_call_le; eauto. le.
    - destruct (j_handlers s !! h); [triv|]. case_decide; [triv|]. unfold dispatch.
      destruct m as [id|lm]; [|case_decide; [|case_decide; [|triv]]];
        (destruct (j_index s !! _) as [g|]; [|triv]; destruct (j_groups s !! g); triv).
    - unfold handle. destruct (j_handlers s !! h) as [[g p old|g p lm|g|g]|]; [..|triv];
        (destruct (j_groups s !! g); [|triv]).
      + destruct (updatePeer p g0) as [g' [[|]|]]; triv.
      + case_decide; triv.
      + destruct (Nat.ltb _ _); triv.
      + destruct (Nat.ltb _ _); triv.
    - unfold on_notify. destruct (j_calls s !! j') as [c0|] eqn:E0; [|triv].
      destruct (j_groups s !! j') as [g|]; [|triv].
      destruct (jc_stage c0) eqn:Est; try triv. destruct (g_notify g); [triv|].
      destruct (jc_role c0); [| |destruct (getCoordinationStatus g); [|triv]]; cbn; eapply set_call_le; eauto; le.
    - unfold on_timeout. destruct (j_calls s !! j') as [c0|] eqn:E0; [|triv].
      destruct (jc_stage c0) eqn:Est; try triv. cbn; eapply set_call_le; eauto; le.
    - unfold on_sig. destruct (j_calls s !! j') as [c0|] eqn:E0; [|triv].
      destruct (jc_stage c0) eqn:Est; try triv. destruct (jc_sig c0); [triv|].
      destruct (jc_role c0) eqn:Er; [| |triv]; cbn; eapply set_call_le; eauto; le.
    - unfold finish. destruct (j_calls s !! j') as [c0|] eqn:E0; [|triv].
      destruct (j_groups s !! j') as [g|]; [|triv]. destruct (jc_role c0) eqn:Er.
      + destruct (jc_stage c0) eqn:Est; try triv. unfold finish_leader, done.
        case_decide; [|destruct (Z.ltb _ _)]; cbn; eapply set_call_le; eauto; le.
      + unfold finish_member, done. destruct (jc_stage c0) eqn:Est; try triv.
        * destruct (g_resp g); [case_decide|]; cbn; eapply set_call_le; eauto; le.
        * destruct (g_resp g); [|triv]. destruct (getPeerIDs _ _); [destruct (Z.ltb _ _)|]; cbn; eapply set_call_le; eauto; le.
        * destruct (g_resp g); [|triv]. destruct (Nat.eqb _ _); cbn; eapply set_call_le; eauto; le.
      + destruct (jc_stage c0) eqn:Est; try triv. unfold finish_leaderless, done. cbn. eapply set_call_le; eauto; le.
  Qed.

  (** What one step does to a group. *)
  Definition group_le (l : jlabel) (s : jstate) (g g' : group) : Prop :=
    g_leader g' = g_leader g /\ g_threshold g' = g_threshold g /\ g_cap g' = g_cap g /\
    (g_in g' = g_in g \/ exists h p m, l = LMsg h p m /\ j_handlers s !! h = None /\ g_in g' = g_in g ++ [(p, m)]).
  Lemma group_le_refl l s g : group_le l s g g.
  Proof. repeat split; auto. Qed.

  Lemma updatePeer_le l s p g : group_le l s g (fst (updatePeer p g)).
  Proof.
    destruct (updatePeer p g) as [g' r] eqn:E. apply updatePeer_cases in E.
    destruct E as [(-> & _)|[(_ & _ & _ & ->)|(_ & _ & _ & _ & ->)]]; cbn; [apply group_le_refl|repeat split; auto..].
  Qed.

  Lemma set_group_le l s k gk gk' j g :
    j_groups s !! k = Some gk -> group_le l s gk gk' -> j_groups s !! j = Some g ->
    exists g', <[k := gk']> (j_groups s) !! j = Some g' /\ group_le l s g g'.
  Proof.
    intros Hk Hle Hj. destruct (decide (j = k)) as [->|Hne].
    - rewrite lookup_insert. rewrite Hk in Hj. injection Hj as ->. eauto.
    - rewrite lookup_insert_ne by congruence. exists g. auto using group_le_refl.
  Qed.

  Ltac trivg := eexists; split; [eassumption|apply group_le_refl].
  Ltac leg := unfold group_le; cbn; repeat split; auto; right; repeat eexists; eauto.

  Lemma group_step l s j g :
    jinv peerDecode me s -> j_groups s !! j = Some g -> exists g', j_groups (step l s) !! j = Some g' /\ group_le l s g g'.
  Proof.
    intros I H. destruct l as [j' id h ps t|j' id ps|j' x|h p m|h|j'|j'|j'|j' ord]; cbn [jstep].
    - destruct (j_calls s !! j') eqn:Ec; [trivg|]. destruct (ji_group _ _ _ I _ _ H) as (c & Hc & _).
      unfold JoinPartyWithLeader, start. destruct (LeaderNode _ _ _ _); [|trivg].
      case_decide; (destruct (getPeerIDs _ _); [|trivg]); cbn; rewrite lookup_insert_ne by congruence; trivg.
    - destruct (j_calls s !! j') eqn:Ec; [trivg|]. destruct (ji_group _ _ _ I _ _ H) as (c & Hc & _).
      unfold JoinPartyWithRetry, start.
      destruct (getPeerIDs _ _); [|trivg]; cbn; rewrite lookup_insert_ne by congruence; trivg.
    - destruct (j_calls s !! j') eqn:Ec; trivg.
    - destruct (j_handlers s !! h) eqn:Eh; [trivg|]. case_decide; [trivg|]. unfold dispatch.
      destruct m as [id|lm]; [|case_decide; [|case_decide; [|trivg]]];
        (destruct (j_index s !! _) as [k|]; [|trivg]; destruct (j_groups s !! k) eqn:Ek; [|trivg]);
        cbn; eapply set_group_le; eauto; leg.
    - unfold handle. destruct (j_handlers s !! h) as [[k p old|k p lm|k|k]|]; [..|trivg];
        (destruct (j_groups s !! k) eqn:Ek; [|trivg]).
      + pose proof (updatePeer_le (LHandle h) s p g0) as Hle. destruct (updatePeer p g0) as [g' [[|]|]]; cbn in *; eapply set_group_le; eauto.
      + case_decide; [|trivg]. cbn; eapply set_group_le; eauto; leg.
      + destruct (Nat.ltb _ _); [|trivg]. cbn; eapply set_group_le; eauto; leg.
      + destruct (Nat.ltb _ _); [|trivg]. cbn; eapply set_group_le; eauto; leg.
    - unfold on_notify. destruct (j_calls s !! j') as [c0|] eqn:E0; [|trivg].
      destruct (j_groups s !! j') as [k|] eqn:Ek; [|trivg].
      destruct (jc_stage c0) eqn:Est; try trivg. destruct (g_notify k); [trivg|].
      destruct (jc_role c0); [| |destruct (getCoordinationStatus k)]; cbn; eapply set_group_le; eauto; leg.
    - unfold on_timeout. destruct (j_calls s !! j') as [c0|] eqn:E0; [|trivg].
      destruct (jc_stage c0) eqn:Est; trivg.
    - unfold on_sig. destruct (j_calls s !! j') as [c0|] eqn:E0; [|trivg].
      destruct (jc_stage c0) eqn:Est; try trivg. destruct (jc_sig c0); [trivg|].
      destruct (jc_role c0) eqn:Er; trivg.
    - unfold finish. destruct (j_calls s !! j') as [c0|] eqn:E0; [|trivg].
      destruct (j_groups s !! j') as [k|] eqn:Ek; [|trivg]. destruct (jc_role c0) eqn:Er.
      + destruct (jc_stage c0) eqn:Est; try trivg. unfold finish_leader, done.
        case_decide; [|destruct (Z.ltb _ _)]; trivg.
      + unfold finish_member, done. destruct (jc_stage c0) eqn:Est; try trivg.
        * destruct (g_resp k); [case_decide|]; trivg.
        * destruct (g_resp k); [|trivg]. destruct (getPeerIDs _ _); [destruct (Z.ltb _ _)|]; trivg.
        * destruct (g_resp k); [|trivg]. destruct (Nat.eqb _ _); trivg.
      + destruct (jc_stage c0) eqn:Est; trivg.
  Qed.

  (** A new group has seen nothing. *)
  Lemma group_new l s j g :
    j_groups s !! j = None -> j_groups (step l s) !! j = Some g -> g_in g = [].
  Proof.
    assert (NK : forall k gk gk', j_groups s !! k = Some gk -> j_groups s !! j = None -> <[k := gk']> (j_groups s) !! j = Some g -> g_in g = []).
    { intros k gk gk' Hk Hj Hg. rewrite lookup_insert_ne in Hg by congruence. congruence. }
    intros Hn. destruct l as [j' id h ps t|j' id ps|j' x|h p m|h|j'|j'|j'|j' ord]; cbn [jstep].
    - destruct (j_calls s !! j') eqn:Ec; [congruence|].
      unfold JoinPartyWithLeader, start. destruct (LeaderNode _ _ _ _); [|cbn; congruence].
      case_decide; (destruct (getPeerIDs _ _); [|cbn; congruence]); cbn;
        (destruct (decide (j = j')) as [->|Hne]; [rewrite lookup_insert; intros [= <-]; reflexivity|
         rewrite lookup_insert_ne by congruence; congruence]).
    - destruct (j_calls s !! j') eqn:Ec; [congruence|].
      unfold JoinPartyWithRetry, start. destruct (getPeerIDs _ _); [|cbn; congruence]. cbn.
      destruct (decide (j = j')) as [->|Hne]; [rewrite lookup_insert; intros [= <-]; reflexivity|
         rewrite lookup_insert_ne by congruence; congruence].
    - destruct (j_calls s !! j') eqn:Ec; cbn; congruence.
    - destruct (j_handlers s !! h); [congruence|]. case_decide; [congruence|]. unfold dispatch.
      destruct m as [id|lm]; [|case_decide; [|case_decide; [|congruence]]];
        (destruct (j_index s !! _) as [k|]; [|congruence]; destruct (j_groups s !! k) eqn:Ek; [|congruence]);
        cbn; eauto.
    - unfold handle. destruct (j_handlers s !! h) as [[k p old|k p lm|k|k]|]; [..|congruence];
        (destruct (j_groups s !! k) eqn:Ek; [|congruence]).
      + destruct (updatePeer p g0) as [g' [[|]|]]; cbn in *; eauto.
      + case_decide; [|cbn; congruence]. cbn; eauto.
      + destruct (Nat.ltb _ _); [|congruence]. cbn; eauto.
      + destruct (Nat.ltb _ _); [|congruence]. cbn; eauto.
    - unfold on_notify. destruct (j_calls s !! j') as [c0|] eqn:E0; [|congruence].
      destruct (j_groups s !! j') as [k|] eqn:Ek; [|congruence].
      destruct (jc_stage c0) eqn:Est; try congruence. destruct (g_notify k); [congruence|].
      destruct (jc_role c0); [| |destruct (getCoordinationStatus k)]; cbn; eauto.
    - unfold on_timeout. destruct (j_calls s !! j') as [c0|] eqn:E0; [|congruence].
      destruct (jc_stage c0) eqn:Est; cbn; congruence.
    - unfold on_sig. destruct (j_calls s !! j') as [c0|] eqn:E0; [|congruence].
      destruct (jc_stage c0) eqn:Est; try congruence. destruct (jc_sig c0); [congruence|].
      destruct (jc_role c0) eqn:Er; cbn; congruence.
    - unfold finish. destruct (j_calls s !! j') as [c0|] eqn:E0; [|congruence].
      destruct (j_groups s !! j') as [k|] eqn:Ek; [|congruence]. destruct (jc_role c0) eqn:Er.
      + destruct (jc_stage c0) eqn:Est; try congruence. unfold finish_leader, done.
        case_decide; [|destruct (Z.ltb _ _)]; cbn; congruence.
      + unfold finish_member, done. destruct (jc_stage c0) eqn:Est; try congruence.
        * destruct (g_resp k); [case_decide|]; cbn; congruence.
        * destruct (g_resp k); [|congruence]. destruct (getPeerIDs _ _); [destruct (Z.ltb _ _)|]; cbn; congruence.
        * destruct (g_resp k); [|congruence]. destruct (Nat.eqb _ _); cbn; congruence.
      + destruct (jc_stage c0) eqn:Est; cbn; congruence.
  Qed.

  Context (me_ok : me <> "NONE"%string).
  Notation inv_run := (jinv_run sha peerDecode me me_ok).

  Lemma run_app ls ls' : run (ls ++ ls') = fold_left (fun s l => step l s) ls' (run ls).
  Proof. unfold jrun. apply fold_left_app. Qed.

  Lemma call_run ls ls' j c :
    j_calls (run ls) !! j = Some c -> exists c', j_calls (run (ls ++ ls')) !! j = Some c' /\ call_le c c'.
  Proof.
    intros H. induction ls' as [|l ls' IH] using rev_ind.
    - rewrite app_nil_r. exists c. auto using call_le_refl.
    - destruct IH as (c1 & H1 & L1). rewrite app_assoc, run_snoc.
      destruct (call_step l _ _ _ H1) as (c2 & H2 & L2). exists c2. split; [exact H2|]. eapply call_le_trans; eauto.
  Qed.

  (** What a group has seen came in while it existed. *)
  Lemma seen_in ls j g p m :
    j_groups (run ls) !! j = Some g -> (p, m) ∈ g_in g ->
    exists ls0 h ls1, ls = ls0 ++ LMsg h p m :: ls1 /\ is_Some (j_groups (run ls0) !! j) /\ j_handlers (run ls0) !! h = None.
  Proof.
    revert g. induction ls as [|l ls IH] using rev_ind; intros g Hg Hin.
    - cbn in Hg. discriminate (eq_trans (eq_sym (lookup_empty (M := gmap nat) (A := group) j)) Hg).
    - rewrite run_snoc in Hg. destruct (j_groups (run ls) !! j) as [g0|] eqn:E0.
      + destruct (group_step l _ _ _ (inv_run ls) E0) as (g' & Hg' & _ & _ & _ & Hle).
        rewrite Hg in Hg'. injection Hg' as <-.
        assert (R : (p, m) ∈ g_in g0 -> exists ls0 h ls1, ls ++ [l] = ls0 ++ LMsg h p m :: ls1 /\ is_Some (j_groups (run ls0) !! j) /\ j_handlers (run ls0) !! h = None).
        { intros Hi. destruct (IH g0 eq_refl Hi) as (ls0 & h & ls1 & -> & Hs). exists ls0, h, (ls1 ++ [l]).
          rewrite <- app_assoc. auto. }
        destruct Hle as [Hle|(h & p' & m' & -> & Hfree & Hle)]; rewrite Hle in Hin; [auto|].
        apply elem_of_app in Hin as [Hin|Hin]; [auto|]. apply elem_of_list_singleton in Hin. injection Hin as -> ->.
        exists ls, h, []. rewrite E0. eauto.
      + rewrite (group_new _ _ _ _ E0 Hg) in Hin. apply elem_of_nil in Hin. easy.
  Qed.

  Lemma stage_dec (c : jcall) : (exists o, jc_stage c = JDone o) \/ forall o, jc_stage c <> JDone o.
  Proof. destruct (jc_stage c); eauto; right; discriminate. Qed.

  (** The moment at which a call returns. *)
  Lemma done_moment ls j o :
    returned (run ls) j o ->
    exists ls1 l ls2, ls = ls1 ++ l :: ls2 /\ ~ (exists o', returned (run ls1) j o') /\ returned (run (ls1 ++ [l])) j o.
  Proof.
    induction ls as [|l ls IH] using rev_ind; intros (c & Hc & Hst).
    - cbn in Hc. discriminate (eq_trans (eq_sym (lookup_empty (M := gmap nat) (A := jcall) j)) Hc).
    - destruct (j_calls (run ls) !! j) as [c0|] eqn:E0.
      + destruct (stage_dec c0) as [[o' Ho']|Hno].
        * pose proof E0 as E1. rewrite run_snoc in Hc. destruct (call_step l _ _ _ E0) as (c' & Hc' & _ & _ & _ & Hd).
          rewrite Hc in Hc'. injection Hc' as <-. destruct (Hd _ Ho') as (Hd' & _). rewrite Hst in Hd'. injection Hd' as <-.
          destruct IH as (ls1 & l1 & ls2 & -> & Hn & Hr); [exists c0; auto|].
          exists ls1, l1, (ls2 ++ [l]). rewrite <- app_assoc. auto.
        * exists ls, l, []. split; [reflexivity|]. split; [|exists c; auto].
          intros (o' & c' & Hc' & Ho'). rewrite E0 in Hc'. injection Hc' as <-. exact (Hno _ Ho').
      + exists ls, l, []. split; [reflexivity|]. split; [|exists c; auto].
        intros (o' & c' & Hc' & _). congruence.
  Qed.

  (** What the group of a call has seen when the call returns came in during the call. *)
  Lemma received_in ls1 l ls2 j g p m :
    ~ (exists o', returned (run ls1) j o') -> j_groups (run (ls1 ++ [l])) !! j = Some g -> (p, m) ∈ g_in g ->
    received sha peerDecode me (ls1 ++ l :: ls2) j p m.
  Proof.
    intros Hn Hg Hin. destruct (seen_in _ _ _ _ _ Hg Hin) as (ls0 & h & ls3 & E & [g0 Hg0] & Hfree).
    exists ls0, h, (ls3 ++ ls2). split.
    { rewrite (cons_middle l ls1 ls2), app_assoc. rewrite E, <- app_assoc. reflexivity. }
    split; [|exact Hfree].
    destruct (ji_group _ _ _ (inv_run ls0) _ _ Hg0) as (c & Hc & _). exists c. split; [exact Hc|].
    intros o Ho. apply Hn.
    assert (exists k, ls1 = ls0 ++ k) as [k ->].
    { destruct ls3 as [|x ls3 _] using rev_ind.
      - apply app_inj_tail in E as [-> _]. exists []. rewrite app_nil_r. reflexivity.
      - rewrite app_comm_cons, app_assoc in E. apply app_inj_tail in E as [-> _]. eauto. }
    destruct (call_run ls0 k _ _ Hc) as (c' & Hc' & _ & _ & _ & Hd).
    exists o, c'. split; [exact Hc'|]. apply Hd, Ho.
  Qed.

  (** The calls. *)
  Lemma leader_call ls j id pids t :
    called_leader sha peerDecode me ls j id pids t ->
    exists c g, j_calls (run ls) !! j = Some c /\ j_groups (run ls) !! j = Some g /\
      jc_msg c = id /\ jc_role c = RLeader pids /\ jc_threshold c = t.
  Proof.
    intros (ls0 & ht & peers & ls1 & -> & Hn & Hl & Hp).
    assert (H0 : exists c, j_calls (run (ls0 ++ [LJoin j id ht peers t])) !! j = Some c /\
       jc_msg c = id /\ jc_role c = RLeader pids /\ jc_threshold c = t /\
       is_Some (j_groups (run (ls0 ++ [LJoin j id ht peers t])) !! j)).
    { rewrite run_snoc. cbn [jstep]. rewrite Hn. unfold JoinPartyWithLeader. rewrite Hl. rewrite decide_True by reflexivity.
      unfold start, getPeerIDs. rewrite Hp. cbn. rewrite !lookup_insert. eauto 8. }
    destruct H0 as (c & Hc & H1 & H2 & H3 & [g Hg]).
    rewrite (cons_middle (LJoin j id ht peers t)), app_assoc.
    destruct (call_run _ ls1 _ _ Hc) as (c' & Hc' & L1 & L2 & L3 & _).
    assert (Hgg : is_Some (j_groups (run ((ls0 ++ [LJoin j id ht peers t]) ++ ls1)) !! j)).
    { clear -Hg me_ok. induction ls1 as [|l ls1 IH] using rev_ind; [rewrite app_nil_r; eauto|].
      rewrite app_assoc, run_snoc. destruct IH as [g' Hg']. destruct (group_step l _ _ _ (inv_run _) Hg') as (g2 & H2 & _). eauto. }
    destruct Hgg as [g' Hg']. exists c', g'. repeat split; congruence.
  Qed.
  Lemma member_call ls j id leader peers t :
    called_member sha peerDecode me ls j id leader peers t ->
    exists c g, j_calls (run ls) !! j = Some c /\ j_groups (run ls) !! j = Some g /\
      jc_msg c = id /\ jc_role c = RMember leader /\ jc_threshold c = t.
  Proof.
    intros (ls0 & ht & ls1 & -> & Hn & Hl & Hne & [pid Hp]).
    assert (H0 : exists c, j_calls (run (ls0 ++ [LJoin j id ht peers t])) !! j = Some c /\
       jc_msg c = id /\ jc_role c = RMember leader /\ jc_threshold c = t /\
       is_Some (j_groups (run (ls0 ++ [LJoin j id ht peers t])) !! j)).
    { rewrite run_snoc. cbn [jstep]. rewrite Hn. unfold JoinPartyWithLeader. rewrite Hl. rewrite decide_False by congruence.
      unfold start, getPeerIDs. cbn. rewrite Hp. cbn. rewrite !lookup_insert. eauto 8. }
    destruct H0 as (c & Hc & H1 & H2 & H3 & [g Hg]).
    rewrite (cons_middle (LJoin j id ht peers t)), app_assoc.
    destruct (call_run _ ls1 _ _ Hc) as (c' & Hc' & L1 & L2 & L3 & _).
    assert (Hgg : is_Some (j_groups (run ((ls0 ++ [LJoin j id ht peers t]) ++ ls1)) !! j)).
    { clear -Hg me_ok. induction ls1 as [|l ls1 IH] using rev_ind; [rewrite app_nil_r; eauto|].
      rewrite app_assoc, run_snoc. destruct IH as [g' Hg']. destruct (group_step l _ _ _ (inv_run _) Hg') as (g2 & H2 & _). eauto. }
    destruct Hgg as [g' Hg']. exists c', g'. repeat split; congruence.
  Qed.
  Lemma leaderless_call ls j id pids :
    called_leaderless sha peerDecode me ls j id pids ->
    exists c g, j_calls (run ls) !! j = Some c /\ j_groups (run ls) !! j = Some g /\
      jc_msg c = id /\ jc_role c = RLeaderless pids.
  Proof.
    intros (ls0 & peers & ls1 & -> & Hn & Hp).
    assert (H0 : exists c, j_calls (run (ls0 ++ [LRetry j id peers])) !! j = Some c /\
       jc_msg c = id /\ jc_role c = RLeaderless pids /\
       is_Some (j_groups (run (ls0 ++ [LRetry j id peers])) !! j)).
    { rewrite run_snoc. cbn [jstep]. rewrite Hn. unfold JoinPartyWithRetry.
      unfold start, getPeerIDs. rewrite Hp. cbn. rewrite !lookup_insert. eauto 8. }
    destruct H0 as (c & Hc & H1 & H2 & [g Hg]).
    rewrite (cons_middle (LRetry j id peers)), app_assoc.
    destruct (call_run _ ls1 _ _ Hc) as (c' & Hc' & L1 & L2 & L3 & _).
    assert (Hgg : is_Some (j_groups (run ((ls0 ++ [LRetry j id peers]) ++ ls1)) !! j)).
    { clear -Hg me_ok. induction ls1 as [|l ls1 IH] using rev_ind; [rewrite app_nil_r; eauto|].
      rewrite app_assoc, run_snoc. destruct IH as [g' Hg']. destruct (group_step l _ _ _ (inv_run _) Hg') as (g2 & H2 & _). eauto. }
    destruct Hgg as [g' Hg']. exists c', g'. repeat split; congruence.
  Qed.

  (** The invariant of a call at the moment at which it returned, together with what it
      received. *)
  Lemma returned_ok ls j o c :
    returned (run ls) j o -> j_calls (run ls) !! j = Some c ->
    (exists g, ok peerDecode me c g /\ forall p m, (p, m) ∈ g_in g -> received sha peerDecode me ls j p m) \/
    (exists e, o = Outcome None e /\ e <> ENone).
  Proof.
    intros Hr Hc. destruct (done_moment _ _ _ Hr) as (ls1 & l & ls2 & E & Hn & (c1 & Hc1 & Ho)).
    destruct (j_groups (run (ls1 ++ [l])) !! j) as [g|] eqn:Eg.
    - left. exists g. destruct (ji_group _ _ _ (inv_run _) _ _ Eg) as (c2 & Hc2 & Hok).
      rewrite Hc1 in Hc2. injection Hc2 as <-. split.
      + destruct (call_run (ls1 ++ [l]) ls2 _ _ Hc1) as (c3 & Hc3 & L1 & L2 & L3 & L4).
        assert (E2 : ls = (ls1 ++ [l]) ++ ls2) by (rewrite E, <- app_assoc; reflexivity).
        rewrite <- E2, Hc in Hc3. injection Hc3 as <-. destruct (L4 _ Ho) as (L5 & L6 & L7).
        eapply ok_call_mono; [..|exact Hok]; auto.
        pose proof (ok_stage _ _ _ _ Hok) as Hs. unfold stage_ok in *. rewrite L1, L2, L3, L5, L6, L7. rewrite Ho in Hs. exact Hs.
      + intros p m Hin. rewrite E. eapply received_in; eauto.
    - right. destruct (ji_nogroup _ _ _ (inv_run _) _ _ Hc1 Eg) as (e & He & Hne). rewrite Ho in He. injection He as ->. eauto.
  Qed.
End hist.
