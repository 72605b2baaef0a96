(** Lemmas for the refutations about the join-party phase. *)
From Coq Require Import ZArith NArith Ascii String List Lia.
From stdpp Require Import base list strings gmap.
From Verif Require Import Base L_Base M_Conv M_Join S_Join L_Join L_Join2 L_Join3.

Section refut.
  Context (sha : bytes -> string) (peerDecode : string -> option string) (me : string).
  Notation run := (jrun sha peerDecode me).
  Notation step := (jstep sha peerDecode me).
  Context (me_ok : me <> "NONE"%string).
  Notation inv_run := (jinv_run sha peerDecode me me_ok).

  (** What a step does to handler [h] and to the channel of group [j]. *)
  Lemma handler_step l s h x :
    j_handlers (step l s) !! h = Some x ->
    j_handlers s !! h = Some x \/
    (exists p m j, l = LMsg h p m /\ j_handlers s !! h = None /\ p <> me /\ j_index s !! id_of m = Some j /\
       is_Some (j_groups s !! j) /\
       (x = HUpdate j p true /\ (exists id, m = InOld id) \/
        (exists lm, m = InLeader lm /\ (x = HUpdate j p false \/ x = HResp j p lm)))) \/
    (exists j p old g g', l = LHandle h /\ j_handlers s !! h = Some (HUpdate j p old) /\ j_groups s !! j = Some g /\
       updatePeer p g = (g', Some true) /\ x = (if old then HNewFound j else HNotify j)) \/
    (exists j p lm g, l = LHandle h /\ j_handlers s !! h = Some (HResp j p lm) /\ j_groups s !! j = Some g /\
       p = g_leader g /\ x = HNotify j).
  Proof.
    intros H. destruct l as [j' id h' ps t|j' id ps|j' y|h' p m|h'|j'|j'|j'|j' ord]; cbn [jstep] in H.
    - left. destruct (j_calls s !! j') eqn:Ec; [exact H|].
      unfold JoinPartyWithLeader, start in H. destruct (LeaderNode _ _ _ _); [case_decide; destruct (getPeerIDs _ _)|]; exact H.
    - left. destruct (j_calls s !! j') eqn:Ec; [exact H|].
      unfold JoinPartyWithRetry, start in H. destruct (getPeerIDs _ _); exact H.
    - left. destruct (j_calls s !! j'); exact H.
    - destruct (j_handlers s !! h') eqn:Eh; [auto|]. destruct (decide (p = me \/ p = "NONE"%string)) as [Hd|Hd]; [auto|]. unfold dispatch in H.
      destruct m as [i|lm]; [|case_decide; [|case_decide; [|auto]]];
        match type of H with context [match j_index s !! ?i with _ => _ end] =>
          destruct (j_index s !! i) as [k|] eqn:Ei; [|auto]; destruct (j_groups s !! k) eqn:Ek; [|auto] end;
        cbn in H; (destruct (decide (h' = h)) as [->|Hne]; [|rewrite lookup_insert_ne in H by congruence; auto]);
        rewrite lookup_insert in H; injection H as <-; right; left.
      + exists p, (InOld i), k. rewrite Ek. repeat split; eauto.
      + exists p, (InLeader lm), k. rewrite Ek. repeat split; eauto.
      + exists p, (InLeader lm), k. rewrite Ek. repeat split; eauto.
    - unfold handle in H. destruct (j_handlers s !! h') as [[k p old|k p lm|k|k]|] eqn:Eh; [..|auto];
        (destruct (j_groups s !! k) as [g0|] eqn:Ek; [|auto]).
      + assert (D : forall g', j_handlers (end_handler h' (set_group k g' s)) !! h = Some x -> j_handlers s !! h = Some x).
        { intros g' H'. cbn in H'. apply lookup_delete_Some in H' as [_ H']. exact H'. }
        destruct (updatePeer p g0) as [g' [[|]|]] eqn:Eu; [|left; eapply D; eauto..].
        cbn in H. destruct (decide (h' = h)) as [->|Hne]; [|rewrite lookup_insert_ne in H by congruence; auto].
        rewrite lookup_insert in H. injection H as <-. right; right; left. exists k, p, old, g0, g'. auto.
      + case_decide.
        * cbn in H. destruct (decide (h' = h)) as [->|Hne]; [|rewrite lookup_insert_ne in H by congruence; auto].
          rewrite lookup_insert in H. injection H as <-. right; right; right. exists k, p, lm, g0. auto.
        * cbn in H. apply lookup_delete_Some in H as [_ H]. auto.
      + destruct (Nat.ltb _ _); [|auto]. cbn in H. apply lookup_delete_Some in H as [_ H]. auto.
      + destruct (Nat.ltb _ _); [|auto]. cbn in H. apply lookup_delete_Some in H as [_ H]. auto.
    - left. unfold on_notify in H. destruct (j_calls s !! j') as [c1|] eqn:E1; [|auto].
      destruct (j_groups s !! j') as [k|]; [|auto].
      destruct (jc_stage c1); auto. destruct (g_notify k); [auto|].
      destruct (jc_role c1); [| |destruct (getCoordinationStatus k)]; cbn in H; auto.
    - left. unfold on_timeout in H. destruct (j_calls s !! j') as [c1|] eqn:E1; [|auto].
      destruct (jc_stage c1); auto.
    - left. unfold on_sig in H. destruct (j_calls s !! j') as [c1|] eqn:E1; [|auto].
      destruct (jc_stage c1) eqn:Est; auto. destruct (jc_sig c1) as [|z rest] eqn:Es; [auto|].
      destruct (jc_role c1); auto.
    - left. unfold finish in H. destruct (j_calls s !! j') as [c1|] eqn:E1; [|auto].
      destruct (j_groups s !! j') as [k|]; [|auto]. destruct (jc_role c1).
      + destruct (jc_stage c1); auto. unfold finish_leader, done in H.
        case_decide; [|destruct (Z.ltb _ _)]; cbn in H; auto.
      + unfold finish_member, done in H. destruct (jc_stage c1); auto.
        * destruct (g_resp k); [case_decide|]; cbn in H; auto.
        * destruct (g_resp k); [|auto]. destruct (getPeerIDs _ _); [destruct (Z.ltb _ _)|]; cbn in H; auto.
        * destruct (g_resp k); [|auto]. destruct (Nat.eqb _ _); cbn in H; auto.
      + destruct (jc_stage c1); auto.
  Qed.

  (** The notify channel of a group and the state that decides its signals. *)
  Definition chan_le (l : jlabel) (s : jstate) (j : nat) (g g' : group) : Prop :=
    g_leader g' = g_leader g /\ g_threshold g' = g_threshold g /\ g_cap g' = g_cap g /\
    (g_count g <= g_count g')%Z /\
    (g_notify g' = g_notify g \/
     (exists h, l = LHandle h /\ j_handlers s !! h = Some (HNotify j) /\ g_notify g < g_cap g /\ g_notify g' = S (g_notify g)) \/
     (exists c, l = LNotify j /\ j_calls s !! j = Some c /\ jc_stage c = JWait /\ g_notify g = S (g_notify g'))).
  Lemma chan_refl l s j g : chan_le l s j g g.
  Proof. repeat split; auto. lia. Qed.
  Lemma chan_step l s j g g' :
    (is_Some (j_calls s !! j)) ->
    j_groups s !! j = Some g -> j_groups (step l s) !! j = Some g' -> chan_le l s j g g'.
  Proof.
    intros [c0 Hc0] Hg H.
    assert (T : j_groups s !! j = Some g' -> chan_le l s j g g').
    { intros H'. rewrite Hg in H'. injection H' as ->. apply chan_refl. }
    assert (N : forall k gk, j_calls s !! k = None -> <[k := gk]> (j_groups s) !! j = Some g' -> chan_le l s j g g').
    { intros k gk Hk H'. rewrite lookup_insert_ne in H' by congruence. auto. }
    assert (U : forall k gk gk', j_groups s !! k = Some gk -> <[k := gk']> (j_groups s) !! j = Some g' ->
      (k = j -> chan_le l s k gk gk') -> chan_le l s j g g').
    { intros k gk gk' Hk H' Hle. destruct (decide (k = j)) as [->|]; [|rewrite lookup_insert_ne in H' by congruence; auto].
      rewrite lookup_insert in H'. injection H' as <-. rewrite Hg in Hk. injection Hk as <-. auto. }
    destruct l as [j' id h' ps t|j' id ps|j' y|h' p m|h'|j'|j'|j'|j' ord]; cbn [jstep] in H.
    - destruct (j_calls s !! j') eqn:Ec; [auto|].
      unfold JoinPartyWithLeader, start in H. destruct (LeaderNode _ _ _ _); [case_decide; destruct (getPeerIDs _ _)|]; cbn in H; eauto.
    - destruct (j_calls s !! j') eqn:Ec; [auto|].
      unfold JoinPartyWithRetry, start in H. destruct (getPeerIDs _ _); cbn in H; eauto.
    - destruct (j_calls s !! j'); cbn in H; auto.
    - destruct (j_handlers s !! h') eqn:Eh; [auto|]. case_decide; [auto|]. unfold dispatch in H.
      destruct m as [i|lm]; [|case_decide; [|case_decide; [|auto]]];
        match type of H with context [match j_index s !! ?i with _ => _ end] =>
          destruct (j_index s !! i) as [k|] eqn:Ei; [|auto]; destruct (j_groups s !! k) eqn:Ek; [|auto] end;
        cbn in H; eapply U; eauto; intros _; repeat split; cbn; auto; lia.
    - unfold handle in H. destruct (j_handlers s !! h') as [[k p old|k p lm|k|k]|] eqn:Eh; [..|auto];
        (destruct (j_groups s !! k) as [g0|] eqn:Ek; [|auto]).
      + destruct (updatePeer p g0) as [g1 r] eqn:Eu.
        assert (Hle : chan_le (LHandle h') s k g0 g1).
        { destruct (updatePeer_cases _ _ _ _ Eu) as [(-> & _)|[(_ & _ & _ & ->)|(_ & _ & _ & _ & ->)]];
            [apply chan_refl|repeat split; cbn; auto; lia..]. }
        destruct r as [[|]|]; cbn in H; eapply U; eauto.
      + case_decide; [|cbn in H; auto]. cbn in H. eapply U; eauto; intros _; repeat split; cbn; auto; lia.
      + destruct (Nat.ltb_spec (g_notify g0) (g_cap g0)); [|auto]. cbn in H. eapply U; eauto. intros ->.
        repeat split; cbn; auto; [lia|]. right; left. eauto.
      + destruct (Nat.ltb _ _); [|auto]. cbn in H. eapply U; eauto; intros _; repeat split; cbn; auto; lia.
    - unfold on_notify in H. destruct (j_calls s !! j') as [c1|] eqn:E1; [|auto].
      destruct (j_groups s !! j') as [k|] eqn:Ek; [|auto].
      destruct (jc_stage c1) eqn:Est; auto. destruct (g_notify k) as [|n] eqn:En; [auto|].
      assert (Hle : j' = j -> chan_le (LNotify j') s j' k (g_set_notify n k)).
      { intros ->. repeat split; cbn; auto; [lia|]. right; right. eauto. }
      destruct (jc_role c1); [| |destruct (getCoordinationStatus k)]; cbn in H; eapply U; eauto.
    - unfold on_timeout in H. destruct (j_calls s !! j') as [c1|] eqn:E1; [|auto].
      destruct (jc_stage c1); auto.
    - unfold on_sig in H. destruct (j_calls s !! j') as [c1|] eqn:E1; [|auto].
      destruct (jc_stage c1) eqn:Est; auto. destruct (jc_sig c1) as [|z rest] eqn:Es; [auto|].
      destruct (jc_role c1); auto.
    - unfold finish in H. destruct (j_calls s !! j') as [c1|] eqn:E1; [|auto].
      destruct (j_groups s !! j') as [k|]; [|auto]. destruct (jc_role c1).
      + destruct (jc_stage c1); auto. unfold finish_leader, done in H.
        case_decide; [|destruct (Z.ltb _ _)]; cbn in H; auto.
      + unfold finish_member, done in H. destruct (jc_stage c1); auto.
        * destruct (g_resp k); [case_decide|]; cbn in H; auto.
        * destruct (g_resp k); [|auto]. destruct (getPeerIDs _ _); [destruct (Z.ltb _ _)|]; cbn in H; auto.
        * destruct (g_resp k); [|auto]. destruct (Nat.eqb _ _); cbn in H; auto.
      + destruct (jc_stage c1); auto.
  Qed.

  (** How a call stops waiting. *)
  Lemma wait_step l s j c c' :
    j_calls s !! j = Some c -> j_calls (step l s) !! j = Some c' -> jc_stage c = JWait -> jc_stage c' <> JWait ->
    l = LTimeout j \/ (l = LNotify j /\ exists g, j_groups s !! j = Some g /\ g_notify g <> 0) \/
    (l = LTakeSig j /\ jc_sig c <> [] /\ exists ld, jc_role c = RMember ld).
  Proof.
    intros Hc H Hw Hnw.
    assert (T : ~ j_calls s !! j = Some c') by (intros H'; congruence).
    assert (U : forall k ck', <[k := ck']> (j_calls s) !! j = Some c' -> k = j).
    { intros k ck' H'. destruct (decide (k = j)) as [->|]; [reflexivity|]. rewrite lookup_insert_ne in H' by congruence. contradiction. }
    destruct l as [j' id h' ps t|j' id ps|j' y|h' p m|h'|j'|j'|j'|j' ord]; cbn [jstep] in H.
    - destruct (j_calls s !! j') eqn:Ec; [contradiction|].
      unfold JoinPartyWithLeader, start in H. destruct (LeaderNode _ _ _ _); [case_decide; destruct (getPeerIDs _ _)|];
        cbn in H; apply U in H; congruence.
    - destruct (j_calls s !! j') eqn:Ec; [contradiction|].
      unfold JoinPartyWithRetry, start in H. destruct (getPeerIDs _ _); cbn in H; apply U in H; congruence.
    - destruct (j_calls s !! j') as [c1|] eqn:E1; [|contradiction]. cbn in H. pose proof (U _ _ H) as ->.
      rewrite lookup_insert in H. injection H as <-. rewrite Hc in E1. injection E1 as <-. cbn in Hnw. contradiction.
    - destruct (j_handlers s !! h') eqn:Eh; [contradiction|]. case_decide; [contradiction|]. unfold dispatch in H.
      destruct m as [i|lm]; [|case_decide; [|case_decide; [|contradiction]]];
        match type of H with context [match j_index s !! ?i with _ => _ end] =>
          destruct (j_index s !! i) as [k|] eqn:Ei; [|contradiction]; destruct (j_groups s !! k) eqn:Ek; [|contradiction] end;
        cbn in H; contradiction.
    - unfold handle in H. destruct (j_handlers s !! h') as [[k p old|k p lm|k|k]|] eqn:Eh; [..|contradiction];
        (destruct (j_groups s !! k) as [g0|] eqn:Ek; [|contradiction]).
      + destruct (updatePeer p g0) as [g1 [[|]|]] eqn:Eu; cbn in H; contradiction.
      + case_decide; cbn in H; contradiction.
      + destruct (Nat.ltb _ _); cbn in H; contradiction.
      + destruct (Nat.ltb _ _); cbn in H; contradiction.
    - unfold on_notify in H. destruct (j_calls s !! j') as [c1|] eqn:E1; [|contradiction].
      destruct (j_groups s !! j') as [k|] eqn:Ek; [|contradiction].
      destruct (jc_stage c1) eqn:Est; try contradiction. destruct (g_notify k) as [|n] eqn:En; [contradiction|].
      destruct (jc_role c1); [| |destruct (getCoordinationStatus k)]; cbn in H; try contradiction;
        pose proof (U _ _ H) as ->; right; left; (split; [reflexivity|]); exists k; (split; [exact Ek|]); congruence.
    - unfold on_timeout in H. destruct (j_calls s !! j') as [c1|] eqn:E1; [|contradiction].
      destruct (jc_stage c1); try contradiction. cbn in H. pose proof (U _ _ H) as ->. auto.
    - unfold on_sig in H. destruct (j_calls s !! j') as [c1|] eqn:E1; [|contradiction].
      destruct (jc_stage c1) eqn:Est; try contradiction. destruct (jc_sig c1) as [|z rest] eqn:Es; [contradiction|].
      destruct (jc_role c1) eqn:Er; try contradiction; cbn in H; pose proof (U _ _ H) as ->;
        rewrite Hc in E1; injection E1 as <-.
      + rewrite lookup_insert in H. injection H as <-. cbn in Hnw. contradiction.
      + right; right. split; [reflexivity|]. split; [congruence|eauto].
    - exfalso. unfold finish in H. destruct (j_calls s !! j') as [c1|] eqn:E1; [|contradiction].
      destruct (j_groups s !! j') as [k|]; [|contradiction].
      assert (V : forall ck', <[j' := ck']> (j_calls s) !! j = Some c' -> jc_stage c1 <> JWait -> False).
      { intros ck' H' Hn. pose proof (U _ _ H') as ->. congruence. }
      destruct (jc_role c1).
      + destruct (jc_stage c1) eqn:Est; try contradiction. unfold finish_leader, done in H.
        case_decide; [|destruct (Z.ltb _ _)]; cbn in H; eapply V; eauto; congruence.
      + unfold finish_member, done in H. destruct (jc_stage c1) eqn:Est; try contradiction.
        * destruct (g_resp k); [case_decide|]; cbn in H; eapply V; eauto; congruence.
        * destruct (g_resp k); [|contradiction]. destruct (getPeerIDs _ _); [destruct (Z.ltb _ _)|]; cbn in H; eapply V; eauto; congruence.
        * destruct (g_resp k); [|contradiction]. destruct (Nat.eqb _ _); cbn in H; eapply V; eauto; congruence.
      + destruct (jc_stage c1) eqn:Est; try contradiction. cbn in H. eapply V; eauto; congruence.
  Qed.

  (** ** Messages of the leader protocol and the notify channel *)
  Definition heardL (s : jstate) (j : nat) : Prop :=
    exists g p lm, j_groups s !! j = Some g /\ (p, InLeader lm) ∈ g_in g.
  Definition speaks (j : nat) (x : jhandler) : Prop :=
    x = HNotify j \/ (exists p lm, x = HResp j p lm) \/ (exists p, x = HUpdate j p false).
  Lemma heardL_step l ls j : heardL (run ls) j -> heardL (run (ls ++ [l])) j.
  Proof.
    intros (g & p & lm & Hg & Hin). destruct (group_run sha peerDecode me me_ok ls [l] _ _ Hg) as (g' & Hg' & Hs).
    exists g', p, lm. auto.
  Qed.

  Lemma linv_run ls :
    (forall h x j, j_handlers (run ls) !! h = Some x -> speaks j x -> heardL (run ls) j) /\
    (forall j g, j_groups (run ls) !! j = Some g -> g_notify g <> 0 -> heardL (run ls) j).
  Proof.
    induction ls as [|l ls [IH1 IH2]] using rev_ind.
    - split.
      + intros h x j H. discriminate (eq_trans (eq_sym (lookup_empty (M := gmap nat) h)) H).
      + intros j g H. discriminate (eq_trans (eq_sym (lookup_empty (M := gmap nat) j)) H).
    - split.
      + intros h x j Hx Hs. rewrite run_snoc in Hx.
        destruct (handler_step _ _ _ _ Hx) as [H|[(p & m & k & -> & Hf & Hp & Hi & [g Hg] & Hk)|[(k & p & old & g & g' & -> & H & Hg & Hu & ->)|(k & p & lm & g & -> & H & Hg & Hp & ->)]]].
        * apply heardL_step. eauto.
        * assert (exists lm, m = InLeader lm /\ k = j) as (lm & -> & ->).
          { destruct Hk as [[-> _]|(lm & -> & Hk)].
            - destruct Hs as [[=]|[(? & ? & [=])|(? & [=])]].
            - exists lm. split; [reflexivity|]. destruct Hk as [-> | ->]; destruct Hs as [[=]|[(? & ? & [=])|(? & [=])]]; auto. }
          exists (g_set_in (g_in g ++ [(p, InLeader lm)]) g), p, lm. split; [|cbn; set_solver].
          rewrite run_snoc in *. cbn [jstep] in *. rewrite Hf in *.
          destruct (decide (p = me \/ p = "NONE"%string)) as [Hd|Hd]; [congruence|]. unfold dispatch in *. cbn in Hi.
          destruct (decide (lm_msgtype lm = "request"%string)).
          -- rewrite Hi, Hg in *. cbn. apply lookup_insert.
          -- destruct (decide (lm_msgtype lm = "response"%string)); [|congruence]. rewrite Hi, Hg in *. cbn. apply lookup_insert.
        * apply heardL_step. destruct old; [destruct Hs as [[=]|[(? & ? & [=])|(? & [=])]]|].
          destruct Hs as [[= ->]|[(? & ? & [=])|(? & [=])]]. eapply IH1; [exact H|]. right; right. eauto.
        * apply heardL_step. destruct Hs as [[= ->]|[(? & ? & [=])|(? & [=])]]. eapply IH1; [exact H|]. right; left. eauto.
      + intros j g' Hg' Hn. destruct (j_groups (run ls) !! j) as [g|] eqn:Eg.
        * apply heardL_step. rewrite run_snoc in Hg'.
          destruct (ji_group _ _ _ (inv_run ls) _ _ Eg) as (c & Hc & _).
          destruct (chan_step l _ j g g' (mk_is_Some _ _ Hc) Eg Hg') as (_ & _ & _ & _ & [H|[(h & -> & H & _)|(c' & -> & _ & _ & H)]]).
          -- eapply IH2; [exact Eg|congruence].
          -- eapply IH1; [exact H|]. left. reflexivity.
          -- eapply IH2; [exact Eg|lia].
        * exfalso. rewrite run_snoc in Hg'. apply Hn. clear -Hg' Eg me_ok.
          (* a new group *)
          destruct l as [j' id h' ps t|j' id ps|j' y|h' p m|h'|j'|j'|j'|j' ord]; cbn [jstep] in Hg'.
          all: pose proof (group_new sha peerDecode me) as GN.
          -- destruct (j_calls (run ls) !! j'); [congruence|]. unfold JoinPartyWithLeader, start in Hg'.
             destruct (LeaderNode _ _ _ _); [case_decide; destruct (getPeerIDs _ _)|]; cbn in Hg'; try congruence;
             (destruct (decide (j' = j)) as [->|]; [rewrite lookup_insert in Hg'; injection Hg' as <-; reflexivity|rewrite lookup_insert_ne in Hg' by congruence; congruence]).
          -- destruct (j_calls (run ls) !! j'); [congruence|]. unfold JoinPartyWithRetry, start in Hg'.
             destruct (getPeerIDs _ _); cbn in Hg'; try congruence;
             (destruct (decide (j' = j)) as [->|]; [rewrite lookup_insert in Hg'; injection Hg' as <-; reflexivity|rewrite lookup_insert_ne in Hg' by congruence; congruence]).
          -- destruct (j_calls (run ls) !! j'); cbn in Hg'; congruence.
          -- destruct (j_handlers (run ls) !! h'); [congruence|]. case_decide; [congruence|]. unfold dispatch in Hg'.
             destruct m as [i|lm]; [|case_decide; [|case_decide; [|congruence]]];
             match type of Hg' with context [match j_index ?s !! ?i with _ => _ end] =>
               destruct (j_index s !! i) as [k|] eqn:Ei; [|congruence]; destruct (j_groups s !! k) eqn:Ek; [|congruence] end;
             cbn in Hg'; rewrite lookup_insert_ne in Hg' by congruence; congruence.
          -- unfold handle in Hg'. destruct (j_handlers (run ls) !! h') as [[k p old|k p lm|k|k]|] eqn:Eh; [..|congruence];
             (destruct (j_groups (run ls) !! k) as [g0|] eqn:Ek; [|congruence]).
             ++ destruct (updatePeer p g0) as [g1 [[|]|]]; cbn in Hg'; rewrite lookup_insert_ne in Hg' by congruence; congruence.
             ++ case_decide; cbn in Hg'; [rewrite lookup_insert_ne in Hg' by congruence|]; congruence.
             ++ destruct (Nat.ltb _ _); [|congruence]. cbn in Hg'; rewrite lookup_insert_ne in Hg' by congruence; congruence.
             ++ destruct (Nat.ltb _ _); [|congruence]. cbn in Hg'; rewrite lookup_insert_ne in Hg' by congruence; congruence.
          -- unfold on_notify in Hg'. destruct (j_calls (run ls) !! j') as [c1|] eqn:E1; [|congruence].
             destruct (j_groups (run ls) !! j') as [k|] eqn:Ek; [|congruence].
             destruct (jc_stage c1) eqn:Est; try congruence. destruct (g_notify k) as [|n] eqn:En; [congruence|].
             destruct (jc_role c1); [| |destruct (getCoordinationStatus k)]; cbn in Hg'; rewrite lookup_insert_ne in Hg' by congruence; congruence.
          -- unfold on_timeout in Hg'. destruct (j_calls (run ls) !! j') as [c1|]; [|congruence]. destruct (jc_stage c1); cbn in Hg'; congruence.
          -- unfold on_sig in Hg'. destruct (j_calls (run ls) !! j') as [c1|]; [|congruence]. destruct (jc_stage c1); try congruence.
             destruct (jc_sig c1); [congruence|]. destruct (jc_role c1); cbn in Hg'; congruence.
          -- unfold finish in Hg'. destruct (j_calls (run ls) !! j') as [c1|]; [|congruence].
             destruct (j_groups (run ls) !! j') as [k|] eqn:Ek; [|congruence]. destruct (jc_role c1).
             ++ destruct (jc_stage c1); try congruence. unfold finish_leader, done in Hg'. case_decide; [|destruct (Z.ltb _ _)]; cbn in Hg'; congruence.
             ++ unfold finish_member, done in Hg'. destruct (jc_stage c1); try congruence.
                ** destruct (g_resp k); [case_decide|]; cbn in Hg'; congruence.
                ** destruct (g_resp k); [|congruence]. destruct (getPeerIDs _ _); [destruct (Z.ltb _ _)|]; cbn in Hg'; congruence.
                ** destruct (g_resp k); [|congruence]. destruct (Nat.eqb _ _); cbn in Hg'; congruence.
             ++ destruct (jc_stage c1); cbn in Hg'; congruence.
  Qed.

  (** A leaderless call stops waiting only by its timeout or after a message of the
      other protocol. *)
  Lemma leaderless_waits ls j id pids :
    called_leaderless sha peerDecode me ls j id pids ->
    exists c g, j_calls (run ls) !! j = Some c /\ j_groups (run ls) !! j = Some g /\ jc_role c = RLeaderless pids /\
      (jc_stage c = JWait \/ LTimeout j ∈ ls \/ heardL (run ls) j).
  Proof.
    intros (ls0 & peers & ls1 & -> & Hn & Hp).
    induction ls1 as [|l ls1 IH] using rev_ind.
    - rewrite run_snoc. cbn [jstep]. rewrite Hn. unfold JoinPartyWithRetry.
      unfold start, getPeerIDs. rewrite Hp. cbn. rewrite !lookup_insert. eauto 10.
    - destruct IH as (c & g & Hc & Hg & Hr & Hst). set (ls := ls0 ++ LRetry j id peers :: ls1) in *.
      replace (ls0 ++ LRetry j id peers :: ls1 ++ [l]) with (ls ++ [l]) by (unfold ls; rewrite <- app_assoc; reflexivity).
      destruct (group_run sha peerDecode me me_ok ls [l] _ _ Hg) as (g' & Hg' & _).
      destruct (call_step sha peerDecode me l _ _ _ Hc) as (c' & Hc' & _ & M & _).
      exists c', g'. rewrite run_snoc at 1. split; [exact Hc'|]. split; [exact Hg'|]. split; [congruence|].
      destruct Hst as [Hw|[H|H]]; [|right; left; set_solver|right; right; apply heardL_step, H].
      destruct (jc_stage c') eqn:Est; [left; reflexivity|..];
        right; (destruct (wait_step _ _ _ _ _ Hc Hc' Hw ltac:(congruence)) as [-> |[(-> & g1 & Hg1 & Hne)|(_ & _ & ld & H)]];
          [left; set_solver| |congruence]); right; apply heardL_step; destruct (linv_run ls) as [_ L]; eauto.
  Qed.

  Lemma handler_stays l s h x :
    j_handlers s !! h = Some x -> l <> LHandle h -> j_handlers (step l s) !! h = Some x.
  Proof.
    intros Hx Hl. destruct l as [j' id h' ps t|j' id ps|j' y|h' p m|h'|j'|j'|j'|j' ord]; cbn [jstep].
    - destruct (j_calls s !! j') eqn:Ec; [exact Hx|].
      unfold JoinPartyWithLeader, start. destruct (LeaderNode _ _ _ _); [case_decide; destruct (getPeerIDs _ _)|]; exact Hx.
    - destruct (j_calls s !! j') eqn:Ec; [exact Hx|].
      unfold JoinPartyWithRetry, start. destruct (getPeerIDs _ _); exact Hx.
    - destruct (j_calls s !! j'); exact Hx.
    - destruct (j_handlers s !! h') eqn:Eh; [exact Hx|]. case_decide; [exact Hx|]. unfold dispatch.
      assert (h' <> h) by congruence.
      destruct m as [i|lm]; [|case_decide; [|case_decide; [|exact Hx]]];
        match goal with |- context [match j_index s !! ?i with _ => _ end] =>
          destruct (j_index s !! i) as [k|] eqn:Ei; [|exact Hx]; destruct (j_groups s !! k) eqn:Ek; [|exact Hx] end;
        cbn; rewrite lookup_insert_ne by congruence; exact Hx.
    - assert (Hne : h' <> h) by congruence. unfold handle.
      destruct (j_handlers s !! h') as [[k p old|k p lm|k|k]|] eqn:Eh; [..|exact Hx];
        (destruct (j_groups s !! k) as [g0|] eqn:Ek; [|exact Hx]).
      + destruct (updatePeer p g0) as [g1 [[|]|]] eqn:Eu; cbn;
          [rewrite lookup_insert_ne by congruence|rewrite lookup_delete_ne by congruence..]; exact Hx.
      + case_decide; cbn; [rewrite lookup_insert_ne by congruence|rewrite lookup_delete_ne by congruence]; exact Hx.
      + destruct (Nat.ltb _ _); cbn; [rewrite lookup_delete_ne by congruence|]; exact Hx.
      + destruct (Nat.ltb _ _); cbn; [rewrite lookup_delete_ne by congruence|]; exact Hx.
    - unfold on_notify. destruct (j_calls s !! j') as [c1|] eqn:E1; [|exact Hx].
      destruct (j_groups s !! j') as [k|] eqn:Ek; [|exact Hx].
      destruct (jc_stage c1); try exact Hx. destruct (g_notify k) as [|n] eqn:En; [exact Hx|].
      destruct (jc_role c1); [| |destruct (getCoordinationStatus k)]; exact Hx.
    - unfold on_timeout. destruct (j_calls s !! j') as [c1|] eqn:E1; [|exact Hx]. destruct (jc_stage c1); exact Hx.
    - unfold on_sig. destruct (j_calls s !! j') as [c1|] eqn:E1; [|exact Hx].
      destruct (jc_stage c1); try exact Hx. destruct (jc_sig c1) as [|z rest]; [exact Hx|]. destruct (jc_role c1); exact Hx.
    - unfold finish. destruct (j_calls s !! j') as [c1|] eqn:E1; [|exact Hx].
      destruct (j_groups s !! j') as [k|]; [|exact Hx]. destruct (jc_role c1).
      + destruct (jc_stage c1); try exact Hx. unfold finish_leader, done. case_decide; [|destruct (Z.ltb _ _)]; exact Hx.
      + unfold finish_member, done. destruct (jc_stage c1); try exact Hx.
        * destruct (g_resp k); [case_decide|]; exact Hx.
        * destruct (g_resp k); [|exact Hx]. destruct (getPeerIDs _ _); [destruct (Z.ltb _ _)|]; exact Hx.
        * destruct (g_resp k); [|exact Hx]. destruct (Nat.eqb _ _); exact Hx.
      + destruct (jc_stage c1); exact Hx.
  Qed.

  (** ** A leader nobody will wake before its timeout *)
  Definition idle (s : jstate) (j : nat) (ps : list string) (g : group) : Prop :=
    (exists c, j_calls s !! j = Some c /\ jc_role c = RLeader ps /\ jc_stage c = JWait) /\
    j_groups s !! j = Some g /\ g_notify g = 0 /\ (forall h, j_handlers s !! h <> Some (HNotify j)).
  Lemma idle_step ls l j ps g :
    idle (run ls) j ps g -> l <> LTimeout j ->
    ((g_threshold g <= g_count g)%Z \/ forall h p old, j_handlers (run ls) !! h <> Some (HUpdate j p old)) ->
    exists g', idle (run (ls ++ [l])) j ps g' /\ g_threshold g' = g_threshold g /\ (g_count g <= g_count g')%Z.
  Proof.
    intros ((c1 & Hc1 & Hr1 & Hw1) & Hg1 & Hn1 & Hh1) Ht Hor.
    destruct (group_run sha peerDecode me me_ok ls [l] _ _ Hg1) as (g2 & Hg2 & _).
    destruct (call_step sha peerDecode me l _ _ _ Hc1) as (c2 & Hc2 & _ & M & _).
    pose proof Hg2 as Hg2'. rewrite run_snoc in Hg2'.
    destruct (chan_step l _ j g g2 (mk_is_Some _ _ Hc1) Hg1 Hg2') as (El & Et & _ & Ec & Hch).
    exists g2. split; [|auto]. split; [|split; [exact Hg2|split]].
    - exists c2. rewrite run_snoc. split; [exact Hc2|]. split; [congruence|].
      destruct (jc_stage c2) eqn:Est; [reflexivity|..]; exfalso;
        (destruct (wait_step _ _ _ _ _ Hc1 Hc2 Hw1 ltac:(congruence)) as [-> |[(-> & g3 & Hg3 & Hne)|(_ & _ & ld & H)]];
          [congruence|rewrite Hg1 in Hg3; injection Hg3 as <-; congruence|congruence]).
    - destruct Hch as [H|[(h & _ & H & _)|(c3 & _ & _ & _ & H)]]; [congruence|destruct (Hh1 _ H)|lia].
    - destruct (ji_group _ _ _ (inv_run ls) _ _ Hg1) as (c3 & Hc3 & Hok). rewrite Hc1 in Hc3. injection Hc3 as <-.
      pose proof (ok_role _ _ _ _ Hok) as Hro. unfold role_ok in Hro. rewrite Hr1 in Hro. destruct Hro as (Hro & _).
      intros h Hx. rewrite run_snoc in Hx.
      destruct (handler_step _ _ _ _ Hx) as [H|[(p & m & k & _ & _ & _ & _ & _ & [[[=] _]|(lm & _ & [[=]|[=]])])|[(k & p & old & g3 & g3' & -> & H & Hg3 & Hu & E)|(k & p & lm & g3 & -> & H & Hg3 & Hp & E)]]].
      + exact (Hh1 _ H).
      + destruct old; [discriminate|]. injection E as <-. rewrite Hg1 in Hg3. injection Hg3 as <-.
        destruct Hor as [Hle|Hq]; [|exact (Hq _ _ _ H)].
        destruct (updatePeer_cases _ _ _ _ Hu) as [(_ & _ & Hf & _)|[(_ & Hl & _)|(_ & _ & Hlt & _)]]; [congruence|congruence|lia].
      + injection E as <-. rewrite Hg1 in Hg3. injection Hg3 as <-.
        destruct (ji_handler _ _ _ (inv_run ls) _ _ H) as (g4 & Hg4 & Hin & _). rewrite Hg1 in Hg4. injection Hg4 as <-.
        destruct (ok_in _ _ _ _ Hok _ _ Hin) as (_ & Hne & _). congruence.
  Qed.

  Lemma idle_joining s j ps g : idle s j ps g -> joining s j.
  Proof. intros ((c & Hc & _ & Hw) & _). exists c. split; [exact Hc|]. congruence. Qed.

  (** ... because it has enough peers already, *)
  Lemma idle_enough ls ls' j ps g :
    idle (run ls) j ps g -> (g_threshold g <= g_count g)%Z -> LTimeout j ∉ ls' ->
    exists g', idle (run (ls ++ ls')) j ps g' /\ (g_threshold g' <= g_count g')%Z.
  Proof.
    intros Hi Hle Ht. induction ls' as [|l ls' IH] using rev_ind; [rewrite app_nil_r; eauto|].
    destruct IH as (g1 & Hi1 & Hle1); [set_solver|]. rewrite app_assoc.
    destruct (idle_step _ l _ _ _ Hi1) as (g2 & Hi2 & E & Hc); [set_solver|auto|]. exists g2. split; [exact Hi2|]. lia.
  Qed.
  (** ... or because nobody sends anything. *)
  Lemma idle_silence ls ls' j ps g :
    idle (run ls) j ps g -> (forall h p old, j_handlers (run ls) !! h <> Some (HUpdate j p old)) -> LTimeout j ∉ ls' ->
    (forall h p m, LMsg h p m ∉ ls') ->
    exists g', idle (run (ls ++ ls')) j ps g' /\ (forall h p old, j_handlers (run (ls ++ ls')) !! h <> Some (HUpdate j p old)).
  Proof.
    intros Hi Hq Ht Hm. induction ls' as [|l ls' IH] using rev_ind; [rewrite app_nil_r; eauto|].
    destruct IH as (g1 & Hi1 & Hq1); [set_solver|intros h p m Hx; apply (Hm h p m); set_solver|]. rewrite app_assoc.
    destruct (idle_step _ l _ _ _ Hi1) as (g2 & Hi2 & _); [set_solver|auto|]. exists g2. split; [exact Hi2|].
    intros h p old Hx. rewrite run_snoc in Hx.
    destruct (handler_step _ _ _ _ Hx) as [H|[(p' & m & k & -> & _)|[(k & p' & old' & g3 & g3' & -> & H & Hg3 & Hu & E)|(k & p' & lm & g3 & -> & H & Hg3 & Hp & E)]]].
    - exact (Hq1 _ _ _ H).
    - apply (Hm h p' m). set_solver.
    - destruct old'; discriminate.
    - discriminate.
  Qed.

  (** ** A handler that is stuck at a full channel *)
  Lemma blocked_forever ls ls' j h o g :
    returned (run ls) j o -> j_groups (run ls) !! j = Some g ->
    g_cap g <= g_notify g -> j_handlers (run ls) !! h = Some (HNotify j) ->
    j_handlers (run (ls ++ ls')) !! h = Some (HNotify j).
  Proof.
    intros Hret Hg Hn Hh.
    assert (exists g', returned (run (ls ++ ls')) j o /\
      j_groups (run (ls ++ ls')) !! j = Some g' /\ g_cap g' <= g_notify g' /\
      j_handlers (run (ls ++ ls')) !! h = Some (HNotify j)) as (_ & _ & _ & _ & H); [|exact H].
    induction ls' as [|l ls' (g1 & (c1 & Hc1 & Hw1) & Hg1 & Hn1 & Hh1)] using rev_ind; [rewrite app_nil_r; eauto 10|].
    rewrite app_assoc. set (l0 := ls ++ ls') in *.
    destruct (group_run sha peerDecode me me_ok l0 [l] _ _ Hg1) as (g2 & Hg2 & _).
    destruct (call_step sha peerDecode me l _ _ _ Hc1) as (c2 & Hc2 & _ & _ & _ & Hst).
    pose proof Hg2 as Hg2'. rewrite run_snoc in Hg2'.
    destruct (chan_step l _ j g1 g2 (mk_is_Some _ _ Hc1) Hg1 Hg2') as (_ & _ & Ecap & _ & Hch).
    exists g2. split; [exists c2; rewrite run_snoc; split; [exact Hc2|]; apply Hst; exact Hw1|].
    split; [exact Hg2|]. split.
    { destruct Hch as [H|[(h' & _ & _ & H & _)|(c3 & _ & H & H' & _)]]; [lia|lia|congruence]. }
    rewrite run_snoc.
    assert (Hd : l = LHandle h \/ l <> LHandle h).
    { destruct l as [| | | |h'| | | |]; try (right; discriminate). destruct (decide (h' = h)); [left|right]; congruence. }
    destruct Hd as [->|Hne]; [|apply handler_stays; auto].
    cbn [jstep]. unfold handle. rewrite Hh1, Hg1. destruct (Nat.ltb_spec (g_notify g1) (g_cap g1)); [lia|exact Hh1].
  Qed.

  (** ** A group that is not in the coordinator's table *)
  Definition forgotten (s : jstate) (j : nat) : Prop :=
    (forall id, j_index s !! id <> Some j) /\ (forall h p old, j_handlers s !! h <> Some (HUpdate j p old)).
  Lemma index_step l s id j :
    is_Some (j_calls s !! j) -> j_index (step l s) !! id = Some j -> j_index s !! id = Some j.
  Proof.
    intros [c0 Hc0]. destruct l as [j' i h' ps t|j' i ps|j' y|h' p m|h'|j'|j'|j'|j' ord]; cbn [jstep].
    - destruct (j_calls s !! j') eqn:Ec; [auto|].
      unfold JoinPartyWithLeader, start. destruct (LeaderNode _ _ _ _); [case_decide; destruct (getPeerIDs _ _)|]; cbn; auto;
        intros [[_ ->]|[_ Hi]]%lookup_insert_Some; auto; congruence.
    - destruct (j_calls s !! j') eqn:Ec; [auto|].
      unfold JoinPartyWithRetry, start. destruct (getPeerIDs _ _); cbn; auto;
        intros [[_ ->]|[_ Hi]]%lookup_insert_Some; auto; congruence.
    - destruct (j_calls s !! j'); auto.
    - destruct (j_handlers s !! h') eqn:Eh; [auto|]. case_decide; [auto|]. unfold dispatch.
      destruct m as [i|lm]; [|case_decide; [|case_decide; [|auto]]];
        match goal with |- context [match j_index s !! ?i with _ => _ end] =>
          destruct (j_index s !! i) as [k|] eqn:Ei; [|auto]; destruct (j_groups s !! k) eqn:Ek; [|auto] end; cbn; auto.
    - unfold handle. destruct (j_handlers s !! h') as [[k p old|k p lm|k|k]|] eqn:Eh; [..|auto];
        (destruct (j_groups s !! k) as [g0|] eqn:Ek; [|auto]).
      + destruct (updatePeer p g0) as [g1 [[|]|]] eqn:Eu; cbn; auto.
      + case_decide; cbn; auto.
      + destruct (Nat.ltb _ _); cbn; auto.
      + destruct (Nat.ltb _ _); cbn; auto.
    - unfold on_notify. destruct (j_calls s !! j') as [c1|] eqn:E1; [|auto].
      destruct (j_groups s !! j') as [k|] eqn:Ek; [|auto].
      destruct (jc_stage c1); auto. destruct (g_notify k) as [|n] eqn:En; [auto|].
      destruct (jc_role c1); [| |destruct (getCoordinationStatus k)]; auto.
    - unfold on_timeout. destruct (j_calls s !! j') as [c1|] eqn:E1; [|auto]. destruct (jc_stage c1); auto.
    - unfold on_sig. destruct (j_calls s !! j') as [c1|] eqn:E1; [|auto].
      destruct (jc_stage c1); auto. destruct (jc_sig c1) as [|z rest]; [auto|]. destruct (jc_role c1); auto.
    - unfold finish. destruct (j_calls s !! j') as [c1|] eqn:E1; [|auto].
      destruct (j_groups s !! j') as [k|]; [|auto]. destruct (jc_role c1).
      + destruct (jc_stage c1); auto. unfold finish_leader, done. case_decide; [|destruct (Z.ltb _ _)]; auto.
      + unfold finish_member, done. destruct (jc_stage c1); auto.
        * destruct (g_resp k); [case_decide|]; auto.
        * destruct (g_resp k); [|auto]. destruct (getPeerIDs _ _); [destruct (Z.ltb _ _)|]; auto.
        * destruct (g_resp k); [|auto]. destruct (Nat.eqb _ _); auto.
      + destruct (jc_stage c1); auto. cbn. intros [_ H]%lookup_delete_Some. exact H.
  Qed.
  Lemma forgotten_step ls l j :
    is_Some (j_calls (run ls) !! j) -> forgotten (run ls) j -> forgotten (run (ls ++ [l])) j.
  Proof.
    intros Hc [H1 H2]. split; rewrite run_snoc.
    - intros id H. apply (H1 id). eapply index_step; eauto.
    - intros h p old Hx. destruct (handler_step _ _ _ _ Hx) as [H|[(p' & m & k & _ & _ & _ & Hi & _ & Hk)|[(k & p' & old' & g3 & g3' & -> & H & Hg3 & Hu & E)|(k & p' & lm & g3 & -> & H & Hg3 & Hp & E)]]].
      + exact (H2 _ _ _ H).
      + apply (H1 (id_of m)). destruct Hk as [[[= -> _ _] _]|(lm & _ & [[= -> _]|[=]])]; exact Hi.
      + destruct old'; discriminate.
      + discriminate.
  Qed.
  Lemma members_step l s j g g' :
    is_Some (j_calls s !! j) -> j_groups s !! j = Some g -> j_groups (step l s) !! j = Some g' ->
    (forall h p old, j_handlers s !! h <> Some (HUpdate j p old)) -> g_members g' = g_members g.
  Proof.
    intros [c0 Hc0] Hg H Hq.
    assert (T : j_groups s !! j = Some g' -> g_members g' = g_members g) by (intros H'; congruence).
    assert (N : forall k gk, j_calls s !! k = None -> <[k := gk]> (j_groups s) !! j = Some g' -> g_members g' = g_members g).
    { intros k gk Hk H'. rewrite lookup_insert_ne in H' by congruence. auto. }
    assert (U : forall k gk gk', j_groups s !! k = Some gk -> <[k := gk']> (j_groups s) !! j = Some g' ->
      (k = j -> g_members gk' = g_members gk) -> g_members g' = g_members g).
    { intros k gk gk' Hk H' Hle. destruct (decide (k = j)) as [->|]; [|rewrite lookup_insert_ne in H' by congruence; auto].
      rewrite lookup_insert in H'. injection H' as <-. rewrite Hg in Hk. injection Hk as <-. auto. }
    destruct l as [j' id h' ps t|j' id ps|j' y|h' p m|h'|j'|j'|j'|j' ord]; cbn [jstep] in H.
    - destruct (j_calls s !! j') eqn:Ec; [auto|].
      unfold JoinPartyWithLeader, start in H. destruct (LeaderNode _ _ _ _); [case_decide; destruct (getPeerIDs _ _)|]; cbn in H; eauto.
    - destruct (j_calls s !! j') eqn:Ec; [auto|].
      unfold JoinPartyWithRetry, start in H. destruct (getPeerIDs _ _); cbn in H; eauto.
    - destruct (j_calls s !! j'); cbn in H; auto.
    - destruct (j_handlers s !! h') eqn:Eh; [auto|]. case_decide; [auto|]. unfold dispatch in H.
      destruct m as [i|lm]; [|case_decide; [|case_decide; [|auto]]];
        match type of H with context [match j_index s !! ?i with _ => _ end] =>
          destruct (j_index s !! i) as [k|] eqn:Ei; [|auto]; destruct (j_groups s !! k) eqn:Ek; [|auto] end;
        cbn in H; eapply U; eauto.
    - unfold handle in H. destruct (j_handlers s !! h') as [[k p old|k p lm|k|k]|] eqn:Eh; [..|auto];
        (destruct (j_groups s !! k) as [g0|] eqn:Ek; [|auto]).
      + destruct (updatePeer p g0) as [g1 r] eqn:Eu.
        assert (k <> j) by (intros ->; exact (Hq _ _ _ Eh)).
        destruct r as [[|]|]; cbn in H; (eapply U; [exact Ek|exact H|]; intros; congruence).
      + case_decide; [|cbn in H; auto]. cbn in H. eapply U; eauto.
      + destruct (Nat.ltb _ _); [|auto]. cbn in H. eapply U; eauto.
      + destruct (Nat.ltb _ _); [|auto]. cbn in H. eapply U; eauto.
    - unfold on_notify in H. destruct (j_calls s !! j') as [c1|] eqn:E1; [|auto].
      destruct (j_groups s !! j') as [k|] eqn:Ek; [|auto].
      destruct (jc_stage c1) eqn:Est; auto. destruct (g_notify k) as [|n] eqn:En; [auto|].
      destruct (jc_role c1); [| |destruct (getCoordinationStatus k)]; cbn in H; eapply U; eauto.
    - unfold on_timeout in H. destruct (j_calls s !! j') as [c1|] eqn:E1; [|auto].
      destruct (jc_stage c1); auto.
    - unfold on_sig in H. destruct (j_calls s !! j') as [c1|] eqn:E1; [|auto].
      destruct (jc_stage c1) eqn:Est; auto. destruct (jc_sig c1) as [|z rest] eqn:Es; [auto|].
      destruct (jc_role c1); auto.
    - unfold finish in H. destruct (j_calls s !! j') as [c1|] eqn:E1; [|auto].
      destruct (j_groups s !! j') as [k|]; [|auto]. destruct (jc_role c1).
      + destruct (jc_stage c1); auto. unfold finish_leader, done in H.
        case_decide; [|destruct (Z.ltb _ _)]; cbn in H; auto.
      + unfold finish_member, done in H. destruct (jc_stage c1); auto.
        * destruct (g_resp k); [case_decide|]; cbn in H; auto.
        * destruct (g_resp k); [|auto]. destruct (getPeerIDs _ _); [destruct (Z.ltb _ _)|]; cbn in H; auto.
        * destruct (g_resp k); [|auto]. destruct (Nat.eqb _ _); cbn in H; auto.
      + destruct (jc_stage c1); auto.
  Qed.

  (** A forgotten group never finds another peer. *)
  Lemma forgotten_run ls ls' j g :
    forgotten (run ls) j -> j_groups (run ls) !! j = Some g ->
    exists g', j_groups (run (ls ++ ls')) !! j = Some g' /\ g_members g' = g_members g.
  Proof.
    intros Hf Hg.
    assert (exists g', forgotten (run (ls ++ ls')) j /\ j_groups (run (ls ++ ls')) !! j = Some g' /\ g_members g' = g_members g)
      as (g' & _ & H); [|eauto].
    induction ls' as [|l ls' (g1 & Hf1 & Hg1 & Hm)] using rev_ind; [rewrite app_nil_r; eauto|].
    rewrite app_assoc. destruct (ji_group _ _ _ (inv_run (ls ++ ls')) _ _ Hg1) as (c & Hc & _).
    destruct (group_run sha peerDecode me me_ok (ls ++ ls') [l] _ _ Hg1) as (g2 & Hg2 & _).
    exists g2. split; [apply forgotten_step; eauto|]. split; [exact Hg2|]. rewrite <- Hm.
    rewrite run_snoc in Hg2. eapply members_step; [|exact Hg1|exact Hg2|apply Hf1]. eauto.
  Qed.

  (** How a leaderless call returns. *)
  Lemma leaderless_done l s j c c' pids g o :
    j_calls s !! j = Some c -> jc_role c = RLeaderless pids -> j_groups s !! j = Some g ->
    j_calls (step l s) !! j = Some c' -> jc_stage c' = JDone o ->
    jc_stage c = JDone o \/
    exists ord, o = Outcome (Some (getOnline ord g ++ [me]))
      (if Nat.eqb (length (getOnline ord g ++ [me])) (length pids) then ENone else ETimeout).
  Proof.
    intros Hc Hr Hg H Hst.
    assert (T : j_calls s !! j = Some c' -> jc_stage c = JDone o) by (intros H'; congruence).
    assert (U : forall k ck', <[k := ck']> (j_calls s) !! j = Some c' -> (k = j -> jc_stage ck' = JDone o -> jc_stage c = JDone o) -> jc_stage c = JDone o).
    { intros k ck' H' Hk. destruct (decide (k = j)) as [->|]; [rewrite lookup_insert in H'; injection H' as <-; auto|].
      rewrite lookup_insert_ne in H' by congruence. auto. }
    destruct l as [j' id h' ps t|j' id ps|j' y|h' p m|h'|j'|j'|j'|j' ord]; cbn [jstep] in H.
    - left. destruct (j_calls s !! j') eqn:Ec; [auto|].
      unfold JoinPartyWithLeader, start in H. destruct (LeaderNode _ _ _ _); [case_decide; destruct (getPeerIDs _ _)|];
        cbn in H; (eapply U; [exact H|]; intros ->; congruence).
    - left. destruct (j_calls s !! j') eqn:Ec; [auto|].
      unfold JoinPartyWithRetry, start in H. destruct (getPeerIDs _ _); cbn in H; (eapply U; [exact H|]; intros ->; congruence).
    - left. destruct (j_calls s !! j') as [c1|] eqn:E1; [|auto]. cbn in H. eapply U; [exact H|]. intros ->. cbn. congruence.
    - left. destruct (j_handlers s !! h') eqn:Eh; [auto|]. case_decide; [auto|]. unfold dispatch in H.
      destruct m as [i|lm]; [|case_decide; [|case_decide; [|auto]]];
        match type of H with context [match j_index s !! ?i with _ => _ end] =>
          destruct (j_index s !! i) as [k|] eqn:Ei; [|auto]; destruct (j_groups s !! k) eqn:Ek; [|auto] end;
        cbn in H; auto.
    - left. unfold handle in H. destruct (j_handlers s !! h') as [[k p old|k p lm|k|k]|] eqn:Eh; [..|auto];
        (destruct (j_groups s !! k) as [g0|] eqn:Ek; [|auto]).
      + destruct (updatePeer p g0) as [g1 [[|]|]] eqn:Eu; cbn in H; auto.
      + case_decide; cbn in H; auto.
      + destruct (Nat.ltb _ _); cbn in H; auto.
      + destruct (Nat.ltb _ _); cbn in H; auto.
    - left. unfold on_notify in H. destruct (j_calls s !! j') as [c1|] eqn:E1; [|auto].
      destruct (j_groups s !! j') as [k|] eqn:Ek; [|auto].
      destruct (jc_stage c1) eqn:Est; auto. destruct (g_notify k) as [|n] eqn:En; [auto|].
      destruct (jc_role c1); [| |destruct (getCoordinationStatus k)]; cbn in H; auto;
        (eapply U; [exact H|]; intros ->; cbn; discriminate).
    - left. unfold on_timeout in H. destruct (j_calls s !! j') as [c1|] eqn:E1; [|auto].
      destruct (jc_stage c1); auto. cbn in H. eapply U; [exact H|]; intros ->; cbn; discriminate.
    - left. unfold on_sig in H. destruct (j_calls s !! j') as [c1|] eqn:E1; [|auto].
      destruct (jc_stage c1) eqn:Est; auto. destruct (jc_sig c1) as [|z rest] eqn:Es; [auto|].
      destruct (jc_role c1) eqn:Er; auto; cbn in H; (eapply U; [exact H|]; intros ->; congruence).
    - unfold finish in H. destruct (j_calls s !! j') as [c1|] eqn:E1; [|auto].
      destruct (j_groups s !! j') as [k|] eqn:Ek; [|auto].
      assert (V : forall ck', <[j' := ck']> (j_calls s) !! j = Some c' -> jc_role c1 <> RLeaderless pids -> jc_stage c = JDone o).
      { intros ck' H' Hn. eapply U; [exact H'|]. intros ->. congruence. }
      destruct (jc_role c1) eqn:Er.
      + left. destruct (jc_stage c1) eqn:Est; auto. unfold finish_leader, done in H.
        case_decide; [|destruct (Z.ltb _ _)]; cbn in H; eapply V; eauto; congruence.
      + left. unfold finish_member, done in H. destruct (jc_stage c1) eqn:Est; auto.
        * destruct (g_resp k); [case_decide|]; cbn in H; eapply V; eauto; congruence.
        * destruct (g_resp k); [|auto]. destruct (getPeerIDs _ _); [destruct (Z.ltb _ _)|]; cbn in H; eapply V; eauto; congruence.
        * destruct (g_resp k); [|auto]. destruct (Nat.eqb _ _); cbn in H; eapply V; eauto; congruence.
      + destruct (jc_stage c1) eqn:Est; auto. cbn in H. destruct (decide (j' = j)) as [->|]; [|rewrite lookup_insert_ne in H by congruence; auto].
        rewrite lookup_insert in H. injection H as <-. cbn in Hst. injection Hst as <-. right.
        rewrite Hc in E1. injection E1 as <-. rewrite Hg in Ek. injection Ek as <-. rewrite Hr in Er. injection Er as <-.
        exists ord. reflexivity.
  Qed.

  Lemma forgotten_fails ls ls' j c g pids o :
    forgotten (run ls) j -> j_groups (run ls) !! j = Some g -> j_calls (run ls) !! j = Some c ->
    jc_role c = RLeaderless pids -> (forall o', jc_stage c <> JDone o') ->
    (forall ord, length (getOnline ord g ++ [me]) <> length pids) ->
    returned (run (ls ++ ls')) j o -> oc_err o = ETimeout.
  Proof.
    intros Hf Hg Hc Hr Hst Hl. revert o. 
    assert (exists c', j_calls (run (ls ++ ls')) !! j = Some c' /\ jc_role c' = RLeaderless pids /\
      forall o, jc_stage c' = JDone o -> oc_err o = ETimeout) as (c' & Hc' & _ & H).
    { induction ls' as [|l ls' (c1 & Hc1 & Hr1 & H1)] using rev_ind.
      - rewrite app_nil_r. exists c. repeat split; auto. intros o Ho. destruct (Hst _ Ho).
      - destruct (forgotten_run ls ls' _ _ Hf Hg) as (g1 & Hg1 & Hm). rewrite app_assoc.
        destruct (call_step sha peerDecode me l _ _ _ Hc1) as (c2 & Hc2 & _ & M & _).
        exists c2. rewrite run_snoc. split; [exact Hc2|]. split; [congruence|]. intros o Ho.
        destruct (leaderless_done _ _ _ _ _ _ _ _ Hc1 Hr1 Hg1 Hc2 Ho) as [H|[ord ->]]; [auto|]. cbn.
        replace (getOnline ord g1) with (getOnline ord g) by (unfold getOnline; rewrite Hm; reflexivity).
        destruct (Nat.eqb_spec (length (getOnline ord g ++ [me])) (length pids)) as [E|]; [destruct (Hl _ E)|reflexivity]. }
    intros o (c2 & Hc2 & Ho). rewrite Hc' in Hc2. injection Hc2 as <-. auto.
  Qed.
End refut.
