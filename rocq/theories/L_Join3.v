(** Lemmas: completeness of the join-party lists, signature notifications, blocking. *)
From Coq Require Import ZArith NArith Ascii String List Lia.
From stdpp Require Import base list strings gmap.
From Verif Require Import Base L_Base M_Conv M_Join S_Join L_Join L_Join2.

Section compl.
  Context (sha : bytes -> string) (peerDecode : string -> option string) (me : string).
  Notation run := (jrun sha peerDecode me).
  Notation step := (jstep sha peerDecode me).
  Context (me_ok : me <> "NONE"%string).
  Notation inv_run := (jinv_run sha peerDecode me me_ok).

  (** Calls come from labels. *)
  Definition starts (j : nat) (id : string) (l : jlabel) : Prop :=
    match l with LJoin j' id' _ _ _ | LRetry j' id' _ => j' = j /\ id' = id | _ => False end.
  Lemma call_new l s j c : j_calls s !! j = None -> j_calls (step l s) !! j = Some c -> starts j (jc_msg c) l.
  Proof.
    assert (NK : forall k ck ck', j_calls s !! k = Some ck -> j_calls s !! j = None -> <[k := ck']> (j_calls s) !! j = Some c -> starts j (jc_msg c) l).
    { intros k ck ck' Hk Hj Hg. rewrite lookup_insert_ne in Hg by congruence. congruence. }
    assert (NN : forall k ck', j_calls s !! j = None -> <[k := ck']> (j_calls s) !! j = Some c -> k = j /\ ck' = c).
    { intros k ck' Hj Hg. destruct (decide (k = j)) as [->|]; [rewrite lookup_insert in Hg|rewrite lookup_insert_ne in Hg by congruence]; split; congruence. }
    intros Hn. destruct l as [j' id h ps t|j' id ps|j' x|h p m|h|j'|j'|j'|j' ord]; cbn [jstep].
    - destruct (j_calls s !! j') eqn:Ec; [congruence|].
      unfold JoinPartyWithLeader, start. destruct (LeaderNode _ _ _ _);
        [case_decide; destruct (getPeerIDs _ _)|]; cbn -[starts]; intros Hg; apply (NN _ _ Hn) in Hg as [-> <-]; split; reflexivity.
    - destruct (j_calls s !! j') eqn:Ec; [congruence|].
      unfold JoinPartyWithRetry, start. destruct (getPeerIDs _ _); cbn -[starts]; intros Hg; apply (NN _ _ Hn) in Hg as [-> <-]; split; reflexivity.
    - destruct (j_calls s !! j') eqn:Ec; cbn -[starts]; [eauto|congruence].
    - destruct (j_handlers s !! h); [congruence|]. case_decide; [congruence|]. unfold dispatch.
      destruct m as [id|lm]; [|case_decide; [|case_decide; [|congruence]]];
        (destruct (j_index s !! _) as [k|]; [|congruence]; destruct (j_groups s !! k) eqn:Ek; [|congruence]);
        cbn -[starts]; congruence.
    - unfold handle. destruct (j_handlers s !! h) as [[k p old|k p lm|k|k]|]; [..|congruence];
        (destruct (j_groups s !! k) eqn:Ek; [|congruence]).
      + destruct (updatePeer p g) as [g' [[|]|]]; cbn -[starts] in *; congruence.
      + case_decide; cbn -[starts]; congruence.
      + destruct (Nat.ltb _ _); cbn -[starts]; congruence.
      + destruct (Nat.ltb _ _); cbn -[starts]; congruence.
    - unfold on_notify. destruct (j_calls s !! j') as [c0|] eqn:E0; [|congruence].
      destruct (j_groups s !! j') as [k|] eqn:Ek; [|congruence].
      destruct (jc_stage c0) eqn:Est; try congruence. destruct (g_notify k); [congruence|].
      destruct (jc_role c0); [| |destruct (getCoordinationStatus k)]; cbn -[starts]; eauto; congruence.
    - unfold on_timeout. destruct (j_calls s !! j') as [c0|] eqn:E0; [|congruence].
      destruct (jc_stage c0) eqn:Est; cbn -[starts]; eauto; congruence.
    - unfold on_sig. destruct (j_calls s !! j') as [c0|] eqn:E0; [|congruence].
      destruct (jc_stage c0) eqn:Est; try congruence. destruct (jc_sig c0); [congruence|].
      destruct (jc_role c0) eqn:Er; cbn -[starts]; eauto; congruence.
    - unfold finish. destruct (j_calls s !! j') as [c0|] eqn:E0; [|congruence].
      destruct (j_groups s !! j') as [k|] eqn:Ek; [|congruence]. destruct (jc_role c0) eqn:Er.
      + destruct (jc_stage c0) eqn:Est; try congruence. unfold finish_leader, done.
        case_decide; [|destruct (Z.ltb _ _)]; cbn -[starts]; eauto.
      + unfold finish_member, done. destruct (jc_stage c0) eqn:Est; try congruence.
        * destruct (g_resp k); [case_decide|]; cbn -[starts]; eauto.
        * destruct (g_resp k); [|congruence]. destruct (getPeerIDs _ _); [destruct (Z.ltb _ _)|]; cbn -[starts]; eauto.
        * destruct (g_resp k); [|congruence]. destruct (Nat.eqb _ _); cbn -[starts]; eauto.
      + destruct (jc_stage c0) eqn:Est; cbn -[starts]; eauto; congruence.
  Qed.

  Lemma call_new_sig l s j c : j_calls s !! j = None -> j_calls (step l s) !! j = Some c -> jc_sig c = [] /\ jc_notified c = ""%string.
  Proof.
    intros Hn Hc. pose proof (call_new l s j c Hn Hc) as Hst.
    assert (NN : forall k ck', <[k := ck']> (j_calls s) !! j = Some c -> ck' = c).
    { intros k ck' Hg. destruct (decide (k = j)) as [->|]; [rewrite lookup_insert in Hg|rewrite lookup_insert_ne in Hg by congruence]; congruence. }
    destruct l as [j' id h ps t|j' id ps|j' x|h p m|h|j'|j'|j'|j' ord]; cbn in Hst; try contradiction; cbn [jstep] in Hc.
    - destruct (j_calls s !! j') eqn:Ec; [congruence|].
      unfold JoinPartyWithLeader, start in Hc. destruct (LeaderNode _ _ _ _);
        [case_decide; destruct (getPeerIDs _ _)|]; cbn in Hc; apply NN in Hc as <-; auto.
    - destruct (j_calls s !! j') eqn:Ec; [congruence|].
      unfold JoinPartyWithRetry, start in Hc. destruct (getPeerIDs _ _); cbn in Hc; apply NN in Hc as <-; auto.
  Qed.

  Definition sig_le (l : jlabel) (j : nat) (c c' : jcall) : Prop :=
    (jc_sig c' = jc_sig c /\ jc_notified c' = jc_notified c) \/
    (exists x, l = LSig j x /\ jc_sig c' = jc_sig c ++ [x] /\ jc_notified c' = jc_notified c) \/
    (exists x, l = LTakeSig j /\ jc_stage c = JWait /\ jc_sig c = x :: jc_sig c' /\ jc_notified c' = x).
  Lemma sig_step l s j c c' : j_calls s !! j = Some c -> j_calls (step l s) !! j = Some c' -> sig_le l j c c'.
  Proof.
    intros H.
    assert (T : j_calls s !! j = Some c' -> sig_le l j c c').
    { intros H'. rewrite H in H'. injection H' as ->. left. auto. }
    assert (U : forall k ck ck', j_calls s !! k = Some ck -> <[k := ck']> (j_calls s) !! j = Some c' ->
      jc_sig ck' = jc_sig ck -> jc_notified ck' = jc_notified ck -> sig_le l j c c').
    { intros k ck ck' Hk Hc' H1 H2. destruct (decide (k = j)) as [->|]; [|rewrite lookup_insert_ne in Hc' by congruence; auto].
      rewrite lookup_insert in Hc'. injection Hc' as <-. rewrite H in Hk. injection Hk as ->. left. auto. }
    assert (N : forall k ck', j_calls s !! k = None -> <[k := ck']> (j_calls s) !! j = Some c' -> sig_le l j c c').
    { intros k ck' Hk Hc'. rewrite lookup_insert_ne in Hc' by congruence. auto. }
    destruct l as [j' id h ps t|j' id ps|j' x|h p m|h|j'|j'|j'|j' ord]; cbn [jstep]; intros Hc.
    - destruct (j_calls s !! j') eqn:Ec; [auto|].
      unfold JoinPartyWithLeader, start in Hc. destruct (LeaderNode _ _ _ _);
        [case_decide; destruct (getPeerIDs _ _)|]; cbn in Hc; eapply N; eauto.
    - destruct (j_calls s !! j') eqn:Ec; [auto|].
      unfold JoinPartyWithRetry, start in Hc. destruct (getPeerIDs _ _); cbn in Hc; eapply N; eauto.
    - destruct (j_calls s !! j') as [c0|] eqn:Ec; [|auto]. cbn in Hc.
      destruct (decide (j' = j)) as [->|Hne]; [|rewrite lookup_insert_ne in Hc by congruence; auto].
      rewrite lookup_insert in Hc. injection Hc as <-. rewrite H in Ec. injection Ec as ->.
      right; left. exists x. auto.
    - destruct (j_handlers s !! h); [auto|]. case_decide; [auto|]. unfold dispatch in Hc.
      destruct m as [i|lm]; [|case_decide; [|case_decide; [|auto]]];
        match type of Hc with context [match j_index s !! ?i with _ => _ end] =>
          destruct (j_index s !! i) as [k|]; [|auto]; destruct (j_groups s !! k); cbn in Hc; auto end.
    - unfold handle in Hc. destruct (j_handlers s !! h) as [[k p old|k p lm|k|k]|]; [..|auto];
        (destruct (j_groups s !! k) as [g0|] eqn:Ek; [|auto]).
      + destruct (updatePeer p g0) as [g' [[|]|]]; cbn in Hc; auto.
      + case_decide; cbn in Hc; auto.
      + destruct (Nat.ltb _ _); cbn in Hc; auto.
      + destruct (Nat.ltb _ _); cbn in Hc; auto.
    - unfold on_notify in Hc. destruct (j_calls s !! j') as [c1|] eqn:E1; [|auto].
      destruct (j_groups s !! j') as [k|]; [|auto].
      destruct (jc_stage c1); auto. destruct (g_notify k); [auto|].
      destruct (jc_role c1); [| |destruct (getCoordinationStatus k)]; cbn in Hc; auto; eapply U; eauto.
    - unfold on_timeout in Hc. destruct (j_calls s !! j') as [c1|] eqn:E1; [|auto].
      destruct (jc_stage c1); auto. cbn in Hc. eapply U; eauto.
    - unfold on_sig in Hc. destruct (j_calls s !! j') as [c1|] eqn:E1; [|auto].
      destruct (jc_stage c1) eqn:Est; auto. destruct (jc_sig c1) as [|x rest] eqn:Es; [auto|].
      destruct (jc_role c1); [| |auto]; cbn in Hc;
        (destruct (decide (j' = j)) as [->|Hne]; [|rewrite lookup_insert_ne in Hc by congruence; auto]);
        rewrite lookup_insert in Hc; injection Hc as <-; rewrite H in E1; injection E1 as ->;
        right; right; exists x; auto.
    - unfold finish in Hc. destruct (j_calls s !! j') as [c1|] eqn:E1; [|auto].
      destruct (j_groups s !! j') as [k|]; [|auto]. destruct (jc_role c1).
      + destruct (jc_stage c1); auto. unfold finish_leader, done in Hc.
        case_decide; [|destruct (Z.ltb _ _)]; cbn in Hc; eapply U; eauto.
      + unfold finish_member, done in Hc. destruct (jc_stage c1); auto.
        * destruct (g_resp k); [case_decide|]; cbn in Hc; eapply U; eauto.
        * destruct (g_resp k); [|auto]. destruct (getPeerIDs _ _); [destruct (Z.ltb _ _)|]; cbn in Hc; eapply U; eauto.
        * destruct (g_resp k); [|auto]. destruct (Nat.eqb _ _); cbn in Hc; eapply U; eauto.
      + destruct (jc_stage c1); auto. unfold finish_leaderless, done in Hc. cbn in Hc. eapply U; eauto.
  Qed.

  Lemma call_from ls j c : j_calls (run ls) !! j = Some c -> exists l, l ∈ ls /\ starts j (jc_msg c) l.
  Proof.
    revert c. induction ls as [|l ls IH] using rev_ind; intros c Hc.
    - cbn in Hc. discriminate (eq_trans (eq_sym (lookup_empty (M := gmap nat) (A := jcall) j)) Hc).
    - rewrite run_snoc in Hc. destruct (j_calls (run ls) !! j) as [c0|] eqn:E0.
      + destruct (call_step sha peerDecode me l _ _ _ E0) as (c' & Hc' & Hm & _). rewrite Hc in Hc'. injection Hc' as <-.
        destruct (IH _ eq_refl) as (l' & Hl & Hs). exists l'. rewrite Hm. set_solver.
      + exists l. split; [set_solver|]. eapply call_new; eauto.
  Qed.

  Lemma only_call_msg ls j id j' c : only_call ls j id -> j_calls (run ls) !! j' = Some c -> jc_msg c = id -> j' = j.
  Proof.
    intros Ho Hc Hm. destruct (call_from _ _ _ Hc) as (l & Hl & Hs). specialize (Ho l Hl). rewrite Hm in Hs.
    destruct l; cbn in *; try contradiction; destruct Hs; subst; auto.
  Qed.

  Lemma group_run ls ls' j g : j_groups (run ls) !! j = Some g ->
    exists g', j_groups (run (ls ++ ls')) !! j = Some g' /\ forall x, x ∈ g_in g -> x ∈ g_in g'.
  Proof.
    intros Hg. induction ls' as [|l ls' IH] using rev_ind; [rewrite app_nil_r; eauto|].
    rewrite app_assoc, run_snoc. destruct IH as (g' & Hg' & Hs).
    destruct (group_step sha peerDecode me l _ _ _ (inv_run _) Hg') as (g2 & H2 & _ & _ & _ & Hle). exists g2. split; [exact H2|].
    intros x Hx. destruct Hle as [->|(h & p & m & _ & _ & ->)]; set_solver.
  Qed.

  (** The index entry of the only call with an id stays while the call goes on. *)
  Lemma own_index ls j id c g :
    only_call ls j id -> j_calls (run ls) !! j = Some c -> j_groups (run ls) !! j = Some g -> jc_msg c = id ->
    (forall o, jc_stage c <> JDone o) -> j_index (run ls) !! id = Some j.
  Proof.
    revert c g. induction ls as [|l ls IH] using rev_ind; intros c g Ho Hc Hg Hm Hst.
    - cbn in Hc. discriminate (eq_trans (eq_sym (lookup_empty (M := gmap nat) (A := jcall) j)) Hc).
    - assert (Ho' : only_call ls j id) by (intros l' Hl'; apply Ho; set_solver).
      pose proof (Ho l ltac:(set_solver)) as Hol.
      assert (Hoth : forall j' c', j_calls (run ls) !! j' = Some c' -> jc_msg c' = id -> j' = j)
        by (intros; eapply only_call_msg; eauto).
      rewrite run_snoc in *.
      assert (Hold : forall c0, j_calls (run ls) !! j = Some c0 -> j_index (run ls) !! id = Some j).
      { intros c0 Hc0. destruct (call_step sha peerDecode me l _ _ _ Hc0) as (c' & Hc' & M1 & M2 & M3 & M4).
        rewrite Hc in Hc'. injection Hc' as <-.
        assert (Hn0 : forall o, jc_stage c0 <> JDone o) by (intros o E; destruct (M4 _ E) as (E' & _); exact (Hst _ E')).
        destruct (j_groups (run ls) !! j) as [g0|] eqn:Eg0.
        - eapply IH; eauto. congruence.
        - destruct (ji_nogroup _ _ _ (inv_run ls) _ _ Hc0 Eg0) as (e & He & _). exfalso. exact (Hn0 _ He). }
      destruct l as [j' id' h ps t|j' id' ps|j' x|h p m|h|j'|j'|j'|j' ord]; cbn [jstep] in *.
      + destruct (j_calls (run ls) !! j') eqn:Ec; [eauto|].
        unfold JoinPartyWithLeader, start in *.
        destruct (LeaderNode _ _ _ _); [case_decide; destruct (getPeerIDs _ _)|]; cbn in *.
        1,3: (destruct (decide (id' = id)) as [->|Hne]; [rewrite lookup_insert; rewrite (Hol eq_refl); reflexivity|];
          rewrite lookup_insert_ne by congruence; destruct (decide (j' = j)) as [->|Hj];
          [rewrite lookup_insert in Hc; injection Hc as <-; cbn in Hm; congruence|
           rewrite lookup_insert_ne in Hc by congruence; eauto]).
        all: (destruct (decide (j' = j)) as [->|Hj];
          [rewrite lookup_insert in Hc; injection Hc as <-; cbn in Hst; exfalso; eapply Hst; reflexivity|
           rewrite lookup_insert_ne in Hc by congruence; eauto]).
      + destruct (j_calls (run ls) !! j') eqn:Ec; [eauto|].
        unfold JoinPartyWithRetry, start in *. destruct (getPeerIDs _ _); cbn in *.
        * destruct (decide (id' = id)) as [->|Hne]; [rewrite lookup_insert; rewrite (Hol eq_refl); reflexivity|].
          rewrite lookup_insert_ne by congruence; destruct (decide (j' = j)) as [->|Hj];
          [rewrite lookup_insert in Hc; injection Hc as <-; cbn in Hm; congruence|
           rewrite lookup_insert_ne in Hc by congruence; eauto].
        * destruct (decide (j' = j)) as [->|Hj];
          [rewrite lookup_insert in Hc; injection Hc as <-; cbn in Hst; exfalso; eapply Hst; reflexivity|
           rewrite lookup_insert_ne in Hc by congruence; eauto].
      + destruct (j_calls (run ls) !! j') eqn:Ec; [|eauto]. cbn in *.
        destruct (decide (j' = j)) as [->|Hj]; [eauto|rewrite lookup_insert_ne in Hc by congruence; eauto].
      + destruct (j_calls (run ls) !! j) as [c0|] eqn:E0.
        2: { pose proof (call_new (LMsg h p m) (run ls) j c E0 Hc) as H. cbn in H. contradiction. }
        specialize (Hold _ eq_refl). clear Hc Hg IH.
        destruct (j_handlers (run ls) !! h); [exact Hold|]. case_decide; [exact Hold|]. unfold dispatch.
        destruct m as [i|lm]; [|case_decide; [|case_decide; [|exact Hold]]];
          match goal with |- context [match j_index (run ls) !! ?i with _ => _ end] =>
            destruct (j_index (run ls) !! i) as [k|]; [|exact Hold]; destruct (j_groups (run ls) !! k); exact Hold end.
      + destruct (j_calls (run ls) !! j) as [c0|] eqn:E0.
        2: { pose proof (call_new (LHandle h) (run ls) j c E0 Hc) as H. cbn in H. contradiction. }
        specialize (Hold _ eq_refl). clear Hc Hg IH.
        unfold handle in *. destruct (j_handlers (run ls) !! h) as [[k p old|k p lm|k|k]|]; [..|exact Hold];
          (destruct (j_groups (run ls) !! k) as [g0|] eqn:Ek; [|exact Hold]).
        * destruct (updatePeer p g0) as [g' [[|]|]]; exact Hold.
        * case_decide; exact Hold.
        * destruct (Nat.ltb _ _); exact Hold.
        * destruct (Nat.ltb _ _); exact Hold.
      + destruct (j_calls (run ls) !! j) as [c0|] eqn:E0.
        2: { pose proof (call_new (LNotify j') (run ls) j c E0 Hc) as H. cbn in H. contradiction. }
        specialize (Hold _ eq_refl). unfold on_notify in *.
        destruct (j_calls (run ls) !! j') as [c1|]; [|eauto].
        destruct (j_groups (run ls) !! j') as [k|]; [|eauto].
        destruct (jc_stage c1); eauto. destruct (g_notify k); [eauto|].
        destruct (jc_role c1); [| |destruct (getCoordinationStatus k)]; cbn; eauto.
      + destruct (j_calls (run ls) !! j) as [c0|] eqn:E0.
        2: { pose proof (call_new (LTimeout j') (run ls) j c E0 Hc) as H. cbn in H. contradiction. }
        specialize (Hold _ eq_refl). unfold on_timeout in *.
        destruct (j_calls (run ls) !! j') as [c1|]; [|eauto]. destruct (jc_stage c1); eauto.
      + destruct (j_calls (run ls) !! j) as [c0|] eqn:E0.
        2: { pose proof (call_new (LTakeSig j') (run ls) j c E0 Hc) as H. cbn in H. contradiction. }
        specialize (Hold _ eq_refl). unfold on_sig in *.
        destruct (j_calls (run ls) !! j') as [c1|]; [|eauto]. destruct (jc_stage c1); eauto.
        destruct (jc_sig c1); [eauto|]. destruct (jc_role c1); eauto.
      + destruct (j_calls (run ls) !! j) as [c0|] eqn:E0.
        2: { pose proof (call_new (LFinish j' ord) (run ls) j c E0 Hc) as H. cbn in H. contradiction. }
        specialize (Hold _ eq_refl). unfold finish in *.
        destruct (j_calls (run ls) !! j') as [c1|] eqn:E1; [|eauto].
        destruct (j_groups (run ls) !! j') as [k|]; [|eauto]. destruct (jc_role c1).
        * destruct (jc_stage c1); eauto. unfold finish_leader, done. case_decide; [|destruct (Z.ltb _ _)]; cbn; eauto.
        * unfold finish_member, done. destruct (jc_stage c1); eauto.
          -- destruct (g_resp k); [case_decide|]; cbn; eauto.
          -- destruct (g_resp k); [|eauto]. destruct (getPeerIDs _ _); [destruct (Z.ltb _ _)|]; cbn; eauto.
          -- destruct (g_resp k); [|eauto]. destruct (Nat.eqb _ _); cbn; eauto.
        * destruct (jc_stage c1); eauto. unfold finish_leaderless, done in *. cbn in *.
          destruct (decide (j' = j)) as [->|Hj].
          -- rewrite lookup_insert in Hc. injection Hc as <-. exfalso. eapply Hst. reflexivity.
          -- rewrite lookup_delete_ne; [exact Hold|]. intros E. apply Hj. eapply Hoth; eauto.
  Qed.

  (** A request for the id of the only call with that id is matched with its group. *)
  Lemma requested_matched ls j id p c g :
    only_call ls j id -> j_calls (run ls) !! j = Some c -> j_groups (run ls) !! j = Some g -> jc_msg c = id ->
    p <> me -> p <> "NONE"%string -> requested sha peerDecode me ls j id p -> asked g p.
  Proof.
    intros Ho Hc Hg Hm Hp1 Hp2 (m & (ls0 & h & ls1 & -> & (c0 & Hc0 & Hst) & Hf) & Hr & Hid).
    assert (Ho0 : only_call ls0 j id) by (intros l Hl; apply Ho; set_solver).
    assert (Hm0 : jc_msg c0 = id).
    { destruct (call_run sha peerDecode me ls0 (LMsg h p m :: ls1) _ _ Hc0) as (c' & Hc' & M1 & _).
      rewrite Hc in Hc'. injection Hc' as <-. congruence. }
    destruct (j_groups (run ls0) !! j) as [g0|] eqn:Eg0.
    2: { destruct (ji_nogroup _ _ _ (inv_run ls0) _ _ Hc0 Eg0) as (e & He & _). exfalso. exact (Hst _ He). }
    pose proof (own_index _ _ _ _ _ Ho0 Hc0 Eg0 Hm0 Hst) as Hi.
    assert (H1 : exists g1, j_groups (run (ls0 ++ [LMsg h p m])) !! j = Some g1 /\ (p, m) ∈ g_in g1).
    { rewrite run_snoc. cbn [jstep]. rewrite Hf. rewrite decide_False by tauto. unfold dispatch.
      destruct m as [i|lm]; cbn in Hr, Hid.
      - subst i. rewrite Hi, Eg0. cbn. rewrite lookup_insert. eexists. split; [reflexivity|]. cbn. set_solver.
      - rewrite decide_True by exact Hr. rewrite Hid, Hi, Eg0. cbn. rewrite lookup_insert. eexists. split; [reflexivity|]. cbn. set_solver. }
    destruct H1 as (g1 & Hg1 & Hin).
    destruct (group_run _ ls1 _ _ Hg1) as (g2 & Hg2 & Hs). rewrite <- app_assoc in Hg2. cbn in Hg2.
    rewrite Hg in Hg2. injection Hg2 as <-. exists m. auto.
  Qed.

  (** ... and everything matched was requested. *)
  Lemma asked_requested ls j p c g :
    j_calls (run ls) !! j = Some c -> j_groups (run ls) !! j = Some g -> (forall o, jc_stage c <> JDone o) ->
    asked g p -> requested sha peerDecode me ls j (jc_msg c) p.
  Proof.
    intros Hc Hg Hst (m & Hin & Hr). exists m.
    destruct (ji_group _ _ _ (inv_run ls) _ _ Hg) as (c' & Hc' & Hok). rewrite Hc in Hc'. injection Hc' as <-.
    split; [|split; [exact Hr|apply (ok_in _ _ _ _ Hok _ _ Hin)]].
    destruct (seen_in sha peerDecode me me_ok _ _ _ _ _ Hg Hin) as (ls0 & h & ls1 & E & [g0 Hg0] & Hf).
    exists ls0, h, ls1. split; [exact E|]. split; [|exact Hf].
    destruct (ji_group _ _ _ (inv_run ls0) _ _ Hg0) as (c0 & Hc0 & _). exists c0. split; [exact Hc0|].
    intros o Ho. subst ls. destruct (call_run sha peerDecode me ls0 (LMsg h p m :: ls1) _ _ Hc0) as (c1 & Hc1 & _ & _ & _ & M).
    rewrite Hc in Hc1. injection Hc1 as <-. destruct (M _ Ho) as (E & _). exact (Hst _ E).
  Qed.

  (** ** Handlers of leader and leaderless groups end *)
  Lemma handlers_end ls h x j c :
    j_handlers (run ls) !! h = Some x ->
    match x with HUpdate k _ _ | HResp k _ _ | HNotify k | HNewFound k => k = j end ->
    j_calls (run ls) !! j = Some c -> (forall l, jc_role c <> RMember l) ->
    j_handlers (run (ls ++ [LHandle h; LHandle h])) !! h = None.
  Proof.
    assert (Send : forall ls x j c, j_handlers (run ls) !! h = Some x -> x = HNotify j \/ x = HNewFound j ->
      j_calls (run ls) !! j = Some c -> (forall l, jc_role c <> RMember l) -> j_handlers (step (LHandle h) (run ls)) !! h = None).
    { clear ls x j c. intros ls x j c Hx Hk Hc Hr.
      pose proof (ji_handler _ _ _ (inv_run ls) _ _ Hx) as Hh.
      assert (exists g, j_groups (run ls) !! j = Some g) as [g Hg] by (destruct Hk as [-> | ->]; exact Hh).
      destruct (ji_group _ _ _ (inv_run ls) _ _ Hg) as (c' & Hc' & Hok). rewrite Hc in Hc'. injection Hc' as <-.
      assert (exists n, quota c g = Some n) as [n Hq].
      { unfold quota. destruct (jc_role c); [eauto|exfalso; eapply Hr; reflexivity|eauto]. }
      pose proof (quota_le_cap peerDecode me me_ok _ _ _ Hok Hq) as Hcap.
      pose proof (ji_slots _ _ _ (inv_run ls) _ _ _ _ Hg Hc Hq) as Hs.
      rewrite (pend_delete j _ _ _ Hx) in Hs.
      assert (Ht : targets j x = true) by (destruct Hk as [-> | ->]; cbn; apply Nat.eqb_refl).
      rewrite Ht in Hs. cbn in Hs. cbn [jstep]. unfold handle. rewrite Hx.
      destruct Hk as [-> | ->]; rewrite Hg.
      - destruct (Nat.ltb_spec (g_notify g) (g_cap g)); [|lia]. cbn. apply lookup_delete.
      - destruct (Nat.ltb_spec (g_newfound g) (g_cap g)); [|lia]. cbn. apply lookup_delete. }
    assert (Stay : forall s, j_handlers s !! h = None -> j_handlers (step (LHandle h) s) !! h = None).
    { intros s Hs. cbn. unfold handle. rewrite Hs. exact Hs. }
    intros Hx Hk Hc Hr.
    replace (ls ++ [LHandle h; LHandle h]) with ((ls ++ [LHandle h]) ++ [LHandle h]) by (rewrite <- app_assoc; reflexivity).
    rewrite run_snoc.
    assert (Hs : j_handlers (run (ls ++ [LHandle h])) !! h = None \/
      (exists x', j_handlers (run (ls ++ [LHandle h])) !! h = Some x' /\ (x' = HNotify j \/ x' = HNewFound j))).
    { pose proof (ji_handler _ _ _ (inv_run ls) _ _ Hx) as Hh.
      destruct x as [k p old|k p lm|k|k]; subst k.
      - destruct Hh as (g & m & Hg & _). rewrite run_snoc. cbn [jstep]. unfold handle. rewrite Hx, Hg.
        destruct (updatePeer p g) as [g' [[|]|]]; cbn.
        + right. rewrite lookup_insert. eexists. split; [reflexivity|]. destruct old; auto.
        + left. apply lookup_delete.
        + left. apply lookup_delete.
      - destruct Hh as (g & Hg & _). rewrite run_snoc. cbn [jstep]. unfold handle. rewrite Hx, Hg.
        case_decide; cbn; [|left; apply lookup_delete]. right. rewrite lookup_insert. eauto.
      - left. rewrite run_snoc. eapply Send; eauto.
      - left. rewrite run_snoc. eapply Send; eauto. }
    destruct Hs as [Hs|(x' & Hx' & Hk')]; [apply Stay, Hs|].
    destruct (call_run sha peerDecode me ls [LHandle h] _ _ Hc) as (c' & Hc' & _ & M & _).
    eapply Send; eauto. intros l. rewrite M. apply Hr.
  Qed.
End compl.
