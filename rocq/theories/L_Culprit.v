(** Lemmas about shares that the library rejects. *)
From Coq Require Import ZArith Ascii String List Lia.
From stdpp Require Import base list strings gmap.
From Verif Require Import Base L_Base S_Threshold M_Common S_Common L_Common L_Common2 S_Culprit.

Section Culprit.
  Variable E : env.
  Variable C : cfg.

  Definition keeps (d : gmap string wire) (w : wire) : Prop :=
    forall id, sent_by w id -> is_broadcast w -> is_Some (d !! cache_key id (w_round w)).
  Definition kept (s : state) : Prop :=
    (forall rest key w, s_cur s = Some (Cur rest key w) -> keeps (s_stored s) w) /\
    (forall j, j ∈ s_pending s -> keeps (s_stored s) (j_wire j)).
  Definition more (s s' : state) : Prop :=
    (forall k, is_Some (s_stored s !! k) -> is_Some (s_stored s' !! k)) /\
    (forall rest key w, s_cur s' = Some (Cur rest key w) -> s_cur s = Some (Cur rest key w) \/ keeps (s_stored s') w).

  Lemma more_refl s : more s s.
  Proof. split; auto. Qed.
  Lemma keeps_mono (d d' : gmap string wire) w :
    (forall k, is_Some (d !! k) -> is_Some (d' !! k)) -> keeps d w -> keeps d' w.
  Proof. intros H K id H1 H2. apply H, K; assumption. Qed.
  Lemma more_trans s1 s2 s3 : more s1 s2 -> more s2 s3 -> more s1 s3.
  Proof.
    intros [A1 A2] [B1 B2]. split; [auto|]. intros rest key w H.
    destruct (B2 _ _ _ H) as [H'|H']; [|auto]. destruct (A2 _ _ _ H') as [H''|H'']; [auto|].
    right. eapply keeps_mono; eauto.
  Qed.
  Lemma more_kept s s' : more s s' -> s_pending s' = s_pending s -> kept s -> kept s'.
  Proof.
    intros [A1 A2] Hp [K1 K2]. split.
    - intros rest key w H. destruct (A2 _ _ _ H) as [H'|H']; [|exact H'].
      eapply keeps_mono; [exact A1|eauto].
    - intros j Hj. rewrite Hp in Hj. eapply keeps_mono; [exact A1|eauto].
  Qed.
  Ltac mr := split; cbn; auto.

  Lemma more_updateLocal w key s : keeps (s_stored s) w -> more s (fst (updateLocal E C w key s)).
  Proof.
    intros Hk. unfold updateLocal.
    destruct (w_routing w) as [[[| |id] to bc]|]; try (mr; fail).
    destruct (cf_parties C !! id) as [kb|]; [|mr].
    destruct (cf_id2peer C !! id) as [op|]; [|mr].
    destruct (e_dec_bulk E (w_body w)); destruct bc; split; cbn; auto; intros rest k' w' [= _ _ <-]; auto.
  Qed.
  Lemma more_requestShare ord votes th key t s :
    more s (fst (requestShareFromPeer E ord votes th key t s)).
  Proof.
    unfold requestShareFromPeer. destruct (getMsgHash ord votes th); [|mr].
    destruct (forallb _ _); [|mr]. destruct t; mr.
  Qed.
  Lemma more_applyShare o1 o2 it w owner bc key t s :
    (forall id, sent_by w id -> key = cache_key id (w_round w)) ->
    more s (fst (applyShare E C o1 o2 it w owner bc key t s)).
  Proof.
    intros Hk. unfold applyShare. destruct (hashCheck C o1 it owner (cf_threshold C)) as [r it1].
    destruct r; try (destruct (TssWrongShareBlame E C owner); mr; fail); try (mr; fail).
    - eapply more_trans; [|apply more_updateLocal].
      + split; cbn; [|auto]. intros k H. destruct (decide (key = k)) as [->|N]; [rewrite lookup_insert; eauto|].
        rewrite lookup_insert_ne by exact N. exact H.
      + intros id Hs _. rewrite <- (Hk id Hs). cbn. rewrite lookup_insert. eauto.
    - eapply more_trans; [|apply more_requestShare]. mr.
  Qed.

  Lemma names_key k w id : names k w id -> forall id', sent_by w id' -> k = cache_key id' (w_round w).
  Proof.
    intros [(to & bc & H1) ->] id' (to' & bc' & H2). rewrite H1 in H2. injection H2 as <- _ _. reflexivity.
  Qed.

  Section H.
    Variable H : string -> inmsg -> Prop.
    Lemma more_processVerMsg o1 o2 peer v t s :
      cache_ok E C H (s_cache s) -> more s (fst (processVerMsg E C o1 o2 peer v t s)).
    Proof.
      intros Hc. unfold processVerMsg. cbn zeta. cbn [it_msg].
      destruct (s_cache s !! v_key v) as [it|] eqn:Hit; cbn [it_msg].
      - destruct (it_msg it) as [w|] eqn:Hw.
        + destruct (w_routing w) as [[[| |id] to bc]|]; try (mr; fail).
          eapply more_trans; [|apply more_applyShare; intros id' Hs; destruct (Hc _ _ Hit) as [_ Hm];
            destruct (Hm _ Hw) as (id0 & (_ & _ & Hn) & _); eapply names_key; eauto]. mr.
        + eapply more_trans; [|apply more_requestShare]. mr.
      - eapply more_trans; [|apply more_requestShare]. mr.
    Qed.
    Lemma more_processTSSMsg o1 o2 w t fwd s :
      cache_ok E C H (s_cache s) -> more s (fst (processTSSMsg E C o1 o2 w t fwd s)).
    Proof.
      intros Hc. unfold processTSSMsg.
      destruct (w_routing w) as [[[| |owner] to bc]|] eqn:Hr0; try (mr; fail).
      destruct (cf_parties C !! owner) as [kb|]; [|mr].
      destruct (verifySignature E C kb (w_body w) (w_sig w)); [|mr].
      destruct bc.
      2:{ apply more_updateLocal. intros id _ (f & to' & Hb). rewrite Hr0 in Hb. discriminate. }
      set (s1 := if fwd then s else receiverBroadcastHashToPeers E C w owner t s).
      assert (Hr : more s s1 /\ s_cache s1 = s_cache s).
      { unfold s1. destruct fwd; [split; [mr|reflexivity]|]. unfold receiverBroadcastHashToPeers.
        destruct (cf_id2peer C !! owner); [|split; [mr|reflexivity]]. destruct (filter _ _); split; try reflexivity; mr. }
      destruct Hr as [Hr Hs1]. cbn zeta. cbn [it_msg]. rewrite Hs1.
      assert (Hown : forall w', w' = w -> forall id, sent_by w' id -> cache_key owner (w_round w) = cache_key id (w_round w')).
      { intros w' -> id (to' & bc' & Hx). rewrite Hr0 in Hx. injection Hx as <- _ _. reflexivity. }
      destruct (s_cache s !! cache_key owner (w_round w)) as [it|] eqn:Hit; cbn [it_msg].
      - destruct (it_msg it) as [w0|] eqn:Hw; cbn [it_msg].
        + rewrite Hw. destruct (w_routing w0) as [[[| |id] to' bc']|]; try (eapply more_trans; [exact Hr|]; mr; fail).
          eapply more_trans; [exact Hr|]. eapply more_trans; [|apply more_applyShare; intros id' Hs; destruct (Hc _ _ Hit) as [_ Hm];
            destruct (Hm _ Hw) as (id0 & (_ & _ & Hn) & _); eapply names_key; eauto]. mr.
        + rewrite Hr0. eapply more_trans; [exact Hr|]. eapply more_trans; [|apply more_applyShare; apply Hown; reflexivity]. mr.
      - rewrite Hr0. eapply more_trans; [exact Hr|]. eapply more_trans; [|apply more_applyShare; apply Hown; reflexivity]. mr.
    Qed.
    Lemma more_ProcessOneMessage o1 o2 m peer s :
      cache_ok E C H (s_cache s) -> more s (fst (ProcessOneMessage E C o1 o2 m peer s)).
    Proof.
      intros Hc. unfold ProcessOneMessage.
      destruct m as [t [w|]|t [v|]|[[|]|]|[c|]| |]; try (mr; fail).
      - apply more_processTSSMsg, Hc.
      - destruct (s_cache s !! v_key v) as [it|]; [|apply more_processVerMsg, Hc].
        destruct (it_votes it !! peer); [mr|apply more_processVerMsg, Hc].
      - destruct (bool_decide _); [mr|]. cbn zeta. destruct (Z.eqb _ _); [|mr]. destruct (Nat.eqb _ _); mr.
      - destruct (c_msg c) as [w|].
        + destruct (bool_decide _); [|mr]. eapply more_trans; [|apply more_processTSSMsg, Hc]. mr.
        + destruct (e_peer_ok E peer); [|mr]. unfold processRequestMsgFromPeer.
          destruct (s_stored s !! c_key c); mr.
    Qed.
  End H.
  Lemma pending_ProcessOneMessage o1 o2 m peer s :
    let s' := fst (ProcessOneMessage E C o1 o2 m peer s) in
    s_pending s' = s_pending s /\ s_log s' = s_log s /\ s_culprits s' = s_culprits s.
  Proof.
    cbv zeta. assert (Hm : m = MDone (Some true) \/ m <> MDone (Some true)).
    { destruct m as [| |[[|]|]| | |]; auto; right; discriminate. }
    destruct Hm as [->|Hm].
    - cbn. destruct (bool_decide _); [auto|]. cbn zeta. destruct (Z.eqb _ _); [|auto]. destruct (Nat.eqb _ _); auto.
    - destruct (frame_ProcessOneMessage E C o1 o2 m peer s Hm). auto.
  Qed.
  Lemma run_cache tr : cache_ok E C (handled E C tr) (s_cache (run E C tr)).
  Proof. apply i_cache, inv_run. Qed.

  Lemma kept_step tr l : kept (run E C tr) -> kept (step E C (run E C tr) l).
  Proof.
    intros Hk. unfold step. destruct (s_crash (run E C tr)); [exact Hk|].
    set (s := run E C tr) in *.
    destruct l as [o1 o2 peer m| | |k res|k].
    - destruct (s_cur s) eqn:Hcur; [exact Hk|].
      eapply more_kept; [apply (more_ProcessOneMessage _ o1 o2 m peer s (run_cache tr))| |exact Hk].
      apply pending_ProcessOneMessage.
    - destruct Hk as [K1 K2]. destruct (s_cur s) as [[[|b rest] key w]|] eqn:Hcur; try (split; [rewrite Hcur|]; assumption).
      pose proof (K1 _ _ _ eq_refl) as Kw.
      unfold update_one. destruct (bool_decide _); [|split; cbn; [discriminate|assumption]].
      destruct (b_routing b) as [[[| |id] to bc]|]; try (split; cbn; [intros ? ? ?; rewrite Hcur; apply K1|assumption]).
      destruct (cf_parties C !! id); [|split; cbn; [discriminate|assumption]].
      destruct (GetMsgRound _ _ _ _ _) as [r|]; [|split; cbn; [discriminate|assumption]].
      destruct (CheckMsgDuplication r id s); [split; cbn; [intros ? ? ? [= <- <- <-]; exact Kw|assumption]|].
      destruct (existsb _ _); [split; cbn; [discriminate|assumption]|].
      split; cbn; [intros ? ? ? [= <- <- <-]; exact Kw|].
      intros j Hj. apply elem_of_app in Hj as [Hj|Hj]; [apply K2, Hj|].
      apply elem_of_list_singleton in Hj as ->. exact Kw.
    - destruct (s_cur s) as [[[|b rest] key w]|] eqn:Hcur; try exact Hk.
      destruct (batch_done s); [|exact Hk]. destruct Hk as [K1 K2]. unfold update_finish. destruct key; split; cbn; try discriminate; assumption.
    - destruct Hk as [K1 K2]. unfold work. destruct (s_pending s !! k) as [j|] eqn:Hj; [|split; assumption].
      assert (Hd : forall j', j' ∈ delete k (s_pending s) -> keeps (s_stored s) (j_wire j')).
      { intros j' Hj'. apply K2. eapply elem_of_submseteq; [exact Hj'|apply sublist_submseteq, sublist_delete]. }
      destruct (GetMsgRound _ _ _ _ _) as [r|]; [|split; cbn; assumption].
      destruct res as [cs|]; [|split; cbn; assumption].
      unfold processInvalidMsgBlame. destruct (AccPubKeysFromPartyIDs _ _ _); split; cbn; assumption.
    - destruct Hk as [K1 K2]. unfold accept. destruct (s_updated s !! k) as [j|]; [|split; assumption].
      destruct (GetMsgRound _ _ _ _ _); split; cbn; assumption.
  Qed.
  Lemma kept_run tr : kept (run E C tr).
  Proof.
    induction tr as [|l tr IH] using rev_ind; [split; cbn; [discriminate|intros j Hj; inversion Hj]|].
    rewrite run_snoc. apply kept_step, IH.
  Qed.

  (** ** Shares of a culprit *)

  Definition marked (id : string) (s : state) : bool :=
    existsb (fun c => cu_same c && String.eqb (cu_id c) id)%bool (s_culprits s).
  Lemma filter_app_job (f : job -> bool) l1 l2 : List.filter f (l1 ++ l2) = List.filter f l1 ++ List.filter f l2.
  Proof. induction l1 as [|x l1 IH]; cbn; [reflexivity|]. destruct (f x); cbn; rewrite IH; reflexivity. Qed.
  Lemma filter_perm (f : job -> bool) l1 l2 : l1 ≡ₚ l2 -> List.filter f l1 ≡ₚ List.filter f l2.
  Proof.
    induction 1 as [|x l1 l2 _ IH|x y l|l1 l2 l3 _ IH1 _ IH2]; cbn.
    - reflexivity.
    - destruct (f x); [rewrite IH; reflexivity|exact IH].
    - destruct (f x), (f y); try reflexivity. apply Permutation_swap.
    - rewrite IH1. exact IH2.
  Qed.
  Lemma filter_sub (f : job -> bool) l1 l2 : l1 ⊆+ l2 -> List.filter f l1 ⊆+ List.filter f l2.
  Proof.
    intros H. apply submseteq_Permutation in H as (k & Hk). rewrite (filter_perm f _ _ Hk), filter_app_job.
    apply submseteq_inserts_r. reflexivity.
  Qed.

  Lemma marked_step id s l : marked id s = true ->
    marked id (step E C s l) = true /\ shares_of id (step E C s l) ⊆+ shares_of id s.
  Proof.
    intros Hm. unfold step. destruct (s_crash s); [split; [exact Hm|reflexivity]|].
    assert (Same : forall s', s_culprits s' = s_culprits s -> s_log s' = s_log s -> s_pending s' = s_pending s ->
      marked id s' = true /\ shares_of id s' ⊆+ shares_of id s).
    { intros s' H1 H2 H3. unfold marked, shares_of. rewrite H1, H2, H3. split; [exact Hm|reflexivity]. }
    destruct l as [o1 o2 peer m| | |k res|k].
    - destruct (s_cur s); [apply Same; reflexivity|].
      destruct (pending_ProcessOneMessage o1 o2 m peer s) as (H1 & H2 & H3). apply Same; assumption.
    - destruct (s_cur s) as [[[|b rest] key w]|]; try (apply Same; reflexivity).
      unfold update_one. destruct (bool_decide _); [|apply Same; reflexivity].
      destruct (b_routing b) as [[[| |id'] to bc]|]; try (apply Same; reflexivity).
      destruct (cf_parties C !! id'); [|apply Same; reflexivity].
      destruct (GetMsgRound _ _ _ _ _) as [r|]; [|apply Same; reflexivity].
      destruct (CheckMsgDuplication r id' s); [apply Same; reflexivity|].
      destruct (existsb _ (s_culprits s)) eqn:Ex; [apply Same; reflexivity|].
      split; [exact Hm|]. unfold shares_of. cbn. rewrite app_assoc, (filter_app_job _ (s_log s ++ s_pending s)). cbn.
      destruct (String.eqb_spec id' id) as [->|N].
      + unfold marked in Hm. congruence.
      + rewrite app_nil_r. reflexivity.
    - destruct (s_cur s) as [[[|b rest] key w]|]; try (apply Same; reflexivity).
      destruct (batch_done s); [|apply Same; reflexivity]. unfold update_finish. destruct key; apply Same; reflexivity.
    - unfold work. destruct (s_pending s !! k) as [j|] eqn:Hj; [|apply Same; reflexivity].
      assert (Hd : shares_of id (set_pending (fun l => delete k l) s) ⊆+ shares_of id s).
      { unfold shares_of. cbn. apply filter_sub, submseteq_app; [reflexivity|]. apply sublist_submseteq, sublist_delete. }
      assert (Hl : forall s', s_log s' = s_log s ++ [j] -> s_pending s' = delete k (s_pending s) -> shares_of id s' ⊆+ shares_of id s).
      { intros s' H1 H2. unfold shares_of. rewrite H1, H2. apply filter_sub.
        rewrite <- app_assoc. apply submseteq_app; [reflexivity|]. cbn. rewrite <- delete_Permutation by exact Hj. reflexivity. }
      destruct (GetMsgRound _ _ _ _ _) as [r|]; [|split; [exact Hm|exact Hd]].
      destruct res as [cs|]; [|split; [exact Hm|apply Hl; reflexivity]].
      unfold processInvalidMsgBlame. destruct (AccPubKeysFromPartyIDs _ _ _);
        (split; [unfold marked; cbn; rewrite existsb_app; unfold marked in Hm; rewrite Hm; reflexivity|apply Hl; reflexivity]).
    - unfold accept. destruct (s_updated s !! k) as [j|]; [|apply Same; reflexivity].
      destruct (GetMsgRound _ _ _ _ _); apply Same; reflexivity.
  Qed.
  Lemma marked_run id s tr : marked id s = true ->
    marked id (foldl (step E C) s tr) = true /\ shares_of id (foldl (step E C) s tr) ⊆+ shares_of id s.
  Proof.
    revert s. induction tr as [|l tr IH]; intros s Hm; [split; [exact Hm|reflexivity]|]. cbn [foldl].
    destruct (marked_step id s l Hm) as [H1 H2]. destruct (IH _ H1) as [H3 H4]. split; [exact H3|]. rewrite H4. exact H2.
  Qed.
End Culprit.
