(** What the tables used by the timeout blame say about the messages handled. *)
From Coq Require Import ZArith NArith Ascii String List Lia.
From stdpp Require Import base list strings gmap sorting.
From Verif Require Import Base L_Base S_Threshold M_Common S_Common L_Common L_Common2 M_Blame S_Blame.

Section T.
  Context (E : env) (C : cfg).

  Definition unicast_of (w : wire) (id round : string) : Prop :=
    w_round w = round /\ exists to, w_routing w = Some (Routing (FId id) to false).

  (** The broadcasts being applied are in the store. *)
  Definition kept (s : state) (w : wire) : Prop :=
    is_broadcast w -> forall id, sent_by w id -> is_Some (s_stored s !! cache_key id (w_round w)).

  Record eff (m : inmsg) (s s' : state) : Prop := Eff {
    ef_stored : forall k, is_Some (s_stored s !! k) -> is_Some (s_stored s' !! k);
    ef_cur : forall l key w, s_cur s' = Some (Cur l key w) -> kept s' w;
    ef_uni : s_unicast s' = s_unicast s \/
      exists w id p, carries m w /\ unicast_of w id (w_round w) /\ signed_by E C w id /\ cf_id2peer C !! id = Some p /\
        s_unicast s' = <[w_round w := default [] (s_unicast s !! w_round w) ++ [p]]> (s_unicast s)
  }.

  Lemma eff_same m s s' : s_stored s' = s_stored s -> s_cur s' = None -> s_unicast s' = s_unicast s -> eff m s s'.
  Proof. intros H1 H2 H3. constructor; [rewrite H1; auto|rewrite H2; discriminate|left; exact H3]. Qed.

  Lemma requestShare_same ord votes th key t s :
    s_stored (fst (requestShareFromPeer E ord votes th key t s)) = s_stored s /\
    s_cur (fst (requestShareFromPeer E ord votes th key t s)) = s_cur s /\
    s_unicast (fst (requestShareFromPeer E ord votes th key t s)) = s_unicast s.
  Proof.
    unfold requestShareFromPeer. destruct (getMsgHash ord votes th); [|auto].
    destruct (forallb _ _); [|auto]. destruct t; auto.
  Qed.

  Lemma eff_applyShare m o1 o2 it w owner to key t s :
    w_routing w = Some (Routing (FId owner) to true) -> key = cache_key owner (w_round w) -> s_cur s = None ->
    eff m s (fst (applyShare E C o1 o2 it w owner true key t s)).
  Proof.
    intros Hw -> Hcur. unfold applyShare. destruct (hashCheck C o1 it owner (cf_threshold C)) as [r it1].
    destruct r; try solve [destruct (TssWrongShareBlame E C owner); apply eff_same; auto].
    - unfold updateLocal. rewrite Hw.
      assert (Hst : forall k v, is_Some (s_stored s !! k) -> is_Some (<[cache_key owner (w_round w) := v]> (s_stored s) !! k)).
      { intros k v [x Hx]. destruct (decide (k = cache_key owner (w_round w))) as [-> | Hne].
        - rewrite lookup_insert. eauto.
        - rewrite lookup_insert_ne by congruence. eauto. }
      destruct (cf_parties C !! owner) as [kb|].
      2: { constructor; [intros k; apply Hst|cbn; rewrite Hcur; discriminate|left; reflexivity]. }
      destruct (cf_id2peer C !! owner) as [op|].
      2: { constructor; [intros k; apply Hst|cbn; rewrite Hcur; discriminate|left; reflexivity]. }
      destruct (e_dec_bulk E (w_body w)) as [l|].
      2: { constructor; [intros k; apply Hst|cbn; rewrite Hcur; discriminate|left; reflexivity]. }
      constructor; [intros k; apply Hst| |left; reflexivity].
      intros l' key' w' Hc. cbn in Hc. injection Hc as _ _ <-. intros _ id (to' & bc' & Hs). rewrite Hw in Hs.
      injection Hs as <- _ _. cbn. rewrite lookup_insert. eauto.
    - destruct (requestShare_same o2 (it_votes it1) (cf_threshold C) (cache_key owner (w_round w)) t
        (set_cache <[cache_key owner (w_round w):=Item None (it_hash it1) (it_votes it1)]>
           (set_cache <[cache_key owner (w_round w):=it1]> s))) as (H1 & H2 & H3).
      apply eff_same; [rewrite H1; reflexivity|rewrite H2; exact Hcur|rewrite H3; reflexivity].
  Qed.

  Lemma eff_trans_base m s s1 s' :
    s_stored s1 = s_stored s -> s_unicast s1 = s_unicast s -> eff m s1 s' -> eff m s s'.
  Proof. intros H1 H2 [Ha Hb Hc]. constructor; [rewrite <- H1; exact Ha|exact Hb|rewrite <- H2; exact Hc]. Qed.

  Lemma bwire_routing H k w id :
    bwire E C H k w id -> exists to, w_routing w = Some (Routing (FId id) to true) /\ k = cache_key id (w_round w).
  Proof.
    intros ((_ & (to & bc & Hs) & _) & (f & to' & Hb) & (_ & Hk)). rewrite Hs in Hb. injection Hb as <- -> ->.
    exists to'. split; [exact Hs|exact Hk].
  Qed.

  Lemma eff_processTSSMsg H m o1 o2 w t fwd s :
    inv E C H s -> s_cur s = None -> carries m w -> eff m s (fst (processTSSMsg E C o1 o2 w t fwd s)).
  Proof.
    intros Hinv Hcur Hcar. unfold processTSSMsg.
    destruct (w_routing w) as [[[| |owner] to bc]|] eqn:Hw; try solve [apply eff_same; auto].
    destruct (cf_parties C !! owner) as [kb|] eqn:Hkb; [|apply eff_same; auto].
    destruct (verifySignature E C kb (w_body w) (w_sig w)) eqn:Hver; [|apply eff_same; auto].
    destruct bc.
    - set (s1 := if fwd then s else receiverBroadcastHashToPeers E C w owner t s).
      assert (Hs1 : s_stored s1 = s_stored s /\ s_cur s1 = s_cur s /\ s_unicast s1 = s_unicast s /\ s_cache s1 = s_cache s).
      { unfold s1. destruct fwd; [auto|]. unfold receiverBroadcastHashToPeers.
        destruct (cf_id2peer C !! owner); [|auto]. destruct (filter _ _); auto. }
      destruct Hs1 as (H1 & H2 & H3 & H4). cbn zeta. cbn [it_msg]. rewrite H4.
      set (it0 := match s_cache s !! cache_key owner (w_round w) with
        | None => Item (Some w) (e_sha E (w_body w)) ∅
        | Some it => match it_msg it with None => Item (Some w) (e_sha E (w_body w)) (it_votes it) | Some _ => it end
        end).
      assert (Hit : exists w' id to', it_msg it0 = Some w' /\ w_routing w' = Some (Routing (FId id) to' true) /\
                 cache_key owner (w_round w) = cache_key id (w_round w')).
      { unfold it0. destruct (s_cache s !! cache_key owner (w_round w)) as [it|] eqn:Hc.
        - destruct (it_msg it) as [w'|] eqn:Hm.
          + destruct (i_cache _ _ _ _ Hinv _ _ Hc) as [_ Hb]. destruct (Hb w' Hm) as (id & Hbw & _).
            apply bwire_routing in Hbw as (to' & Hr & Hk). exists w', id, to'. auto.
          + exists w, owner, to. cbn. auto.
        - exists w, owner, to. cbn. auto. }
      destruct Hit as (w' & id & to' & Hm & Hr & Hk). rewrite Hm, Hr.
      eapply eff_trans_base; [| |eapply eff_applyShare; [exact Hr|exact Hk|]].
      + cbn. exact H1.
      + cbn. exact H3.
      + cbn. rewrite H2. exact Hcur.
    - unfold updateLocal. rewrite Hw, Hkb. destruct (cf_id2peer C !! owner) as [op|] eqn:Hop; [|apply eff_same; auto].
      assert (Hu : unicast_of w owner (w_round w)) by (split; [reflexivity|eauto]).
      assert (Hsg : signed_by E C w owner) by (exists kb; auto).
      destruct (e_dec_bulk E (w_body w)) as [l|].
      + constructor; [auto| |right; exists w, owner, op; auto].
        intros l' key' w' Hc. cbn in Hc. injection Hc as _ _ <-. intros (f & to' & Hb). congruence.
      + constructor; [auto|cbn; rewrite Hcur; discriminate|right; exists w, owner, op; auto].
  Qed.

  Lemma eff_processVerMsg H m o1 o2 peer v t s :
    inv E C H s -> s_cur s = None -> eff m s (fst (processVerMsg E C o1 o2 peer v t s)).
  Proof.
    intros Hinv Hcur. unfold processVerMsg. cbn zeta. cbn [it_msg].
    set (it0 := match s_cache s !! v_key v with Some it => it | None => Item None (v_hash v) ∅ end).
    destruct (it_msg it0) as [w|] eqn:Hm.
    - assert (Hbw : exists id to, w_routing w = Some (Routing (FId id) to true) /\ v_key v = cache_key id (w_round w)).
      { unfold it0 in Hm. destruct (s_cache s !! v_key v) as [it|] eqn:Hc; [|discriminate].
        destruct (i_cache _ _ _ _ Hinv _ _ Hc) as [_ Hb]. destruct (Hb w Hm) as (id & Hbw & _).
        apply bwire_routing in Hbw as (to & Hr & Hk). eauto. }
      destruct Hbw as (id & to & Hr & Hk). rewrite Hr.
      eapply eff_trans_base; [| |eapply eff_applyShare; [exact Hr|exact Hk|]]; [reflexivity|reflexivity|exact Hcur].
    - match goal with |- eff _ _ (fst (requestShareFromPeer E ?a ?b ?c ?d ?e ?f)) =>
        destruct (requestShare_same a b c d e f) as (H1 & H2 & H3) end.
      apply eff_same; [rewrite H1; reflexivity|rewrite H2; exact Hcur|rewrite H3; reflexivity].
  Qed.

  Lemma eff_ProcessOneMessage H m o1 o2 peer s :
    inv E C H s -> s_cur s = None -> eff m s (fst (ProcessOneMessage E C o1 o2 m peer s)).
  Proof.
    intros Hinv Hcur. unfold ProcessOneMessage.
    destruct m as [t [w|]|t [v|]|[[|]|]|[c|]| |]; try solve [apply eff_same; auto].
    - eapply eff_processTSSMsg; [exact Hinv|exact Hcur|]. left. eauto.
    - destruct (s_cache s !! v_key v) as [it|]; [|eapply eff_processVerMsg; eassumption].
      destruct (it_votes it !! peer); [apply eff_same; auto|eapply eff_processVerMsg; eassumption].
    - destruct (bool_decide _); [apply eff_same; auto|]. destruct (Z.eqb _ _); [|apply eff_same; auto].
      destruct (Nat.eqb _ _); apply eff_same; auto.
    - destruct (c_msg c) as [w|] eqn:Hc.
      + destruct (bool_decide _); [|apply eff_same; auto].
        eapply eff_trans_base; [| |eapply eff_processTSSMsg]; [reflexivity|reflexivity| |exact Hcur|].
        * apply inv_set_requested. exact Hinv.
        * right. eauto.
      + destruct (e_peer_ok E peer); [|apply eff_same; auto]. unfold processRequestMsgFromPeer.
        destruct (s_stored s !! c_key c); apply eff_same; auto.
  Qed.

  (** ** Along a run *)
  Record kinv (H : string -> inmsg -> Prop) (s : state) : Prop := KInv {
    k_cur : forall l key w, s_cur s = Some (Cur l key w) -> kept s w;
    k_jobs : forall j, j ∈ s_pending s ++ s_updated s ++ s_log s -> kept s (j_wire j);
    k_uni : forall round l p, s_unicast s !! round = Some l -> p ∈ l ->
      exists q m w id, H q m /\ carries m w /\ unicast_of w id round /\ signed_by E C w id /\ cf_id2peer C !! id = Some p
  }.

  Lemma kept_mono s s' w : (forall k, is_Some (s_stored s !! k) -> is_Some (s_stored s' !! k)) -> kept s w -> kept s' w.
  Proof. intros Hm Hk Hb id Hs. apply Hm. auto. Qed.

  Lemma update_one_same b rest key w s :
    s_stored (fst (update_one E C b rest key w s)) = s_stored s /\
    s_unicast (fst (update_one E C b rest key w s)) = s_unicast s /\
    s_log (fst (update_one E C b rest key w s)) = s_log s /\
    (forall l k' w', s_cur (fst (update_one E C b rest key w s)) = Some (Cur l k' w') -> w' = w \/ s_cur s = Some (Cur l k' w')) /\
    (forall j, j ∈ s_pending (fst (update_one E C b rest key w s)) -> j ∈ s_pending s \/ j_wire j = w).
  Proof.
    unfold update_one. destruct (bool_decide _); [|cbn; split_and!; auto; discriminate].
    destruct (b_routing b) as [[[| |id] to bc]|]; try (cbn; split_and!; auto; discriminate).
    destruct (cf_parties C !! id) as [kb|]; [|cbn; split_and!; auto; discriminate].
    destruct (GetMsgRound _ _ _ _ _) as [r|]; [|cbn; split_and!; auto; discriminate].
    destruct (CheckMsgDuplication r id s).
    { cbn. split_and!; auto. intros l k' w' Heq. injection Heq as _ _ <-. auto. }
    destruct (existsb _ _); [cbn; split_and!; auto; discriminate|].
    cbn. split_and!; auto.
    - intros l k' w' Heq. injection Heq as _ _ <-. auto.
    - intros j Hj. apply elem_of_app in Hj as [Hj|Hj]; [auto|]. apply elem_of_list_singleton in Hj as ->. auto.
  Qed.

  Lemma work_same k res s :
    s_stored (work E C k res s) = s_stored s /\ s_unicast (work E C k res s) = s_unicast s /\
    s_cur (work E C k res s) = s_cur s /\
    (forall j, j ∈ s_pending (work E C k res s) ++ s_updated (work E C k res s) ++ s_log (work E C k res s) ->
       j ∈ s_pending s ++ s_updated s ++ s_log s).
  Proof.
    unfold work. destruct (s_pending s !! k) as [j|] eqn:Hj; [|auto].
    assert (Hdel : forall x, x ∈ delete k (s_pending s) -> x ∈ s_pending s).
    { intros x Hx. apply elem_of_list_lookup in Hx as [i Hi]. destruct (decide (i < k)).
      - rewrite list.lookup_delete_lt in Hi by lia. eapply elem_of_list_lookup_2. exact Hi.
      - rewrite list.lookup_delete_ge in Hi by lia. eapply elem_of_list_lookup_2. exact Hi. }
    assert (Hjin : j ∈ s_pending s) by (eapply elem_of_list_lookup_2; exact Hj).
    destruct (GetMsgRound _ _ _ _ _) as [r|].
    2: { cbn. split_and!; auto. intros x. rewrite !elem_of_app. naive_solver. }
    destruct res as [cs|].
    - unfold processInvalidMsgBlame. destruct (AccPubKeysFromPartyIDs _ _ _); cbn; (split_and!; auto);
        intros x; rewrite !elem_of_app, elem_of_list_singleton; naive_solver.
    - cbn. split_and!; auto. intros x. rewrite !elem_of_app, elem_of_list_singleton. naive_solver.
  Qed.

  Lemma accept_same k s :
    s_stored (accept E k s) = s_stored s /\ s_unicast (accept E k s) = s_unicast s /\ s_cur (accept E k s) = s_cur s /\
    (forall j, j ∈ s_pending (accept E k s) ++ s_updated (accept E k s) ++ s_log (accept E k s) ->
       j ∈ s_pending s ++ s_updated s ++ s_log s).
  Proof.
    unfold accept. destruct (s_updated s !! k) as [j|] eqn:Hj; [|auto].
    assert (Hdel : forall x, x ∈ delete k (s_updated s) -> x ∈ s_updated s).
    { intros x Hx. apply elem_of_list_lookup in Hx as [i Hi]. destruct (decide (i < k)).
      - rewrite list.lookup_delete_lt in Hi by lia. eapply elem_of_list_lookup_2. exact Hi.
      - rewrite list.lookup_delete_ge in Hi by lia. eapply elem_of_list_lookup_2. exact Hi. }
    destruct (GetMsgRound _ _ _ _ _); cbn; (split_and!; auto); intros x; rewrite !elem_of_app; naive_solver.
  Qed.

  Lemma kinv_run tr : kinv (handled E C tr) (run E C tr).
  Proof.
    induction tr as [|l tr IH] using rev_ind.
    { constructor; cbn; [discriminate| |].
      - intros j Hj. inversion Hj.
      - intros round l p Hl. discriminate (eq_trans (eq_sym (lookup_empty (M := gmap string) (A := list string) round)) Hl). }
    rewrite run_snoc. pose proof (inv_run E C tr) as Hinv. set (s := run E C tr) in *. destruct IH as [Hc Hj Hu].
    assert (Hmono : forall q m, handled E C tr q m -> handled E C (tr ++ [l]) q m) by (intros q m; apply handled_snoc).
    assert (Hu' : forall round l0 p, s_unicast s !! round = Some l0 -> p ∈ l0 ->
      exists q m w id, handled E C (tr ++ [l]) q m /\ carries m w /\ unicast_of w id round /\ signed_by E C w id /\ cf_id2peer C !! id = Some p).
    { intros round l0 p Hl Hp. destruct (Hu round l0 p Hl Hp) as (q & m & w & id & H1 & H2). exists q, m, w, id. auto. }
    assert (Hsame : forall s', s_stored s' = s_stored s -> s_unicast s' = s_unicast s ->
      (forall l0 k' w', s_cur s' = Some (Cur l0 k' w') -> kept s w') ->
      (forall j, j ∈ s_pending s' ++ s_updated s' ++ s_log s' -> kept s (j_wire j)) -> kinv (handled E C (tr ++ [l])) s').
    { intros s' H1 H2 H3 H4. constructor.
      - intros l0 k' w' H5. eapply kept_mono; [|eapply H3; exact H5]. rewrite H1. auto.
      - intros j H5. eapply kept_mono; [|apply H4; exact H5]. rewrite H1. auto.
      - rewrite H2. exact Hu'. }
    unfold step. destruct (s_crash s) eqn:Hcr; [apply Hsame; auto; exact Hc|].
    destruct l as [o1 o2 peer m| | |k res|k].
    - destruct (s_cur s) as [cu|] eqn:Hcur; [apply Hsame; auto; intros l0 k' w' H5; eapply Hc; rewrite <- Hcur; exact H5|].
      pose proof (eff_ProcessOneMessage _ m o1 o2 peer s Hinv Hcur) as [Hes Hec Heu].
      assert (Hfr : s_pending (fst (ProcessOneMessage E C o1 o2 m peer s)) ++ s_updated (fst (ProcessOneMessage E C o1 o2 m peer s)) ++ s_log (fst (ProcessOneMessage E C o1 o2 m peer s)) = s_pending s ++ s_updated s ++ s_log s).
      { assert (Hcase : m <> MDone (Some true) \/ m = MDone (Some true)).
        { destruct m as [? ?|? ?|[[|]|]|?| |]; try (left; discriminate). right. reflexivity. }
        destruct Hcase as [Hne| ->].
        - destruct (frame_ProcessOneMessage E C o1 o2 m peer s Hne). congruence.
        - cbn. destruct (bool_decide _); [reflexivity|]. destruct (Z.eqb _ _); [|reflexivity]. destruct (Nat.eqb _ _); reflexivity. }
      constructor.
      + exact Hec.
      + rewrite Hfr. intros j Hin. eapply kept_mono; [exact Hes|]. apply Hj. exact Hin.
      + destruct Heu as [-> | (w & id & p & Hcar & Huo & Hsg & Hp & ->)]; [exact Hu'|].
        intros round l0 p0 Hl Hp0. destruct (decide (round = w_round w)) as [-> | Hne].
        * rewrite lookup_insert in Hl. injection Hl as <-. apply elem_of_app in Hp0 as [Hp0|Hp0].
          -- destruct (s_unicast s !! w_round w) as [l1|] eqn:Hl1; [|inversion Hp0]. eapply Hu'; [exact Hl1|exact Hp0].
          -- apply elem_of_list_singleton in Hp0 as ->. exists peer, m, w, id. split; [|auto].
             exists tr, o1, o2, []. auto.
        * rewrite lookup_insert_ne in Hl by congruence. eapply Hu'; eassumption.
    - destruct (s_cur s) as [[[|b rest] key w]|] eqn:Hcur;
        try (apply Hsame; auto; intros l0 k' w' H5; eapply Hc; rewrite <- Hcur; exact H5).
      destruct (update_one_same b rest key w s) as (H1 & H2 & H3 & H4 & H5).
      destruct (update_one_frame E C b rest key w s) as (_ & _ & _ & _ & H6 & _).
      apply Hsame; [exact H1|exact H2| |].
      + intros l0 k' w' H7. destruct (H4 _ _ _ H7) as [-> | H8]; [|rewrite Hcur in H8; injection H8 as _ _ <-]; eapply Hc; reflexivity.
      + intros j. rewrite H6, H3, elem_of_app. intros [Hin|Hin].
        * destruct (H5 j Hin) as [Hin'| ->]; [apply Hj, elem_of_app; auto|eapply Hc; reflexivity].
        * apply Hj, elem_of_app. auto.
    - destruct (s_cur s) as [[[|b rest] key w]|] eqn:Hcur;
        try (apply Hsame; auto; intros l0 k' w' H5; eapply Hc; rewrite <- Hcur; exact H5).
      destruct (batch_done s); [|apply Hsame; auto; intros l0 k' w' H5; eapply Hc; rewrite <- Hcur; exact H5].
      unfold update_finish. destruct key; apply Hsame; auto; discriminate.
    - destruct (work_same k res s) as (H1 & H2 & H3 & H4).
      apply Hsame; [exact H1|exact H2|rewrite H3; exact Hc|]. intros j Hin. apply Hj, H4, Hin.
    - destruct (accept_same k s) as (H1 & H2 & H3 & H4).
      apply Hsame; [exact H1|exact H2|rewrite H3; exact Hc|]. intros j Hin. apply Hj, H4, Hin.
  Qed.

  (** Unicasts are recorded. *)
  Lemma unicast_mono l s round :
    forall p, (exists l0, s_unicast s !! round = Some l0 /\ p ∈ l0) ->
      forall m, s_unicast l = s_unicast s \/
       (exists w id q, carries m w /\ unicast_of w id (w_round w) /\ signed_by E C w id /\ cf_id2peer C !! id = Some q /\
        s_unicast l = <[w_round w := default [] (s_unicast s !! w_round w) ++ [q]]> (s_unicast s)) ->
      exists l0, s_unicast l !! round = Some l0 /\ p ∈ l0.
  Proof.
    intros p (l0 & Hl & Hp) m [-> | (w & id & q & _ & _ & _ & _ & ->)]; [eauto|].
    destruct (decide (round = w_round w)) as [-> | Hne].
    - rewrite lookup_insert, Hl. cbn. eexists. split; [reflexivity|]. apply elem_of_app. auto.
    - rewrite lookup_insert_ne by congruence. eauto.
  Qed.
  Lemma unicast_recorded tr q t w id p round :
    handled E C tr q (MShare t (Some w)) -> unicast_of w id round -> signed_by E C w id -> cf_id2peer C !! id = Some p ->
    exists l, s_unicast (run E C tr) !! round = Some l /\ p ∈ l.
  Proof.
    intros (tr1 & o1 & o2 & tr2 & -> & Hcur & Hcr) [<- (to & Hw)] (kb & Hkb & Hver) Hp.
    induction tr2 as [|l tr2 IH] using rev_ind.
    - rewrite run_snoc. unfold step. rewrite Hcr, Hcur. cbn [ProcessOneMessage].
      unfold processTSSMsg. rewrite Hw, Hkb. unfold verifySignature. rewrite Hver. unfold updateLocal. rewrite Hw, Hkb, Hp.
      destruct (e_dec_bulk E (w_body w)); cbn; (eexists; split; [apply lookup_insert|]); apply elem_of_app; right; left.
    - rewrite app_comm_cons, app_assoc, run_snoc. set (s := run E C (tr1 ++ LRecv o1 o2 q (MShare t (Some w)) :: tr2)) in *.
      assert (Heff : exists m, s_unicast (step E C s l) = s_unicast s \/
       (exists w id q, carries m w /\ unicast_of w id (w_round w) /\ signed_by E C w id /\ cf_id2peer C !! id = Some q /\
        s_unicast (step E C s l) = <[w_round w := default [] (s_unicast s !! w_round w) ++ [q]]> (s_unicast s))).
      { unfold step. destruct (s_crash s); [exists MNil; auto|]. destruct l as [o1' o2' peer m| | |k res|k].
        - destruct (s_cur s) eqn:Hcs; [exists MNil; auto|]. exists m.
          apply (ef_uni _ _ _ (eff_ProcessOneMessage _ m o1' o2' peer s (inv_run E C _) Hcs)).
        - exists MNil. left. destruct (s_cur s) as [[[|b rest] key w0]|]; auto. apply update_one_same.
        - exists MNil. left. destruct (s_cur s) as [[[|b rest] key w0]|]; auto. destruct (batch_done s); auto. destruct key; reflexivity.
        - exists MNil. left. apply work_same.
        - exists MNil. left. apply accept_same. }
      destruct Heff as [m Hm]. eapply unicast_mono; [exact IH|exact Hm].
  Qed.

  (** Accepted shares are of a known round. *)
  Lemma accepted_index tr i nm m l :
    s_accepted (run E C tr) !! (i, nm, m) = Some l -> exists c, content_round c = Some (i, nm).
  Proof.
    revert i nm m l. induction tr as [|lb tr IH] using rev_ind; intros i nm m l Hl.
    { discriminate (eq_trans (eq_sym (lookup_empty (M := gmap roundinfo) (A := list string) (i, nm, m))) Hl). }
    rewrite run_snoc in Hl. set (s := run E C tr) in *.
    assert (Hsame : s_accepted (step E C s lb) = s_accepted s -> exists c, content_round c = Some (i, nm)).
    { intros Heq. rewrite Heq in Hl. eapply IH. exact Hl. }
    unfold step in *. destruct (s_crash s); [auto|]. destruct lb as [o1 o2 peer x| | |k res|k].
    - destruct (s_cur s); [auto|]. apply Hsame.
      assert (Hcase : x <> MDone (Some true) \/ x = MDone (Some true)).
      { destruct x as [? ?|? ?|[[|]|]|?| |]; try (left; discriminate). right. reflexivity. }
      destruct Hcase as [Hne| ->]; [apply (frame_ProcessOneMessage E C o1 o2 x peer s Hne)|].
      cbn. destruct (bool_decide _); [reflexivity|]. destruct (Z.eqb _ _); [|reflexivity]. destruct (Nat.eqb _ _); reflexivity.
    - destruct (s_cur s) as [[[|b rest] key w]|]; auto. apply Hsame. apply update_one_frame.
    - destruct (s_cur s) as [[[|b rest] key w]|]; auto. destruct (batch_done s); auto. apply Hsame. destruct key; reflexivity.
    - apply Hsame. apply work_frame.
    - unfold accept in *. destruct (s_updated s !! k) as [j|]; [|auto].
      destruct (GetMsgRound E (j_body j) (j_from j) (j_bcast j) (j_ident j)) as [r|] eqn:Hr; [|auto].
      cbn in Hl. destruct (decide ((i, nm, m) = r)) as [<-|Hne].
      + unfold GetMsgRound in Hr. destruct (e_parse E _ _ _) as [c|]; [|discriminate].
        destruct (content_round c) as [[i' n']|] eqn:Hc; [|discriminate]. injection Hr as -> -> _. eauto.
      + rewrite lookup_insert_ne in Hl by congruence. eapply IH. exact Hl.
  Qed.
End T.

(** ** How many a timeout blames *)
Lemma add_nodes_length ns b : length (bl_nodes (AddBlameNodes ns b)) <= length (bl_nodes b) + length ns.
Proof.
  cbn [AddBlameNodes bl_nodes]. generalize (bl_nodes b). induction ns as [|n ns IH]; intros l; cbn; [lia|].
  etransitivity; [apply IH|]. unfold add_node. destruct (existsb _ _); [lia|]. rewrite app_length. cbn. lia.
Qed.

Lemma timeout_bounded E C local ar br rounds o s s' :
  bl_nodes (s_blame s) = [] ->
  (forall o1 o2, GetBroadcastBlame E C local o1 o2 br s = BOk []) ->
  timeout_blame E C local ar br rounds o s = Some s' ->
  length (bl_nodes (s_blame s')) <= peers_threshold C.
Proof.
  intros H0 Hb. unfold timeout_blame.
  destruct (nodes_of id (GetUnicastBlame _ _ _ _ _ _ _ _)) as [u|] eqn:Hu; [|discriminate].
  destruct (Nat.ltb 0 (length u) && Nat.leb (length u) (peers_threshold C)) eqn:Hcap.
  - change (GetBroadcastBlame E C local (to_b o) (to_b2 o) br (set_blame ?f s))
      with (GetBroadcastBlame E C local (to_b o) (to_b2 o) br s).
    match goal with |- context [GetBroadcastBlame E C local (to_b o) (to_b2 o) br ?x] =>
      change (GetBroadcastBlame E C local (to_b o) (to_b2 o) br x)
        with (GetBroadcastBlame E C local (to_b o) (to_b2 o) br s) end.
    rewrite Hb. cbn [nodes_of id]. cbn. rewrite H0. cbn.
    apply andb_prop in Hcap as [Hpos Hle]. apply Nat.leb_le in Hle. apply Nat.ltb_lt in Hpos.
    destruct u as [|x u]; [cbn in Hpos; lia|]. intros [= <-]. cbn. rewrite H0. cbn. exact Hle.
  - rewrite Hb. cbn [nodes_of id]. cbn [s_blame set_blame AddBlameNodes bl_nodes fold_left]. rewrite H0.
    destruct (TssMissingShareBlame _ _ _ _ _ _ _ _) as [[m un]|e|] eqn:Hm; [| |discriminate].
    + destruct (Nat.ltb 0 (length m) && Nat.leb (length m) (peers_threshold C)) eqn:Hc; intros [= <-].
      * apply andb_prop in Hc as [_ Hle]. apply Nat.leb_le in Hle.
        etransitivity; [|exact Hle]. etransitivity; [apply (add_nodes_length m)|]. cbn. rewrite H0. cbn. lia.
      * cbn. rewrite H0. cbn. lia.
    + intros [= <-]. cbn. rewrite H0. cbn. lia.
Qed.
