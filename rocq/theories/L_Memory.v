(** Lemmas for C161: keys without a dash stay in the cache of unconfirmed messages. *)
From Coq Require Import ZArith Ascii String List Lia.
From stdpp Require Import base list strings gmap.
From Verif Require Import Base L_Base M_Common S_Common L_Common L_Common2 L_Common3 L_Common4.

Section Memory.
  Variable E : env.
  Variable C : cfg.

  Definition dashed (k : string) : Prop := exists id r, k = cache_key id r.
  Definition cur_dashed (s : state) : Prop :=
    forall rest k w, s_cur s = Some (Cur rest (Some k) w) -> dashed k.
  Lemma dashed_no_dash k : dashed k -> ~ no_dash k.
  Proof.
    intros (id & r & ->) N. apply N. unfold cache_key. rewrite !to_bytes_app.
    apply elem_of_app. right. apply elem_of_app. left. left.
  Qed.

  (** What a handler does to the message being applied *)
  Definition cur_by (k : option string) (s s' : state) : Prop :=
    s_cur s' = s_cur s \/ exists l w, s_cur s' = Some (Cur l k w).
  Lemma cur_updateLocal w key s : cur_by key s (fst (updateLocal E C w key s)).
  Proof.
    unfold updateLocal. destruct (w_routing w) as [[[| |id] to bc]|]; try (left; reflexivity).
    destruct (cf_parties C !! id) as [kb|]; [|left; reflexivity].
    destruct (cf_id2peer C !! id); [|left; reflexivity].
    destruct (e_dec_bulk E (w_body w)) as [l|]; [right; exists l, w; reflexivity|].
    left. destruct bc; reflexivity.
  Qed.
  Lemma cur_applyShare o1 o2 it w owner bc key t s :
    cur_by (Some key) s (fst (applyShare E C o1 o2 it w owner bc key t s)).
  Proof.
    unfold applyShare. destruct (hashCheck C o1 it owner (cf_threshold C)) as [r it1].
    destruct r; try (destruct (TssWrongShareBlame E C owner); left; reflexivity); try (left; reflexivity).
    - match goal with |- cur_by _ _ (fst (updateLocal E C w ?k ?s')) => destruct (cur_updateLocal w k s') as [X|X] end;
        [left; exact X|right; exact X].
    - match goal with |- cur_by _ _ (fst (requestShareFromPeer E ?a ?b ?c ?d ?e ?f)) =>
        left; exact (proj2 (requestShare_mid E a b c d e f)) end.
  Qed.

  (** A key that is in the cache stays, unless updateLocal has just finished with it. *)
  Lemma dom_applyShare o1 o2 it w owner bc key t s k :
    is_Some (s_cache s !! k) \/ k = key -> is_Some (s_cache (fst (applyShare E C o1 o2 it w owner bc key t s)) !! k).
  Proof.
    intros D. destruct (decide (k = key)) as [->|N].
    - unfold applyShare. destruct (hashCheck C o1 it owner (cf_threshold C)) as [r it1].
      destruct r; try (destruct (TssWrongShareBlame E C owner); cbn; rewrite lookup_insert; eauto).
      + rewrite cache_updateLocal. cbn. rewrite lookup_insert; eauto.
      + rewrite cache_requestShare. cbn. rewrite lookup_insert; eauto.
    - rewrite applyShare_other by exact N. destruct D as [D|D]; [exact D|contradiction].
  Qed.

  Lemma insert_some (m : gmap string item) k k' it : is_Some (m !! k) -> is_Some (<[k' := it]> m !! k).
  Proof. intros X. rewrite lookup_insert_is_Some'. right. exact X. Qed.

  Lemma mem_processVerMsg H o1 o2 peer v t s :
    inv E C H s -> s_cur s = None ->
    cur_dashed (fst (processVerMsg E C o1 o2 peer v t s)) /\
    (forall k, is_Some (s_cache s !! k) \/ k = v_key v ->
       is_Some (s_cache (fst (processVerMsg E C o1 o2 peer v t s)) !! k)).
  Proof.
    intros I Hc. unfold processVerMsg. cbn zeta. cbn [it_msg it_votes].
    set (it0 := match s_cache s !! v_key v with Some it => it | None => _ end).
    assert (D1 : forall it k, is_Some (s_cache s !! k) \/ k = v_key v -> is_Some (<[v_key v := it]> (s_cache s) !! k)).
    { intros it k [X| ->]; [apply insert_some, X|rewrite lookup_insert; eauto]. }
    destruct (it_msg it0) as [w|] eqn:M.
    - assert (DK : dashed (v_key v)).
      { unfold it0 in M. destruct (s_cache s !! v_key v) as [it|] eqn:L; [|discriminate M].
        destruct (proj2 (i_cache _ _ _ _ I _ _ L) w M) as (id & (_ & _ & [_ ->]) & _). exists id, (w_round w). reflexivity. }
      destruct (w_routing w) as [[[| |owner] to bc]|]; try (split; [intros r k x X; cbn in X; congruence|cbn; auto]).
      split.
      + intros r k x X.
        match type of X with s_cur (fst (applyShare E C ?a ?b ?c ?d ?e ?f ?g ?h ?i)) = _ =>
          destruct (cur_applyShare a b c d e f g h i) as [Y|(l & w' & Y)] end; rewrite Y in X.
        * cbn in X. congruence.
        * injection X as _ <- _. exact DK.
      + intros k X. apply dom_applyShare. left. cbn. auto.
    - split.
      + intros r k x X. rewrite (proj2 (requestShare_mid E _ _ _ _ _ _)) in X. cbn in X. congruence.
      + intros k X. rewrite cache_requestShare. cbn. auto.
  Qed.

  Lemma cur_receiver w owner t s :
    s_cur (receiverBroadcastHashToPeers E C w owner t s) = s_cur s /\
    s_cache (receiverBroadcastHashToPeers E C w owner t s) = s_cache s.
  Proof.
    unfold receiverBroadcastHashToPeers. destruct (cf_id2peer C !! owner); [|auto].
    destruct (filter _ _); auto.
  Qed.
  Lemma mem_processTSSMsg H o1 o2 w t fwd s :
    inv E C H s -> s_cur s = None ->
    cur_dashed (fst (processTSSMsg E C o1 o2 w t fwd s)) /\
    (forall k, is_Some (s_cache s !! k) -> is_Some (s_cache (fst (processTSSMsg E C o1 o2 w t fwd s)) !! k)).
  Proof.
    intros I Hc.
    assert (Hself : forall s', s_cur s' = None -> s_cache s' = s_cache s ->
              cur_dashed s' /\ (forall k, is_Some (s_cache s !! k) -> is_Some (s_cache s' !! k))).
    { intros s' X1 X2. split; [intros r k x X; congruence|rewrite X2; auto]. }
    unfold processTSSMsg.
    destruct (w_routing w) as [[[| |owner] to bc]|] eqn:Hr; try (apply Hself; [exact Hc|reflexivity]).
    destruct (cf_parties C !! owner) as [kb|]; [|apply Hself; [exact Hc|reflexivity]].
    destruct (verifySignature E C kb (w_body w) (w_sig w)); [|apply Hself; [exact Hc|reflexivity]].
    destruct bc.
    - cbn zeta. cbn [it_msg it_votes].
      set (s1 := if fwd then s else receiverBroadcastHashToPeers E C w owner t s).
      assert (Hs1 : s_cur s1 = None /\ s_cache s1 = s_cache s).
      { unfold s1. destruct fwd; [auto|]. destruct (cur_receiver w owner t s) as [-> ->]. auto. }
      destruct Hs1 as [C1 K1]. rewrite K1.
      match goal with |- context [it_msg ?x] => set (it0 := x) end.
      destruct (it_msg it0) as [w'|].
      + destruct (w_routing w') as [[[| |owner'] to' bc']|].
        3:{ split.
            - intros r k x X.
              match type of X with s_cur (fst (applyShare E C ?a ?b ?c ?d ?e ?f ?g ?h ?i)) = _ =>
                destruct (cur_applyShare a b c d e f g h i) as [Y|(l & w'' & Y)] end; rewrite Y in X.
              + cbn in X. congruence.
              + injection X as _ <- _. exists owner, (w_round w). reflexivity.
            - intros k X. apply dom_applyShare. left. cbn. rewrite K1. apply insert_some, X. }
        all: split; [intros r k x X; cbn in X; congruence|cbn; rewrite K1; intros k X; apply insert_some, X].
      + split; [intros r k x X; cbn in X; congruence|cbn; rewrite K1; intros k X; apply insert_some, X].
    - split.
      + intros r k x X. destruct (cur_updateLocal w None s) as [Y|(l & w' & Y)]; rewrite Y in X; congruence.
      + intros k X. rewrite cache_updateLocal. exact X.
  Qed.

  Lemma cur_processInvalid r cs s : s_cur (processInvalidMsgBlame E C r cs s) = s_cur s.
  Proof. unfold processInvalidMsgBlame. destruct (AccPubKeysFromPartyIDs _ _ _); reflexivity. Qed.

  Lemma step_memory H s l :
    inv E C H s -> cur_dashed s ->
    cur_dashed (step E C s l) /\
    (forall k, no_dash k -> is_Some (s_cache s !! k) -> is_Some (s_cache (step E C s l) !! k)).
  Proof.
    intros I D.
    assert (Hself : forall s', s_cur s' = s_cur s -> s_cache s' = s_cache s ->
              cur_dashed s' /\ (forall k, no_dash k -> is_Some (s_cache s !! k) -> is_Some (s_cache s' !! k))).
    { intros s' X1 X2. split; [intros r k x X; rewrite X1 in X; eapply D, X|rewrite X2; auto]. }
    unfold step. destruct (s_crash s); [apply Hself; reflexivity|].
    destruct l as [o1 o2 peer m| | |j res|j].
    - destruct (s_cur s) eqn:Hc; [apply Hself; [exact Hc|reflexivity]|]. unfold ProcessOneMessage.
      destruct m as [t [w|]|t [v|]|[[|]|]|[c|]| |]; try (apply Hself; [exact Hc|reflexivity]).
      + destruct (mem_processTSSMsg H o1 o2 w t false s I Hc) as [X1 X2]. split; [exact X1|]. intros k _. apply X2.
      + assert (X : cur_dashed (fst (processVerMsg E C o1 o2 peer v t s)) /\
                    (forall k, no_dash k -> is_Some (s_cache s !! k) ->
                      is_Some (s_cache (fst (processVerMsg E C o1 o2 peer v t s)) !! k))).
        { destruct (mem_processVerMsg H o1 o2 peer v t s I Hc) as [X1 X2]. split; [exact X1|]. intros k _ Y. apply X2. auto. }
        destruct (s_cache s !! v_key v) as [it|] eqn:Hv; [|exact X].
        destruct (it_votes it !! peer); [apply Hself; [exact Hc|reflexivity]|exact X].
      + destruct (bool_decide _); [apply Hself; [exact Hc|reflexivity]|]. cbn zeta.
        destruct (Z.eqb _ _); cbn [fst]; [|apply Hself; [exact Hc|reflexivity]].
        destruct (Nat.eqb _ _); apply Hself; first [exact Hc|reflexivity].
      + destruct (c_msg c) as [w|].
        * destruct (bool_decide _); [|apply Hself; [exact Hc|reflexivity]].
          destruct (mem_processTSSMsg H o1 o2 w (c_type c) true _ (inv_set_requested E C H (fun r => r ∖ {[c_hash c]}) s I) Hc) as [X1 X2].
          split; [exact X1|]. intros k _. apply X2.
        * destruct (e_peer_ok E peer); [|apply Hself; [exact Hc|reflexivity]].
          unfold processRequestMsgFromPeer. destruct (s_stored s !! c_key c); apply Hself; first [exact Hc|reflexivity].
    - destruct (s_cur s) as [[[|b rest] key w]|] eqn:Hc; try (apply Hself; [exact Hc|reflexivity]).
      assert (Hmid : forall s', (s_cur s' = None \/ s_cur s' = Some (Cur rest key w)) -> s_cache s' = s_cache s ->
              cur_dashed s' /\ (forall k, no_dash k -> is_Some (s_cache s !! k) -> is_Some (s_cache s' !! k))).
      { intros s' X1 X2. split; [|rewrite X2; auto]. intros r k x X. destruct X1 as [X1|X1]; [congruence|].
        rewrite X1 in X. injection X as <- -> <-. eapply D, Hc. }
      unfold update_one. destruct (bool_decide _); [|apply Hmid; [left|]; reflexivity].
      destruct (b_routing b) as [[[| |id] to bc]|]; try (apply Hself; [exact Hc|reflexivity]).
      destruct (cf_parties C !! id) as [kb|]; [|apply Hmid; [left|]; reflexivity].
      destruct (GetMsgRound _ _ _ _ _) as [r|]; [|apply Hmid; [left|]; reflexivity].
      destruct (CheckMsgDuplication r id s); [apply Hmid; [right|]; reflexivity|].
      destruct (existsb _ _); apply Hmid; first [left; reflexivity|right; reflexivity|reflexivity].
    - destruct (s_cur s) as [[[|b rest] key w]|] eqn:Hc; try (apply Hself; [exact Hc|reflexivity]).
      destruct (batch_done s); [|apply Hself; [exact Hc|reflexivity]].
      split; [destruct key; intros r k x X; cbn in X; discriminate X|].
      intros k N X. destruct key as [k'|]; cbn; [|exact X].
      destruct (decide (k' = k)) as [->|Hne]; [|rewrite lookup_delete_ne by congruence; exact X].
      exfalso. eapply dashed_no_dash; [eapply D, Hc|exact N].
    - apply Hself; unfold work; destruct (s_pending s !! j) as [x|]; try reflexivity;
        (destruct (GetMsgRound _ _ _ _ _); [|reflexivity]);
        (destruct res; [|reflexivity]); [rewrite cur_processInvalid|rewrite cache_processInvalid]; reflexivity.
    - apply Hself; unfold accept; destruct (s_updated s !! j) as [x|]; try reflexivity;
        destruct (GetMsgRound _ _ _ _ _); reflexivity.
  Qed.

  Lemma run_dashed tr : cur_dashed (run E C tr).
  Proof.
    induction tr as [|l tr IH] using rev_ind; [intros r k w X; discriminate X|].
    rewrite run_snoc. exact (proj1 (step_memory _ _ l (inv_run E C tr) IH)).
  Qed.
  Lemma run_keeps_key tr tr' k :
    no_dash k -> is_Some (s_cache (run E C tr) !! k) -> is_Some (s_cache (run E C (tr ++ tr')) !! k).
  Proof.
    intros N X. induction tr' as [|l tr' IH] using rev_ind; [rewrite app_nil_r; exact X|].
    rewrite app_assoc, run_snoc.
    exact (proj2 (step_memory _ _ l (inv_run E C (tr ++ tr')) (run_dashed _)) k N IH).
  Qed.
  (** A confirmation for a key without a dash *)
  Lemma ver_step tr o1 o2 p t v :
    no_dash (v_key v) -> s_crash (run E C tr) = false -> s_cur (run E C tr) = None ->
    let s' := run E C (tr ++ [LRecv o1 o2 p (MVer t (Some v))]) in
    s_crash s' = false /\ s_cur s' = None /\ is_Some (s_cache s' !! v_key v).
  Proof.
    intros N Hc Hu. cbv zeta. rewrite run_snoc. pose proof (inv_run E C tr) as I.
    set (s := run E C tr) in *. unfold step. rewrite Hc, Hu. unfold ProcessOneMessage.
    assert (X : let s' := fst (processVerMsg E C o1 o2 p v t s) in
                s_crash s' = false /\ s_cur s' = None /\ is_Some (s_cache s' !! v_key v)).
    { cbv zeta. split; [|split].
      1,2: unfold processVerMsg; cbn zeta; cbn [it_msg it_votes];
        set (it0 := match s_cache s !! v_key v with Some it => it | None => _ end);
        (destruct (it_msg it0) as [w|] eqn:M;
         [exfalso; unfold it0 in M; destruct (s_cache s !! v_key v) as [it|] eqn:L; [|discriminate M];
          destruct (proj2 (i_cache _ _ _ _ I _ _ L) w M) as (id & (_ & _ & [_ K]) & _);
          eapply dashed_no_dash; [exists id, (w_round w); exact K|exact N]|]);
        rewrite ?(proj1 (requestShare_mid E _ _ _ _ _ _)), ?(proj2 (requestShare_mid E _ _ _ _ _ _)); assumption.
      exact (proj2 (mem_processVerMsg _ o1 o2 p v t s I Hu) (v_key v) (or_intror eq_refl)). }
    destruct (s_cache s !! v_key v) as [it|] eqn:L; [|exact X].
    destruct (it_votes it !! p); [|exact X]. cbn. rewrite L. eauto.
  Qed.
End Memory.
