(** An agreed broadcast is applied when the last confirmation is in. *)
From Coq Require Import ZArith Ascii String List Lia.
From stdpp Require Import base list strings gmap.
From Verif Require Import Base L_Base S_Threshold M_Common S_Common L_Common L_Common2 L_Common3.

Section Progress.
  Variable E : env.
  Variable C : cfg.
  Variables (w : wire) (owner : string) (to : list string) (kb : bytes) (op : string) (l : list bulk).
  Hypothesis Hr : w_routing w = Some (Routing (FId owner) to true).
  Hypothesis Hk : cf_parties C !! owner = Some kb.
  Hypothesis Hsig : e_verify E kb (w_body w ++ to_bytes (cf_msgid C)) (w_sig w) = true.
  Hypothesis Hop : cf_id2peer C !! owner = Some op.
  Hypothesis Hl : e_dec_bulk E (w_body w) = Some l.
  Let k := cache_key owner (w_round w).
  Let h := e_sha E (w_body w).

  Definition peer_of (e : option string) : string := match e with None => cf_local C | Some p => p end.
  Definition votes_of (done : list (option string)) : gmap string string :=
    list_to_map ((fun e => (peer_of e, h)) <$> done).

  (** The state after the receipts in [done] (latest first), none of which
      completed the quorum. *)
  Record mid (done : list (option string)) (s : state) : Prop := Mid {
    m_crash : s_crash s = false;
    m_cur : s_cur s = None;
    m_item : match done with
             | [] => s_cache s !! k = None
             | _ => s_cache s !! k =
                 Some (Item (if bool_decide (None ∈ done) then Some w else None) h (votes_of done))
             end
  }.

  Lemma votes_of_lookup done p x : votes_of done !! p = Some x -> x = h /\ p ∈ peer_of <$> done.
  Proof.
    unfold votes_of. intros Hx. apply elem_of_list_to_map_2 in Hx.
    apply elem_of_list_fmap in Hx as (e & He & Hin). injection He as -> ->.
    split; [reflexivity|]. apply elem_of_list_fmap. eauto.
  Qed.
  Lemma votes_of_size done : NoDup (peer_of <$> done) -> size (votes_of done) = length done.
  Proof.
    intros Hn. unfold votes_of, size, map_size. rewrite map_to_list_to_map.
    - apply fmap_length.
    - rewrite <- list_fmap_compose. exact Hn.
  Qed.
  Lemma votes_for_all done : votes_for h (votes_of done) = size (votes_of done).
  Proof.
    unfold votes_for. f_equal. apply map_filter_id. intros p x Hx.
    apply votes_of_lookup in Hx. apply Hx.
  Qed.

  Lemma hashCheck_few o done th m :
    NoDup (peer_of <$> done) -> (Z.of_nat (length done) < th)%Z ->
    hashCheck C o (Item m h (votes_of done)) owner th = (HNotEnoughPeer, Item m h (votes_of done)).
  Proof.
    intros Hn Hlt. unfold hashCheck. rewrite Hop. cbn [it_votes].
    rewrite votes_of_size by exact Hn.
    destruct (Z.ltb_spec (Z.of_nat (length done)) th); [reflexivity|lia].
  Qed.

  Lemma hashCheck_full o done th m :
    NoDup (peer_of <$> done) -> op ∉ peer_of <$> done -> (Z.of_nat (length done) = th)%Z -> (1 <= th)%Z ->
    hashCheck C o (Item m h (votes_of done)) owner th = (HOk, Item m h (votes_of done)).
  Proof.
    intros Hn Hno Heq Hpos. unfold hashCheck. rewrite Hop. cbn [it_votes it_hash].
    rewrite votes_of_size by exact Hn.
    destruct (Z.ltb_spec (Z.of_nat (length done)) th); [lia|].
    destruct (votes_of done !! op) as [x|] eqn:Hx.
    { exfalso. apply votes_of_lookup in Hx as [_ Hx]. exact (Hno Hx). }
    unfold getMsgHash. destruct (getHighestFreq o (votes_of done)) as [[h' f]|] eqn:Hf.
    - apply getHighestFreq_spec in Hf as (-> & Hmax & Hin).
      apply elem_of_list_fmap in Hin as ([p x] & -> & Hin). apply elem_of_map_to_list in Hin.
      apply votes_of_lookup in Hin as [-> _]. cbn [snd].
      rewrite <- votes_for_count, votes_for_all, votes_of_size by exact Hn.
      destruct (Z.ltb_spec (Z.of_nat (length done)) (th - 1)); [lia|].
      rewrite String.eqb_refl. reflexivity.
    - apply getHighestFreq_none in Hf. rewrite votes_of_size in Hf by exact Hn. lia.
  Qed.

  Lemma requestShare_mid ord votes th key t s :
    s_crash (fst (requestShareFromPeer E ord votes th key t s)) = s_crash s /\
    s_cur (fst (requestShareFromPeer E ord votes th key t s)) = s_cur s.
  Proof.
    unfold requestShareFromPeer. destruct (getMsgHash ord votes th); [|auto].
    destruct (forallb _ _); [|auto]. destruct t; auto.
  Qed.

  Lemma applyShare_few o1 o2 done t s m :
    NoDup (peer_of <$> done) -> (Z.of_nat (length done) < cf_threshold C)%Z ->
    fst (applyShare E C o1 o2 (Item m h (votes_of done)) w owner true k t s) =
    set_cache (<[k := Item m h (votes_of done)]>) s.
  Proof. intros Hn Hlt. unfold applyShare. rewrite hashCheck_few by assumption. reflexivity. Qed.

  Lemma applyShare_full o1 o2 done t s m :
    NoDup (peer_of <$> done) -> op ∉ peer_of <$> done ->
    (Z.of_nat (length done) = cf_threshold C)%Z -> (1 <= cf_threshold C)%Z ->
    s_cur (fst (applyShare E C o1 o2 (Item m h (votes_of done)) w owner true k t s)) =
      Some (Cur l (Some k) w) /\
    s_crash (fst (applyShare E C o1 o2 (Item m h (votes_of done)) w owner true k t s)) = s_crash s.
  Proof.
    intros Hn Hno Heq Hpos. unfold applyShare. rewrite hashCheck_full by assumption.
    unfold updateLocal. rewrite Hr, Hk, Hop, Hl. auto.
  Qed.

  (** What one more receipt does. *)
  Lemma receipt_item done e lb s :
    mid done s -> receipt w k h e lb -> NoDup (peer_of <$> (e :: done)) -> e ∉ done ->
    let it := Item (if bool_decide (None ∈ e :: done) then Some w else None) h (votes_of (e :: done)) in
    (exists o1 o2 t s0, s_crash s0 = false /\ s_cur s0 = None /\
       bool_decide (None ∈ e :: done) = true /\
       step E C s lb = fst (applyShare E C o1 o2 it w owner true k t s0)) \/
    (bool_decide (None ∈ e :: done) = false /\ s_crash (step E C s lb) = false /\
     s_cur (step E C s lb) = None /\ s_cache (step E C s lb) !! k = Some it).
  Proof.
    intros [Hcr Hcu Hit] Hrec Hn Hnew it. unfold step. rewrite fmap_cons in Hn.
    apply NoDup_cons in Hn as [Hn1 Hn2].
    destruct e as [p|].
    - destruct Hrec as (o1 & o2 & t & v & _ & -> & Hvk & Hvh). rewrite Hcr, Hcu.
      unfold ProcessOneMessage. rewrite Hvk.
      assert (Hbd : bool_decide (None ∈ Some p :: done) = bool_decide (None ∈ done)).
      { apply bool_decide_ext. rewrite elem_of_cons. split; [intros [?|?]; [discriminate|auto]|auto]. }
      assert (Hp : forall x, votes_of done !! p = Some x -> False).
      { intros x Hx. apply votes_of_lookup in Hx as [_ Hx]. apply Hn1, Hx. }
      destruct done as [|d done].
      + rewrite Hit. unfold processVerMsg. cbn zeta. rewrite Hvk, Hit, Hvh. cbn [it_msg it_votes it_hash].
        right. split; [rewrite Hbd; reflexivity|].
        destruct (requestShare_mid o1 (<[p:=h]> ∅) (cf_threshold C) k t
                    (set_cache (<[k:=Item None h (<[p:=h]> ∅)]>) s)) as [-> ->].
        split; [exact Hcr|]. split; [exact Hcu|].
        rewrite cache_requestShare. cbn. apply lookup_insert.
      + rewrite Hit. cbn [it_votes].
        destruct (votes_of (d :: done) !! p) as [x|] eqn:Hx; [exfalso; eauto|].
        unfold processVerMsg. cbn zeta. rewrite Hvk, Hit, Hvh. cbn [it_msg it_votes it_hash].
        unfold it. rewrite Hbd. destruct (bool_decide (None ∈ d :: done)) eqn:Hbd'.
        * rewrite Hr. left. eexists o1, o2, t, _. split_and!; [| | |reflexivity]; [exact Hcr|exact Hcu|reflexivity].
        * right. split; [reflexivity|].
          destruct (requestShare_mid o1 (<[p:=h]> (votes_of (d :: done))) (cf_threshold C) k t
                    (set_cache (<[k:=Item None h (<[p:=h]> (votes_of (d :: done)))]>) s)) as [-> ->].
          split; [exact Hcr|]. split; [exact Hcu|].
          rewrite cache_requestShare. cbn. apply lookup_insert.
    - destruct Hrec as (o1 & o2 & p & t & _ & ->). rewrite Hcr, Hcu.
      unfold ProcessOneMessage, processTSSMsg. rewrite Hr, Hk. unfold verifySignature. rewrite Hsig.
      cbn zeta. cbn [it_msg it_votes it_hash].
      fold k h.
      assert (Hbd : bool_decide (None ∈ None :: done) = true) by (apply bool_decide_eq_true; left).
      assert (Hbd' : bool_decide (None ∈ done) = false) by (apply bool_decide_eq_false; exact Hnew).
      destruct (crash_receiver E C w owner t s) as [Hc1 Hc2].
      assert (Hc3 : s_cur (receiverBroadcastHashToPeers E C w owner t s) = s_cur s).
      { unfold receiverBroadcastHashToPeers. destruct (cf_id2peer C !! owner); [|reflexivity].
        destruct (filter _ _); reflexivity. }
      left. rewrite Hc2.
      unfold it. rewrite Hbd.
      destruct done as [|d done].
      + rewrite Hit. cbn [it_msg it_votes it_hash]. rewrite Hr. eexists o1, o2, t, _.
        split_and!; [| | |reflexivity]; [cbn; congruence|cbn; congruence|reflexivity].
      + rewrite Hit, Hbd'. cbn [it_msg it_votes it_hash]. rewrite Hr. eexists o1, o2, t, _.
        split_and!; [| | |reflexivity]; [cbn; congruence|cbn; congruence|reflexivity].
  Qed.

  Lemma mid_step done e lb s :
    mid done s -> receipt w k h e lb -> NoDup (peer_of <$> (e :: done)) -> e ∉ done ->
    op ∉ peer_of <$> (e :: done) -> (1 <= cf_threshold C)%Z ->
    ((Z.of_nat (length (e :: done)) < cf_threshold C)%Z -> mid (e :: done) (step E C s lb)) /\
    ((Z.of_nat (length (e :: done)) = cf_threshold C)%Z -> None ∈ e :: done ->
      s_cur (step E C s lb) = Some (Cur l (Some k) w) /\ s_crash (step E C s lb) = false).
  Proof.
    intros Hm Hrec Hn Hnew Hno Hpos.
    destruct (receipt_item done e lb s Hm Hrec Hn Hnew)
      as [(o1 & o2 & t & s0 & Hcr & Hcu & Hbd & Hst)|(Hbd & Hcr & Hcu & Hit)].
    - rewrite Hst. split.
      + intros Hlt. rewrite applyShare_few by assumption. constructor; [exact Hcr|exact Hcu|].
        cbn. rewrite lookup_insert. reflexivity.
      + intros Heq _. rewrite <- Hcr.
        apply applyShare_full; assumption.
    - split.
      + intros _. constructor; [exact Hcr|exact Hcu|exact Hit].
      + intros _ Hin. apply bool_decide_eq_false in Hbd. contradiction.
  Qed.

  Lemma progress es : forall done lbs s,
    mid done s -> Forall2 (receipt w k h) es lbs ->
    NoDup (peer_of <$> (rev es ++ done)) -> NoDup (rev es ++ done) ->
    op ∉ peer_of <$> (rev es ++ done) -> (1 <= cf_threshold C)%Z ->
    es <> [] -> None ∈ rev es ++ done ->
    (Z.of_nat (length (rev es ++ done)) = cf_threshold C)%Z ->
    s_cur (foldl (step E C) s lbs) = Some (Cur l (Some k) w) /\
    s_crash (foldl (step E C) s lbs) = false.
  Proof.
    induction es as [|e es IH]; intros done lbs s Hm Hf Hn Hn' Hno Hpos Hne Hin Hlen; [congruence|].
    inversion Hf as [|? lb ? lbs' Hrec Hrest]; subst. clear Hf Hne.
    cbn [rev] in *. rewrite <- app_assoc in *. cbn [app] in *. cbn [foldl].
    assert (Hsub : forall x, x ∈ peer_of <$> (e :: done) -> x ∈ peer_of <$> (rev es ++ e :: done)).
    { intros x Hx. rewrite fmap_app. apply elem_of_app. right. exact Hx. }
    assert (Hn1 : NoDup (peer_of <$> (e :: done))).
    { rewrite fmap_app in Hn. apply NoDup_app in Hn as (_ & _ & Hn). exact Hn. }
    assert (Hn2 : e ∉ done).
    { apply NoDup_app in Hn' as (_ & _ & Hx). apply NoDup_cons in Hx as [Hx _]. exact Hx. }
    assert (Hno1 : op ∉ peer_of <$> (e :: done)) by (intros Hx; apply Hno, Hsub, Hx).
    destruct (mid_step done e lb s Hm Hrec Hn1 Hn2 Hno1 Hpos) as [Hmid Hfull].
    destruct es as [|e' es].
    - inversion Hrest. subst. cbn in *. apply Hfull; [exact Hlen|exact Hin].
    - apply (IH (e :: done)); auto.
      apply Hmid. rewrite app_length in Hlen. cbn [rev] in Hlen. rewrite app_length in Hlen. cbn [length] in *. lia.
  Qed.
End Progress.
