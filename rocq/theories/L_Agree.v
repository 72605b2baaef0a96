(** A broadcast on which everybody agrees is applied, whatever else is going on. *)
From Coq Require Import ZArith Ascii String List Lia.
From stdpp Require Import base list strings gmap.
From Verif Require Import Base L_Base S_Threshold M_Common S_Common L_Common L_Common2 L_Common3 L_Common4 L_Memory.

Global Instance sender_dec : EqDecision sender.
Proof. solve_decision. Defined.
Global Instance routing_dec : EqDecision routing.
Proof. solve_decision. Defined.
Global Instance wire_dec : EqDecision wire.
Proof. solve_decision. Defined.
Global Instance bulk_dec : EqDecision bulk.
Proof. solve_decision. Defined.
Global Instance cur_dec : EqDecision cur.
Proof. solve_decision. Defined.

Section Agree.
  Variable E : env.
  Variable C : cfg.
  Variables (w : wire) (owner : string) (to : list string) (kb : bytes) (op : string) (l : list bulk).
  Hypothesis Hr : w_routing w = Some (Routing (FId owner) to true).
  Hypothesis Hk : cf_parties C !! owner = Some kb.
  Hypothesis Hsig : e_verify E kb (w_body w ++ to_bytes (cf_msgid C)) (w_sig w) = true.
  Hypothesis Hop : cf_id2peer C !! owner = Some op.
  Hypothesis Hl : e_dec_bulk E (w_body w) = Some l.
  Hypothesis Hol : op <> cf_local C.
  Let k := cache_key owner (w_round w).
  Let h := e_sha E (w_body w).
  Let th := cf_threshold C.

  (** Nobody contradicts [w] in the history. *)
  Definition no_conflict (H : string -> inmsg -> Prop) : Prop :=
    (forall p t v, H p (MVer t (Some v)) -> v_key v = k -> v_hash v = h /\ p <> op) /\
    (forall w' id, authentic E C H w' id -> is_broadcast w' -> names k w' id -> w' = w).
  Definition applying (s : state) : Prop := s_cur s = Some (Cur l (Some k) w).
  (** Some message is being applied under the key [k]. *)
  Definition busy (s : state) : Prop := exists rest w', s_cur s = Some (Cur rest (Some k) w').

  Lemma hashCheck_agree o m votes :
    (forall p x, votes !! p = Some x -> x = h) -> votes !! op = None -> votes <> ∅ ->
    hashCheck C o (Item m h votes) owner th =
    (if Z.ltb (Z.of_nat (size votes)) th then HNotEnoughPeer else HOk, Item m h votes).
  Proof.
    intros Hv Ho Hne. unfold hashCheck. rewrite Hop. cbn [it_votes it_hash].
    destruct (Z.ltb_spec (Z.of_nat (size votes)) th) as [|Hge]; [reflexivity|]. rewrite Ho.
    unfold getMsgHash. destruct (getHighestFreq o votes) as [[h' f]|] eqn:Hf.
    - apply getHighestFreq_spec in Hf as (-> & Hmax & Hin).
      apply elem_of_list_fmap in Hin as ([p x] & -> & Hin). apply elem_of_map_to_list in Hin.
      apply Hv in Hin as ->. cbn [snd].
      assert (Hc : count_votes h votes = size votes).
      { rewrite <- votes_for_count. unfold votes_for. f_equal. apply map_filter_id. intros p' x Hx.
        cbn. eapply Hv, Hx. }
      rewrite Hc. destruct (Z.ltb_spec (Z.of_nat (size votes)) (th - 1)); [lia|].
      rewrite String.eqb_refl. reflexivity.
    - apply getHighestFreq_none in Hf. exfalso. apply Hne, map_size_empty_inv, Hf.
  Qed.
  Lemma applyShare_agree o1 o2 votes t s :
    (forall p x, votes !! p = Some x -> x = h) -> votes !! op = None -> votes <> ∅ ->
    let s' := fst (applyShare E C o1 o2 (Item (Some w) h votes) w owner true k t s) in
    (s_cache s' !! k = Some (Item (Some w) h votes) /\ (Z.of_nat (size votes) < th)%Z /\ s_cur s' = s_cur s) \/ applying s'.
  Proof.
    intros Hv Ho Hne. cbv zeta. unfold applyShare. fold th. rewrite hashCheck_agree by assumption.
    destruct (Z.ltb_spec (Z.of_nat (size votes)) th) as [Hlt|Hge].
    - left. cbn. rewrite lookup_insert. auto.
    - right. unfold updateLocal. rewrite Hr, Hk, Hop, Hl. reflexivity.
  Qed.

  (** The entry of [k], in a history without conflict *)
  Record item_fine (it : item) : Prop := {
    if_votes : forall p x, it_votes it !! p = Some x -> x = h;
    if_op : it_votes it !! op = None;
    if_msg : forall w', it_msg it = Some w' -> w' = w;
    if_hash : it_msg it = Some w -> it_hash it = h
  }.
  Lemma item_is_fine H s it : no_conflict H -> inv E C H s -> s_cache s !! k = Some it -> item_fine it.
  Proof.
    intros [N1 N2] I L. destruct (i_cache _ _ _ _ I _ _ L) as [V M]. split.
    - intros p x X. destruct (V _ _ X) as [(t & v & X1 & X2 & <-)|(-> & w' & id & A & B & Nm & ->)].
      + exact (proj1 (N1 _ _ _ X1 X2)).
      + rewrite (N2 w' id A B Nm). reflexivity.
    - destruct (it_votes it !! op) as [x|] eqn:X; [|reflexivity]. exfalso.
      destruct (V _ _ X) as [(t & v & X1 & X2 & _)|(X1 & _)]; [|congruence].
      exact (proj2 (N1 _ _ _ X1 X2) eq_refl).
    - intros w' X. destruct (M w' X) as (id & (A & B & Nm) & _). exact (N2 w' id A B Nm).
    - intros X. destruct (M w X) as (id & _ & ->). reflexivity.
  Qed.

  (** What a step can do to the entry *)
  Definition kept (s s' : state) : Prop := s_cache s' !! k = s_cache s !! k /\ (busy s' -> busy s).
  Record better (s s' : state) (p : option string) : Prop := {
    be_cur : s_cur s' = s_cur s;
    be_new : exists it', s_cache s' !! k = Some it' /\
      (it_msg it' = Some w -> (Z.of_nat (size (it_votes it')) < th)%Z) /\
      (forall it, s_cache s !! k = Some it ->
         (forall q x, it_votes it !! q = Some x -> it_votes it' !! q = Some x) /\
         (it_msg it = Some w -> it_msg it' = Some w)) /\
      (match p with Some q => it_votes it' !! q = Some h
       | None => it_msg it' = Some w /\ it_votes it' !! cf_local C = Some h end)
  }.

  Lemma kept_same s s' : s_cache s' = s_cache s -> s_cur s' = s_cur s -> kept s s'.
  Proof. intros A B. unfold kept, busy. rewrite A, B. auto. Qed.
  Lemma kept_by s s' key : s_cache s' !! k = s_cache s !! k -> cur_by key s s' -> key <> Some k -> kept s s'.
  Proof.
    intros A [B|(l' & w' & B)] D; split; [exact A| |exact A|]; intros (rest & w'' & X); rewrite B in X.
    - exists rest, w''. exact X.
    - exfalso. congruence.
  Qed.
  Lemma tss_other o1 o2 w' t fwd s :
    (forall owner' to' kb', w_routing w' = Some (Routing (FId owner') to' true) -> cf_parties C !! owner' = Some kb' ->
       e_verify E kb' (w_body w' ++ to_bytes (cf_msgid C)) (w_sig w') = true -> cache_key owner' (w_round w') <> k) ->
    kept s (fst (processTSSMsg E C o1 o2 w' t fwd s)).
  Proof.
    intros Hne. unfold processTSSMsg.
    destruct (w_routing w') as [[[| |owner'] to' bc]|] eqn:Hr'; try (apply kept_same; reflexivity).
    destruct (cf_parties C !! owner') as [kb'|] eqn:Hk'; [|apply kept_same; reflexivity].
    destruct (verifySignature E C kb' (w_body w') (w_sig w')) eqn:Hs'; [|apply kept_same; reflexivity].
    destruct bc.
    2:{ apply (kept_by _ _ None); [rewrite cache_updateLocal; reflexivity|apply cur_updateLocal|discriminate]. }
    specialize (Hne _ _ _ eq_refl Hk' Hs').
    cbn zeta. cbn [it_msg it_votes].
    set (s1 := if fwd then s else receiverBroadcastHashToPeers E C w' owner' t s).
    assert (K1 : s_cache s1 = s_cache s /\ s_cur s1 = s_cur s).
    { unfold s1. destruct fwd; [auto|]. split; apply cur_receiver. }
    destruct K1 as [K1 K2].
    rewrite K1.
    match goal with |- context [it_msg ?x] => set (it0 := x) end.
    match goal with |- context [match it_msg it0 with Some _ => _ | None => (?s2, _) end] => set (s2' := s2) end.
    assert (L2 : s_cache s2' !! k = s_cache s !! k).
    { unfold s2'. cbn. rewrite K1, lookup_insert_ne by congruence. reflexivity. }
    assert (L3 : s_cur s2' = s_cur s) by exact K2.
    assert (L4 : kept s s2').
    { split; [exact L2|]. unfold busy. rewrite L3. auto. }
    destruct (it_msg it0) as [w''|]; [|exact L4].
    destruct (w_routing w'') as [[[| |owner''] to'' bc'']|]; try exact L4.
    match goal with |- kept _ (fst (applyShare E C ?a ?b ?c ?d ?e ?f ?g ?h ?i)) =>
      apply (kept_by _ _ (Some g));
        [rewrite applyShare_other by congruence; exact L2
        |pose proof (cur_applyShare E C a b c d e f g h i) as X; unfold cur_by in *; rewrite <- L3; exact X|congruence] end.
  Qed.
  Lemma ver_other o1 o2 p v t s : v_key v <> k -> kept s (fst (processVerMsg E C o1 o2 p v t s)).
  Proof.
    intros Hne. unfold processVerMsg. cbn zeta. cbn [it_msg it_votes].
    assert (L4 : forall it, kept s (set_cache (insert (v_key v) it) s)).
    { intros it. split; [cbn; rewrite lookup_insert_ne by congruence; reflexivity|auto]. }
    destruct (it_msg _) as [w''|].
    - destruct (w_routing w'') as [[[| |owner''] to'' bc'']|]; try apply L4.
      match goal with |- kept _ (fst (applyShare E C ?a ?b ?c ?d ?e ?f ?g ?h ?i)) =>
        apply (kept_by _ _ (Some g));
        [rewrite applyShare_other by congruence; cbn; rewrite lookup_insert_ne by congruence; reflexivity
        |exact (cur_applyShare E C a b c d e f g h i)|congruence] end.
    - split; [rewrite cache_requestShare; cbn; rewrite lookup_insert_ne by congruence; reflexivity|].
      unfold busy. rewrite (proj2 (requestShare_mid E _ _ _ _ _ _)). auto.
  Qed.

  Lemma insert_fine (votes : gmap string string) q :
    (forall p x, votes !! p = Some x -> x = h) -> votes !! op = None -> q <> op ->
    (forall p x, <[q := h]> votes !! p = Some x -> x = h) /\ <[q := h]> votes !! op = None /\ <[q := h]> votes <> ∅.
  Proof.
    intros Hv Ho Hq. split; [|split].
    - intros p x. destruct (decide (p = q)) as [->|Hn]; [rewrite lookup_insert; congruence|].
      rewrite lookup_insert_ne by congruence. apply Hv.
    - rewrite lookup_insert_ne by congruence. exact Ho.
    - apply insert_non_empty.
  Qed.

  (** Receiving [w] itself *)
  Lemma tss_self H o1 o2 t fwd s :
    no_conflict H -> inv E C H s ->
    let s' := fst (processTSSMsg E C o1 o2 w t fwd s) in
    better s s' None \/ applying s'.
  Proof.
    intros N I. cbv zeta. unfold processTSSMsg. rewrite Hr, Hk. unfold verifySignature. rewrite Hsig.
    cbn zeta. cbn [it_msg it_votes it_hash]. fold k h.
    set (s1 := if fwd then s else receiverBroadcastHashToPeers E C w owner t s).
    assert (K1 : s_cache s1 = s_cache s /\ s_cur s1 = s_cur s).
    { unfold s1. destruct fwd; [auto|]. split; apply cur_receiver. }
    destruct K1 as [K1 K2]. rewrite K1.
    match goal with |- context [Item (it_msg ?x)] => set (it0 := x) end.
    assert (X : it_msg it0 = Some w /\ it_hash it0 = h /\ (forall p x, it_votes it0 !! p = Some x -> x = h) /\
                it_votes it0 !! op = None /\
                (forall it, s_cache s !! k = Some it -> it_votes it0 = it_votes it)).
    { unfold it0. destruct (s_cache s !! k) as [it|] eqn:L.
      - destruct (item_is_fine H s it N I L) as [F1 F2 F3 F4].
        destruct (it_msg it) as [w'|] eqn:M.
        + pose proof (F3 w' eq_refl) as ->. rewrite M. split; [reflexivity|]. split; [auto|]. split; [exact F1|].
          split; [exact F2|]. intros it' Y. congruence.
        + cbn. split; [reflexivity|]. split; [reflexivity|]. split; [exact F1|]. split; [exact F2|].
          intros it' Y. congruence.
      - cbn. split; [reflexivity|]. split; [reflexivity|].
        split; [intros p x Y; rewrite lookup_empty in Y; discriminate Y|]. split; [apply lookup_empty|].
        intros it' Y. discriminate Y. }
    destruct X as (X1 & X2 & X3 & X4 & X5). rewrite X1, Hr, X2.
    destruct (insert_fine (it_votes it0) (cf_local C) X3 X4 ltac:(congruence)) as (Y1 & Y2 & Y3).
    match goal with |- context [applyShare E C o1 o2 _ w owner true k t ?s2] =>
      destruct (applyShare_agree o1 o2 (<[cf_local C := h]> (it_votes it0)) t s2 Y1 Y2 Y3) as [(Z1 & Z2 & Z3)|Z] end;
      [left|right; exact Z].
    split; [rewrite Z3; exact K2|]. exists (Item (Some w) h (<[cf_local C := h]> (it_votes it0))). cbn [it_msg it_votes].
    split; [exact Z1|]. split; [intros _; exact Z2|]. split.
    - intros it L. rewrite (X5 it L) in *. split; [|reflexivity]. intros q x Q.
      destruct (decide (q = cf_local C)) as [->|Hq]; [|rewrite lookup_insert_ne by congruence; exact Q].
      rewrite lookup_insert. f_equal. symmetry. eapply X3. exact Q.
    - split; [reflexivity|apply lookup_insert].
  Qed.

  (** A confirmation *)
  Lemma ver_self H o1 o2 p v t s :
    no_conflict H -> inv E C H s -> v_key v = k -> v_hash v = h -> p <> op ->
    let s' := fst (processVerMsg E C o1 o2 p v t s) in
    better s s' (Some p) \/ applying s'.
  Proof.
    intros N I Kv Hv Hp. cbv zeta. unfold processVerMsg. cbn zeta. cbn [it_msg it_votes it_hash]. rewrite Kv, Hv.
    set (it0 := match s_cache s !! k with Some it => it | None => _ end).
    assert (X : item_fine it0 /\ (forall it, s_cache s !! k = Some it -> it0 = it)).
    { unfold it0. destruct (s_cache s !! k) as [it|] eqn:L.
      - split; [exact (item_is_fine H s it N I L)|congruence].
      - split; [|discriminate]. split; cbn; try discriminate; try apply lookup_empty. }
    destruct X as ([X1 X2 X3 X4] & X5).
    destruct (insert_fine (it_votes it0) p X1 X2 Hp) as (Y1 & Y2 & Y3).
    assert (B : forall s' m hh, s_cur s' = s_cur s -> s_cache s' !! k = Some (Item m hh (<[p := h]> (it_votes it0))) ->
                 m = it_msg it0 -> (m = Some w -> (Z.of_nat (size (<[p := h]> (it_votes it0))) < th)%Z) -> better s s' (Some p)).
    { intros s' m hh B0 B1 -> B3. split; [exact B0|]. eexists. split; [exact B1|]. cbn [it_msg it_votes]. split; [exact B3|]. split.
      - intros it L. rewrite <- (X5 it L). split; [|auto]. intros q x Q.
        destruct (decide (q = p)) as [->|Hq]; [|rewrite lookup_insert_ne by congruence; exact Q].
        rewrite lookup_insert. f_equal. symmetry. eapply X1, Q.
      - apply lookup_insert. }
    destruct (it_msg it0) as [w'|] eqn:M.
    - pose proof (X3 w' eq_refl) as ->. rewrite Hr, (X4 eq_refl).
      match goal with |- context [applyShare E C o1 o2 _ w owner true k t ?s2] =>
        destruct (applyShare_agree o1 o2 (<[p := h]> (it_votes it0)) t s2 Y1 Y2 Y3) as [(Z1 & Z2 & Z3)|Z] end;
        [left|right; exact Z].
      eapply B; [exact Z3|exact Z1|reflexivity|auto].
    - left. eapply B; [rewrite (proj2 (requestShare_mid E _ _ _ _ _ _)); reflexivity|rewrite cache_requestShare; cbn; apply lookup_insert|reflexivity|discriminate].
  Qed.

  (** The handling of the share was never begun in [tr]. *)
  Definition never (tr : list label) : Prop := forall tr1 tr2, tr = tr1 ++ tr2 -> ~ applying (run E C tr1).
  Lemma never_snoc tr x : never (tr ++ [x]) -> never tr /\ ~ applying (run E C (tr ++ [x])).
  Proof.
    intros N. split.
    - intros tr1 tr2 ->. apply (N tr1 (tr2 ++ [x])). rewrite app_assoc. reflexivity.
    - apply (N (tr ++ [x]) []). rewrite app_nil_r. reflexivity.
  Qed.

  Lemma never_or tr : never tr \/ exists tr1 tr2, tr = tr1 ++ tr2 /\ applying (run E C tr1).
  Proof.
    induction tr as [|x tr IH] using rev_ind.
    - left. intros tr1 tr2 X. destruct tr1; [discriminate|discriminate X].
    - destruct IH as [IH|(tr1 & tr2 & -> & A)]; [|right; exists tr1, (tr2 ++ [x]); rewrite app_assoc; auto].
      destruct (decide (s_cur (run E C (tr ++ [x])) = Some (Cur l (Some k) w))) as [Y|Y].
      + right. exists (tr ++ [x]), []. rewrite app_nil_r. auto.
      + left. intros tr1 tr2 X. destruct tr2 as [|y tr2 _] using rev_ind.
        * rewrite app_nil_r in X. subst tr1. exact Y.
        * rewrite app_assoc in X. apply app_inj_tail in X as [X _]. exact (IH _ _ X).
  Qed.

  (** The entry reflects the history *)
  Record tracks (tr : list label) : Prop := {
    tk_cur : ~ busy (run E C tr);
    tk_conf : forall p t v, handled E C tr p (MVer t (Some v)) -> v_key v = k ->
      exists it, s_cache (run E C tr) !! k = Some it /\ it_votes it !! p = Some h;
    tk_share : forall p t, handled E C tr p (MShare t (Some w)) ->
      exists it, s_cache (run E C tr) !! k = Some it /\ it_msg it = Some w /\ it_votes it !! cf_local C = Some h;
    tk_few : forall it, s_cache (run E C tr) !! k = Some it -> it_msg it = Some w -> (Z.of_nat (size (it_votes it)) < th)%Z
  }.
  Lemma tracks_kept tr x :
    tracks tr -> kept (run E C tr) (run E C (tr ++ [x])) ->
    (forall p t v, handled E C (tr ++ [x]) p (MVer t (Some v)) -> v_key v = k -> handled E C tr p (MVer t (Some v)) \/
       exists it, s_cache (run E C tr) !! k = Some it /\ it_votes it !! p = Some h) ->
    (forall p t, handled E C (tr ++ [x]) p (MShare t (Some w)) -> handled E C tr p (MShare t (Some w))) ->
    tracks (tr ++ [x]).
  Proof.
    intros [T0 T1 T2 T3] [K K'] A B. split; try rewrite K.
    - auto.
    - intros p t v X Y. destruct (A p t v X Y) as [Z|Z]; [exact (T1 p t v Z Y)|exact Z].
    - intros p t X. exact (T2 p t (B p t X)).
    - exact T3.
  Qed.
  Lemma tracks_better tr x p :
    tracks tr -> better (run E C tr) (run E C (tr ++ [x])) p ->
    (forall q t v, handled E C (tr ++ [x]) q (MVer t (Some v)) -> v_key v = k -> handled E C tr q (MVer t (Some v)) \/ p = Some q) ->
    (forall q t, handled E C (tr ++ [x]) q (MShare t (Some w)) -> handled E C tr q (MShare t (Some w)) \/ p = None) ->
    tracks (tr ++ [x]).
  Proof.
    intros [T0 T1 T2 T3] [B0 (it' & B1 & B2 & B3 & B4)] A B. split.
    - unfold busy. rewrite B0. exact T0.
    - intros q t v X Y. exists it'. split; [exact B1|]. destruct (A q t v X Y) as [Z| ->]; [|exact B4].
      destruct (T1 q t v Z Y) as (it & L & V). exact (proj1 (B3 it L) q h V).
    - intros q t X. exists it'. split; [exact B1|]. destruct (B q t X) as [Z| ->]; [|exact B4].
      destruct (T2 q t Z) as (it & L & M & V). destruct (B3 it L) as [B5 B6]. split; [exact (B6 M)|exact (B5 _ _ V)].
    - intros it L. rewrite B1 in L. injection L as <-. exact B2.
  Qed.

  Lemma no_conflict_mono (H1 H2 : string -> inmsg -> Prop) :
    (forall p m, H1 p m -> H2 p m) -> no_conflict H2 -> no_conflict H1.
  Proof.
    intros S [N1 N2]. split.
    - intros p t v X. apply N1 with t. apply S, X.
    - intros w' id ((p & m & G & Cr) & A2 & A3). apply N2. split; [|split; assumption]. exists p, m. auto.
  Qed.

  Lemma tracks_run tr :
    s_crash (run E C tr) = false -> no_conflict (handled E C tr) -> never tr -> tracks tr.
  Proof.
    induction tr as [|x tr IH] using rev_ind; intros Hc N V.
    { split.
      - intros (rest & w' & X). discriminate X.
      - intros p t v (a & b & c & d & X & _). destruct a; discriminate X.
      - intros p t (a & b & c & d & X & _). destruct a; discriminate X.
      - intros it X. cbn in X. rewrite lookup_empty in X. discriminate X. }
    destruct (never_snoc tr x V) as [V1 V2].
    assert (Hc1 : s_crash (run E C tr) = false).
    { destruct (s_crash (run E C tr)) eqn:Y; [|reflexivity]. rewrite run_snoc in Hc. unfold step in Hc. rewrite Y in Hc.
      congruence. }
    assert (N1 : no_conflict (handled E C tr)).
    { eapply no_conflict_mono; [|exact N]. intros p m. apply handled_snoc. }
    specialize (IH Hc1 N1 V1).
    assert (I : inv E C (handled E C (tr ++ [x])) (run E C tr)).
    { eapply inv_mono; [|exact (inv_run E C tr)]. intros p m. apply handled_snoc. }
    assert (Hsame : kept (run E C tr) (run E C (tr ++ [x])) ->
              (forall o1 o2 p t v, x = LRecv o1 o2 p (MVer t (Some v)) -> s_cur (run E C tr) = None -> v_key v <> k) ->
              (forall o1 o2 p t, x = LRecv o1 o2 p (MShare t (Some w)) -> s_cur (run E C tr) <> None) -> tracks (tr ++ [x])).
    { intros K A B. apply tracks_kept; [exact IH|exact K| |].
      - intros p t v X Y. left. apply handled_snoc_inv in X as [X|(o1 & o2 & X & X' & _)]; [exact X|].
        exfalso. exact (A o1 o2 p t v X X' Y).
      - intros p t X. apply handled_snoc_inv in X as [X|(o1 & o2 & X & X' & _)]; [exact X|].
        exfalso. exact (B o1 o2 p t X X'). }
    assert (St : run E C (tr ++ [x]) = step E C (run E C tr) x) by apply run_snoc.
    unfold step in St. rewrite Hc1 in St.
    destruct x as [o1 o2 peer m| | |j res|j].
    - destruct (s_cur (run E C tr)) as [cu|] eqn:Hu.
      { apply Hsame; [rewrite St; apply kept_same; reflexivity| |]; intros; discriminate. }
      assert (Now : handled E C (tr ++ [LRecv o1 o2 peer m]) peer m).
      { exists tr, o1, o2, []. auto. }
      assert (Quiet : kept (run E C tr) (run E C (tr ++ [LRecv o1 o2 peer m])) ->
                (forall t v, m = MVer t (Some v) -> v_key v <> k) -> (forall t, m <> MShare t (Some w)) ->
                tracks (tr ++ [LRecv o1 o2 peer m])).
      { intros K A B. apply Hsame; [exact K| |].
        - intros ? ? ? t v X _. injection X as _ _ _ X. exact (A t v X).
        - intros ? ? ? t X. injection X as _ _ _ X. exfalso. exact (B t X). }
      assert (Share : forall w' t fwd s0, s_cache s0 = s_cache (run E C tr) -> s_cur s0 = s_cur (run E C tr) ->
                inv E C (handled E C (tr ++ [LRecv o1 o2 peer m])) s0 ->
                carries m w' -> (forall t, m = MShare t (Some w) -> w' = w) -> (forall t v, m <> MVer t (Some v)) ->
                run E C (tr ++ [LRecv o1 o2 peer m]) = fst (processTSSMsg E C o1 o2 w' t fwd s0) ->
                tracks (tr ++ [LRecv o1 o2 peer m])).
      { intros w' t fwd s0 S1 S2 S3 Car Car' Nv St'.
        assert (D : w' = w \/ forall owner' to' kb', w_routing w' = Some (Routing (FId owner') to' true) ->
                      cf_parties C !! owner' = Some kb' ->
                      e_verify E kb' (w_body w' ++ to_bytes (cf_msgid C)) (w_sig w') = true -> cache_key owner' (w_round w') <> k).
        { destruct (w_routing w') as [[[| |owner'] to' [|]]|] eqn:R'; try (right; intros; discriminate).
          destruct (cf_parties C !! owner') as [kb'|] eqn:K'; [|right; intros; congruence].
          destruct (e_verify E kb' (w_body w' ++ to_bytes (cf_msgid C)) (w_sig w')) eqn:G'; [|right; intros; congruence].
          destruct (decide (cache_key owner' (w_round w') = k)) as [Q|Q].
          - left. apply (proj2 N w' owner').
            + split; [exists peer, m; auto|]. split; [exists to', true; exact R'|exists kb'; auto].
            + exists (FId owner'), to'. exact R'.
            + split; [exists to', true; exact R'|symmetry; exact Q].
          - right. intros owner'' to'' kb'' X _ _. injection X as <- _. exact Q. }
        destruct D as [->|D].
        - destruct (tss_self _ o1 o2 t fwd s0 N S3) as [[B0 (it' & B1 & B2 & B3 & B4)]|Ap].
          + apply (tracks_better tr _ None IH).
            * rewrite St'. split; [congruence|]. exists it'. rewrite <- S1. auto.
            * intros q t' v X _. left. apply handled_snoc_inv in X as [X|(o1' & o2' & X & _)]; [exact X|].
              injection X as _ _ _ X. exfalso. exact (Nv _ _ X).
            * auto.
          + exfalso. apply V2. rewrite St'. exact Ap.
        - apply Quiet.
          + rewrite St'. destruct (tss_other o1 o2 w' t fwd s0 D) as [K K'].
            split; [rewrite <- S1; exact K|]. intros B. destruct (K' B) as (rest & w'' & X). exists rest, w''. congruence.
          + intros t' v X. exfalso. exact (Nv _ _ X).
          + intros t' X. pose proof (Car' _ X) as ->. exact (D owner to kb Hr Hk Hsig eq_refl). }
      assert (Hq : forall s', run E C (tr ++ [LRecv o1 o2 peer m]) = s' -> s_cache s' = s_cache (run E C tr) ->
                s_cur s' = s_cur (run E C tr) -> (forall t v, m <> MVer t (Some v)) -> (forall t w, m <> MShare t (Some w)) ->
                tracks (tr ++ [LRecv o1 o2 peer m])).
      { intros s' X1 X2 X3 X4 X5. apply Quiet; [rewrite X1; apply kept_same; assumption| |auto].
        intros t v X. exfalso. exact (X4 _ _ X). }
      unfold ProcessOneMessage in St.
      destruct m as [t [w'|]|t [v|]|[[|]|]|[c|]| |];
        try (eapply Hq; [exact St|reflexivity|reflexivity|discriminate|discriminate]).
      + apply (Share w' t false (run E C tr)); try reflexivity; try discriminate; try assumption.
        * left. exists t. reflexivity.
        * intros t' X. congruence.
      + destruct (decide (v_key v = k)) as [Kv|Kv].
        * destruct (proj1 N peer t v Now Kv) as [Hv Hp].
          assert (Go : run E C (tr ++ [LRecv o1 o2 peer (MVer t (Some v))]) = fst (processVerMsg E C o1 o2 peer v t (run E C tr)) ->
                    tracks (tr ++ [LRecv o1 o2 peer (MVer t (Some v))])).
          { intros St'. destruct (ver_self _ o1 o2 peer v t _ N I Kv Hv Hp) as [Bt|Ap].
            - apply (tracks_better tr _ (Some peer) IH).
              + rewrite St'. exact Bt.
              + intros q t' v' X _. apply handled_snoc_inv in X as [X|(o1' & o2' & X & _)]; [auto|].
                injection X as _ _ <- _. auto.
              + intros q t' X. left. apply handled_snoc_inv in X as [X|(o1' & o2' & X & _)]; [exact X|discriminate X].
            - exfalso. apply V2. rewrite St'. exact Ap. }
          rewrite Kv in St. destruct (s_cache (run E C tr) !! k) as [it|] eqn:L; [|exact (Go St)].
          destruct (it_votes it !! peer) as [x|] eqn:X; [|exact (Go St)].
          apply (tracks_kept tr); [exact IH|rewrite St; apply kept_same; reflexivity| |].
          -- intros q t' v' Y _. apply handled_snoc_inv in Y as [Y|(o1' & o2' & Y & _)]; [auto|].
             injection Y as _ _ <- _. right. exists it. split; [exact L|].
             rewrite X. f_equal. eapply if_votes; [exact (item_is_fine _ _ _ N I L)|exact X].
          -- intros q t' Y. apply handled_snoc_inv in Y as [Y|(o1' & o2' & Y & _)]; [exact Y|discriminate Y].
        * apply Quiet; [|congruence|discriminate].
          pose proof (ver_other o1 o2 peer v t (run E C tr) Kv) as G. rewrite St.
          destruct (s_cache (run E C tr) !! v_key v) as [it|]; [|exact G].
          destruct (it_votes it !! peer); [apply kept_same; reflexivity|exact G].
      + match type of St with context [bool_decide ?b] => destruct (bool_decide b) end; [eapply Hq; [exact St|reflexivity|reflexivity|discriminate|discriminate]|].
        cbn zeta in St. match type of St with context [Z.eqb ?a ?b] => destruct (Z.eqb a b) end; cbn [fst] in St;
          [|eapply Hq; [exact St|reflexivity|reflexivity|discriminate|discriminate]].
        match type of St with context [Nat.eqb ?a ?b] => destruct (Nat.eqb a b) end; eapply Hq; [exact St|reflexivity|reflexivity|discriminate|discriminate
                                           |exact St|reflexivity|reflexivity|discriminate|discriminate].
      + destruct (c_msg c) as [w'|] eqn:Cm.
        * match type of St with context [bool_decide ?b] => destruct (bool_decide b) end; [|eapply Hq; [exact St|reflexivity|reflexivity|discriminate|discriminate]].
          eapply Share; [| | | | | |exact St]; try reflexivity; try discriminate.
          -- apply inv_set_requested. exact I.
          -- right. exists c. auto.
        * destruct (e_peer_ok E peer); [|eapply Hq; [exact St|reflexivity|reflexivity|discriminate|discriminate]].
          unfold processRequestMsgFromPeer in St. destruct (s_stored (run E C tr) !! c_key c);
            eapply Hq; [exact St|reflexivity|reflexivity|discriminate|discriminate
                       |exact St|reflexivity|reflexivity|discriminate|discriminate].
    - apply Hsame; [|discriminate|discriminate]. rewrite St.
      destruct (s_cur (run E C tr)) as [[[|b rest] key w']|] eqn:Hu; try (apply kept_same; reflexivity).
      assert (Go : forall s', s_cache s' = s_cache (run E C tr) -> (s_cur s' = None \/ s_cur s' = s_cur (run E C tr) \/ s_cur s' = Some (Cur rest key w')) ->
                kept (run E C tr) s').
      { intros s' X1 X2. split; [rewrite X1; reflexivity|]. intros (r & w'' & X).
        destruct X2 as [X2|[X2|X2]]; rewrite X2 in X; [discriminate X|exists r, w''; exact X|].
        injection X as <- -> <-. exists (b :: rest), w'. exact Hu. }
      unfold update_one. destruct (bool_decide _); [|apply Go; [reflexivity|auto]].
      destruct (b_routing b) as [[[| |id] to' bc]|]; try (solve [apply Go; [reflexivity|auto]]).
      destruct (cf_parties C !! id) as [kb'|]; [|apply Go; [reflexivity|auto]].
      destruct (GetMsgRound _ _ _ _ _) as [r|]; [|apply Go; [reflexivity|auto]].
      destruct (CheckMsgDuplication r id _); [apply Go; auto|].
      destruct (existsb _ _); (apply Go; [reflexivity|auto]).
    - apply Hsame; [|discriminate|discriminate]. rewrite St.
      destruct (s_cur (run E C tr)) as [[[|b rest] key w']|] eqn:Hu; try (apply kept_same; reflexivity).
      destruct (batch_done _); [|apply kept_same; reflexivity].
      destruct key as [k'|].
      2:{ split; [reflexivity|]. intros (r & w'' & X). discriminate X. }
      split; [|intros (r & w'' & X); discriminate X].
      cbn. rewrite lookup_delete_ne; [reflexivity|]. intros ->. apply (tk_cur _ IH). exists [], w'. exact Hu.
    - apply Hsame; [|discriminate|discriminate]. rewrite St. apply kept_same.
      + unfold work. destruct (s_pending _ !! j) as [x|]; [|reflexivity].
        destruct (GetMsgRound _ _ _ _ _); [|reflexivity].
        destruct res; [rewrite cache_processInvalid; reflexivity|reflexivity].
      + unfold work. destruct (s_pending _ !! j) as [x|]; [|reflexivity].
        destruct (GetMsgRound _ _ _ _ _); [|reflexivity].
        destruct res; [|reflexivity]. unfold processInvalidMsgBlame. destruct (AccPubKeysFromPartyIDs _ _ _); reflexivity.
    - apply Hsame; [|discriminate|discriminate]. rewrite St. apply kept_same.
      + unfold accept. destruct (s_updated _ !! j) as [x|]; [|reflexivity]. destruct (GetMsgRound _ _ _ _ _); reflexivity.
      + unfold accept. destruct (s_updated _ !! j) as [x|]; [|reflexivity]. destruct (GetMsgRound _ _ _ _ _); reflexivity.
  Qed.

  Lemma votes_size (votes : gmap string string) (P : list string) :
    NoDup P -> (forall p, p ∈ P -> is_Some (votes !! p)) -> length P <= size votes.
  Proof.
    intros D V. rewrite <- size_dom.
    assert (S : (list_to_set P : gset string) ⊆ dom votes).
    { intros p X. apply elem_of_list_to_set in X. apply elem_of_dom. auto. }
    apply subseteq_size in S. rewrite size_list_to_set in S by exact D. exact S.
  Qed.

  Theorem agreed_is_applied tr P :
    s_crash (run E C tr) = false -> no_conflict (handled E C tr) ->
    (exists p t, handled E C tr p (MShare t (Some w))) ->
    NoDup P -> cf_local C ∉ P ->
    (forall p, p ∈ P -> exists t v, handled E C tr p (MVer t (Some v)) /\ v_key v = k) ->
    (th <= Z.of_nat (length P) + 1)%Z ->
    exists tr1 tr2, tr = tr1 ++ tr2 /\ applying (run E C tr1).
  Proof.
    intros Hc N (p & t & Hs) D1 D2 Hp Hth. destruct (never_or tr) as [V|V]; [exfalso|exact V]. destruct (tracks_run tr Hc N V) as [T0 T1 T2 T3].
    destruct (T2 p t Hs) as (it & L & M & X). specialize (T3 it L M).
    assert (G : S (length P) <= size (it_votes it)).
    { apply (votes_size (it_votes it) (cf_local C :: P)); [constructor; assumption|].
      intros q Q. apply elem_of_cons in Q as [->|Q]; [eauto|]. destruct (Hp q Q) as (t' & v & Y1 & Y2).
      destruct (T1 q t' v Y1 Y2) as (it' & L' & Z). rewrite L in L'. injection L' as <-. eauto. }
    lia.
  Qed.
End Agree.
