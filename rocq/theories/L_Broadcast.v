(** Lemmas about the sending side. *)
From Coq Require Import ZArith NArith Ascii String List Lia.
From stdpp Require Import base list strings gmap.
From Verif Require Import Base L_Base M_Stream S_Stream L_Stream M_Comm M_Json M_Wire M_Broadcast S_Broadcast.
Local Arguments post_data : simpl never.

Lemma filter_insert_length {A} (P : A -> Prop) `{forall x, Decision (P x)} (l : list A) i x y :
  l !! i = Some y ->
  length (filter P (<[i := x]> l)) + (if decide (P y) then 1 else 0) =
  length (filter P l) + (if decide (P x) then 1 else 0).
Proof.
  revert i. induction l as [|a l IH]; intros [|i] Hl; cbn in Hl; try discriminate.
  - injection Hl as ->. change (<[0 := x]> (y :: l)) with (x :: l). rewrite !filter_cons.
    repeat destruct (decide _); cbn [length]; lia.
  - specialize (IH _ Hl). change (<[S i := x]> (a :: l)) with (a :: <[i := x]> l). rewrite !filter_cons.
    destruct (decide (P a)); cbn [length]; lia.
Qed.

Lemma brun_snoc self tr l : brun self (tr ++ [l]) = bstep self l (brun self tr).
Proof. unfold brun, brun_from. rewrite fold_left_app. reflexivity. Qed.
Lemma brun_app self tr tr' : brun self (tr ++ tr') = brun_from self (brun self tr) tr'.
Proof. unfold brun, brun_from. apply fold_left_app. Qed.

Definition ended (x : send) : Prop := sd_stat x = SEnd.
Global Instance ended_dec x : Decision (ended x).
Proof. unfold ended. destruct (sd_stat x); [right|right|left]; congruence. Defined.
Definition running (t : task) : Prop := tk_over t = false.
Global Instance running_dec t : Decision (running t).
Proof. unfold running. destruct (tk_over t); [right|left]; congruence. Defined.

Definition task_ok (self : string) (t : task) : Prop :=
  map sd_peer (tk_sends t) = po_peers (tk_post t) /\
  (tk_over t = true -> Forall ended (tk_sends t)) /\
  (forall i p st, tk_sends t !! i = Some (Send p (SOpen st)) -> p <> self).
Definition out_ok (self : string) (ts : list task) (o : out) : Prop :=
  exists t cap, ts !! ou_task o = Some t /\ ou_peer o <> self /\ ou_peer o ∈ po_peers (tk_post t) /\
    ou_id o = wr_id (po_msg (tk_post t)) /\
    ou_bytes o = wr_out (snd (WriteStreamWithBuffer (post_data (tk_post t)) (Writer [] cap))).
Definition ended_for (q : string) (t : task) : nat :=
  length (filter (fun x => sd_peer x = q /\ ended x) (tk_sends t)).
Record binv (self : string) (s : bstate) : Prop := {
  bi_acc : bs_accepted s = map tk_post (bs_tasks s) ++ bs_queue s;
  bi_wg : bs_wg s = ((if bs_loop s then 1 else 0) + Z.of_nat (length (filter running (bs_tasks s))))%Z;
  bi_nostop : bs_stop s = NoStop -> bs_loop s = true;
  bi_stopped : bs_stop s = Stopped -> bs_wg s = 0%Z;
  bi_tasks : Forall (task_ok self) (bs_tasks s);
  bi_out : Forall (out_ok self (bs_tasks s)) (bs_out s);
  bi_count : forall k t q, bs_tasks s !! k = Some t -> times_sent k q s <= ended_for q t;
  bi_open : forall st id, (st, id) ∈ bs_opened s -> in_use (bs_tasks s) st id \/ accounted s st id;
}.

Lemma get_send_Some k i ts t x : get_send k i ts = Some (t, x) <-> ts !! k = Some t /\ tk_sends t !! i = Some x.
Proof.
  unfold get_send. split.
  - destruct (ts !! k) as [t'|] eqn:E; [|discriminate]. destruct (tk_sends t' !! i) eqn:E2; [|discriminate].
    intros [= -> ->]. auto.
  - intros [-> ->]. reflexivity.
Qed.

(** What [set_send] does. *)
Lemma set_send_lookup k i x ts t :
  ts !! k = Some t -> set_send k i x ts = <[k := Task (tk_post t) (<[i := x]> (tk_sends t)) (tk_over t)]> ts.
Proof. intros H. unfold set_send. rewrite H. reflexivity. Qed.
Lemma set_send_posts k i x ts : map tk_post (set_send k i x ts) = map tk_post ts.
Proof.
  unfold set_send. destruct (ts !! k) as [t|] eqn:E; [|reflexivity].
  change (map tk_post ?l) with (tk_post <$> l). rewrite list_fmap_insert. cbn [tk_post].
  apply list_insert_id. rewrite list_lookup_fmap, E. reflexivity.
Qed.
Lemma set_send_running k i x ts : length (filter running (set_send k i x ts)) = length (filter running ts).
Proof.
  unfold set_send. destruct (ts !! k) as [t|] eqn:E; [|reflexivity].
  pose proof (filter_insert_length running ts k (Task (tk_post t) (<[i:=x]> (tk_sends t)) (tk_over t)) t E) as H.
  assert (Hd : (if decide (running t) then 1 else 0) = (if decide (running (Task (tk_post t) (<[i:=x]> (tk_sends t)) (tk_over t))) then 1 else 0)).
  { unfold running. cbn [tk_over]. repeat destruct (decide _); congruence. }
  lia.
Qed.
Lemma set_send_other k i x ts k' i' : (k', i') <> (k, i) -> forall t y, get_send k' i' ts = Some (t, y) ->
  exists t', get_send k' i' (set_send k i x ts) = Some (t', y) /\ tk_post t' = tk_post t /\ tk_over t' = tk_over t.
Proof.
  intros Hne t y Hg. apply get_send_Some in Hg as [H1 H2]. unfold set_send.
  destruct (ts !! k) as [t0|] eqn:E.
  - destruct (decide (k = k')) as [<-|Hk].
    + rewrite H1 in E. injection E as <-.
      eexists. split; [apply get_send_Some; split; [apply list_lookup_insert; apply lookup_lt_is_Some; eauto|]|].
      * cbn [tk_sends]. rewrite list_lookup_insert_ne; [exact H2|]. intros ->. apply Hne. reflexivity.
      * auto.
    + exists t. split; [|auto]. apply get_send_Some. rewrite list_lookup_insert_ne by exact Hk. auto.
  - exists t. split; [|auto]. apply get_send_Some. auto.
Qed.
Lemma set_send_task k i x ts t y k' t' :
  get_send k i ts = Some (t, y) -> set_send k i x ts !! k' = Some t' ->
  (k' <> k /\ ts !! k' = Some t') \/ (k' = k /\ t' = Task (tk_post t) (<[i := x]> (tk_sends t)) (tk_over t)).
Proof.
  intros Hg Hl. apply get_send_Some in Hg as [H1 H2]. rewrite (set_send_lookup _ _ _ _ _ H1) in Hl.
  destruct (decide (k' = k)) as [->|Hk].
  - right. rewrite list_lookup_insert in Hl by (apply lookup_lt_is_Some; eauto). split; [reflexivity|congruence].
  - left. rewrite list_lookup_insert_ne in Hl by congruence. auto.
Qed.
Lemma set_send_this k i x ts t y : get_send k i ts = Some (t, y) ->
  get_send k i (set_send k i x ts) = Some (Task (tk_post t) (<[i := x]> (tk_sends t)) (tk_over t), x).
Proof.
  intros Hg. apply get_send_Some in Hg as [H1 H2]. rewrite (set_send_lookup _ _ _ _ _ H1).
  apply get_send_Some. split; [apply list_lookup_insert; apply lookup_lt_is_Some; eauto|].
  cbn [tk_sends]. apply list_lookup_insert. apply lookup_lt_is_Some. eauto.
Qed.

Lemma set_send_ok self k i p stat0 stat ts t :
  get_send k i ts = Some (t, Send p stat0) -> stat0 <> SEnd -> (forall st, stat = SOpen st -> p <> self) ->
  Forall (task_ok self) ts -> Forall (task_ok self) (set_send k i (Send p stat) ts).
Proof.
  intros Hg Hs Hp Hf. apply Forall_lookup. intros k' t' Hl.
  destruct (set_send_task _ _ _ _ _ _ _ _ Hg Hl) as [[_ H]|[-> ->]].
  - eapply Forall_lookup_1; eauto.
  - apply get_send_Some in Hg as [H1 H2]. destruct (Forall_lookup_1 _ _ _ _ Hf H1) as (Ha & Hb & Hc).
    split; [|split]; cbn [tk_sends tk_post tk_over].
    + rewrite <- Ha. change (map sd_peer ?l) with (sd_peer <$> l). rewrite list_fmap_insert. apply list_insert_id.
      rewrite list_lookup_fmap, H2. reflexivity.
    + intros Ho. specialize (Hb Ho). exfalso. apply Hs. exact (Forall_lookup_1 _ _ _ _ Hb H2).
    + intros i' p' st Hi'. destruct (decide (i' = i)) as [->|Hne].
      * rewrite list_lookup_insert in Hi' by (apply lookup_lt_is_Some; eauto). injection Hi' as <- ->. eauto.
      * rewrite list_lookup_insert_ne in Hi' by congruence. eauto.
Qed.
Lemma set_send_out self k i p stat0 stat ts t os :
  get_send k i ts = Some (t, Send p stat0) ->
  Forall (out_ok self ts) os -> Forall (out_ok self (set_send k i (Send p stat) ts)) os.
Proof.
  intros Hg Hf. eapply Forall_impl; [exact Hf|]. intros o (t' & cap & H1 & H2 & H3 & H4 & H5).
  assert (Hx : exists t'', set_send k i (Send p stat) ts !! ou_task o = Some t'' /\ tk_post t'' = tk_post t').
  { pose proof (set_send_posts k i (Send p stat) ts) as Hp.
    assert (Hl : map tk_post (set_send k i (Send p stat) ts) !! ou_task o = Some (tk_post t')).
    { rewrite Hp. change (map tk_post ts) with (tk_post <$> ts). rewrite list_lookup_fmap, H1. reflexivity. }
    change (map tk_post ?l) with (tk_post <$> l) in Hl. rewrite list_lookup_fmap in Hl.
    destruct (set_send k i (Send p stat) ts !! ou_task o) as [t''|]; [|discriminate]. injection Hl as Hl. eauto. }
  destruct Hx as (t'' & Hx & Hy). exists t'', cap. rewrite Hy. auto.
Qed.
Lemma set_send_use k i p ts t st id stat :
  get_send k i ts = Some (t, Send p SReady) -> in_use ts st id -> in_use (set_send k i (Send p stat) ts) st id.
Proof.
  intros Hg (k' & i' & t' & p' & Hu & Hid).
  assert (Hne : (k', i') <> (k, i)) by (intros [= -> ->]; congruence).
  destruct (set_send_other _ _ (Send p stat) _ _ _ Hne _ _ Hu) as (t'' & H1 & H2 & _).
  exists k', i', t'', p'. rewrite H2. auto.
Qed.
Lemma ended_for_mono k i p stat0 stat ts t k' t' q :
  get_send k i ts = Some (t, Send p stat0) -> stat0 <> SEnd -> set_send k i (Send p stat) ts !! k' = Some t' ->
  exists t0, ts !! k' = Some t0 /\ ended_for q t0 <= ended_for q t' /\
    (stat = SEnd -> k' = k -> q = p -> S (ended_for q t0) <= ended_for q t').
Proof.
  intros Hg Hs Hl. destruct (set_send_task _ _ _ _ _ _ _ _ Hg Hl) as [[Hk H]|[-> ->]].
  - exists t'. split; [exact H|]. split; [lia|congruence].
  - apply get_send_Some in Hg as [H1 H2]. exists t. split; [exact H1|].
    unfold ended_for. cbn [tk_sends].
    pose proof (filter_insert_length (fun x => sd_peer x = q /\ ended x) (tk_sends t) i (Send p stat) _ H2) as Hf.
    destruct (decide (sd_peer (Send p stat0) = q /\ ended (Send p stat0))) as [[_ He]|_].
    { exfalso. apply Hs. exact He. }
    split; [lia|]. intros -> _ ->. destruct (decide (sd_peer (Send p SEnd) = p /\ ended (Send p SEnd))) as [_|Hn]; [lia|].
    exfalso. apply Hn. split; reflexivity.
Qed.

Lemma AddStream_lookup id st (m : gmap string (list nat)) :
  exists l, AddStream id (Some st) m !! id = Some l /\ st ∈ l.
Proof.
  unfold AddStream. destruct (m !! id) as [l|]; rewrite lookup_insert; eexists; (split; [reflexivity|]); set_solver.
Qed.
Lemma AddStream_keep id st (m : gmap string (list nat)) id' l st' :
  m !! id' = Some l -> st' ∈ l -> exists l', AddStream id (Some st) m !! id' = Some l' /\ st' ∈ l'.
Proof.
  intros Hm Hin. unfold AddStream. destruct (decide (id' = id)) as [->|Hne].
  - rewrite Hm, lookup_insert. eexists. split; [reflexivity|]. set_solver.
  - destruct (m !! id); rewrite lookup_insert_ne by congruence; eauto.
Qed.

Lemma times_sent_app k q os o :
  length (filter (fun o => ou_task o = k /\ ou_peer o = q) (os ++ [o])) =
  length (filter (fun o => ou_task o = k /\ ou_peer o = q) os) + (if decide (ou_task o = k /\ ou_peer o = q) then 1 else 0).
Proof. rewrite filter_app, app_length, filter_cons. destruct (decide _); reflexivity. Qed.

Lemma binv_init self : binv self b_init.
Proof. constructor; cbn; auto; try discriminate. all: intros; set_solver. Qed.

Lemma binv_step self s l : binv self s -> binv self (bstep self l s).
Proof.
  intros Hi. destruct s as [acc q lp ts wg stp cr op os m rs]. unfold bstep. destruct cr; [exact Hi|].
  destruct Hi as [H1 H2 H3 H4 H5 H6 H7 H8].
  cbn [bs_accepted bs_queue bs_loop bs_tasks bs_wg bs_stop bs_out bs_opened times_sent] in *.
  assert (Hself : binv self (BState acc q lp ts wg stp false op os m rs)) by (constructor; assumption).
  destruct l as [p| | |k i r|k i cap|k| | |id].
  - destruct (Nat.ltb _ _); [|exact Hself].
    constructor; cbn [bs_accepted bs_queue bs_loop bs_tasks bs_wg bs_stop bs_out bs_opened]; auto.
    rewrite H1, app_assoc. reflexivity.
  - destruct lp; [|exact Hself]. destruct q as [|p q']; [exact Hself|].
    assert (Hgen : forall t, tk_post t = p -> task_ok self t -> (forall i x st, tk_sends t !! i <> Some (Send x (SOpen st))) ->
      binv self (BState acc q' true (ts ++ [t]) (wg + (if tk_over t then 0 else 1)) stp false op os m rs)).
    { intros t Htp Hok Hno. constructor; cbn [bs_accepted bs_queue bs_loop bs_tasks bs_wg bs_stop bs_out bs_opened].
      - rewrite map_app, <- app_assoc. cbn [map app]. rewrite Htp. exact H1.
      - rewrite filter_app, app_length, H2, filter_cons.
        destruct (decide (running t)) as [Hr|Hr]; unfold running in Hr; destruct (tk_over t); try congruence; cbn [length filter list_filter]; lia.
      - exact H3.
      - intros Hst. specialize (H4 Hst). exfalso. rewrite H2 in H4. lia.
      - apply Forall_app. split; [exact H5|]. constructor; [exact Hok|constructor].
      - eapply Forall_impl; [exact H6|]. intros o (t' & cap & Ha & Hb). exists t', cap. split; [apply lookup_app_l_Some; exact Ha|exact Hb].
      - intros k t' x Hk. unfold times_sent. cbn [bs_out]. apply lookup_app_Some in Hk as [Hk|[Hk Hk']]; [apply H7; exact Hk|].
        assert (Hz : filter (fun o => ou_task o = k /\ ou_peer o = x) os = []).
        { clear -H6 Hk. induction os as [|o os IH]; [reflexivity|]. inversion_clear H6 as [|? ? Ho Hos].
          rewrite filter_cons. destruct (decide _) as [[Hx _]|_]; [|auto].
          destruct Ho as (t'' & cap & Ha & _). apply lookup_lt_Some in Ha. lia. }
        rewrite Hz. cbn. lia.
      - intros st id Hin. destruct (H8 st id Hin) as [(k & i & t' & p' & Hg & Hid)|Ha]; [left|right; exact Ha].
        apply get_send_Some in Hg as [Hg1 Hg2]. exists k, i, t', p'. split; [|exact Hid]. apply get_send_Some.
        split; [apply lookup_app_l_Some; exact Hg1|exact Hg2]. }
    destruct (po_peers p) as [|p0 ps] eqn:Ep.
    + specialize (Hgen (Task p [] true) eq_refl). cbn [tk_over] in Hgen. rewrite Z.add_0_r in Hgen. apply Hgen.
      * split; [cbn; congruence|]. split; [constructor|]. intros i p' st Hx. cbn in Hx. rewrite lookup_nil in Hx. discriminate.
      * intros i x st Hx. cbn in Hx. rewrite lookup_nil in Hx. discriminate.
    + rewrite <- Ep. apply (Hgen (Task p (map (fun x => Send x SReady) (po_peers p)) false) eq_refl).
      * split; [|split; [discriminate|]].
        -- cbn [tk_sends tk_post]. rewrite map_map. cbn. apply map_id.
        -- intros i p' st Hx. cbn [tk_sends] in Hx. change (map ?f ?l) with (f <$> l) in Hx. rewrite list_lookup_fmap in Hx.
           destruct (po_peers p !! i); discriminate.
      * intros i x st Hx. cbn [tk_sends] in Hx. change (map ?f ?l) with (f <$> l) in Hx. rewrite list_lookup_fmap in Hx.
        destruct (po_peers p !! i); discriminate.
  - destruct lp; [|exact Hself].
    assert (Hx : stp <> NoStop -> binv self (BState acc q false ts (wg - 1) stp false op os m rs)).
    { intros Hn. constructor; cbn [bs_accepted bs_queue bs_loop bs_tasks bs_wg bs_stop bs_out bs_opened]; auto.
      - lia.
      - intros Hst. specialize (H4 Hst). lia. }
    destruct stp; [exact Hself|apply Hx; discriminate|apply Hx; discriminate].
  - destruct (get_send k i ts) as [[t [p [|st|]]]|] eqn:Eg; try exact Hself.
    assert (Hgen : forall stat op', (forall st, stat = SOpen st -> p <> self) ->
      (forall st id, (st, id) ∈ op' -> (st, id) ∈ op \/ in_use (set_send k i (Send p stat) ts) st id) ->
      binv self (BState acc q lp (set_send k i (Send p stat) ts) wg stp false op' os m rs)).
    { intros stat op' Hst Hop. constructor; cbn [bs_accepted bs_queue bs_loop bs_tasks bs_wg bs_stop bs_out bs_opened]; auto.
      - rewrite set_send_posts. exact H1.
      - rewrite set_send_running. exact H2.
      - eapply set_send_ok; eauto; try discriminate.
      - eapply set_send_out; eauto.
      - intros k' t' x Hk'. destruct (ended_for_mono _ _ _ _ _ _ _ _ _ x Eg ltac:(discriminate) Hk') as (t0 & Ht0 & Hle & _).
        specialize (H7 k' t0 x Ht0). unfold times_sent in *. cbn [bs_out] in *. lia.
      - intros st id Hin. destruct (Hop st id Hin) as [Hin'|Hu]; [|auto].
        destruct (H8 st id Hin') as [Hu|Ha]; [left; eapply set_send_use; eauto|right; exact Ha]. }
    destruct (String.eqb_spec p self) as [Hp|Hp].
    + apply Hgen; [discriminate|auto].
    + destruct r as [st|]; [|apply Hgen; [discriminate|auto]].
      apply Hgen; [auto|]. intros st' id Hin. apply elem_of_app in Hin as [Hin|Hin]; [auto|].
      apply elem_of_list_singleton in Hin. injection Hin as -> ->. right.
      eexists k, i, _, p. split; [eapply set_send_this; eauto|reflexivity].
  - destruct (get_send k i ts) as [[t [p [|st|]]]|] eqn:Eg; try exact Hself.
    assert (Hpe : p <> self /\ p ∈ po_peers (tk_post t)).
    { apply get_send_Some in Eg as [Ea Eb]. destruct (Forall_lookup_1 _ _ _ _ H5 Ea) as (Hx & _ & Hy).
      split; [eauto|]. rewrite <- Hx. apply elem_of_list_fmap. eexists. split; [|eapply elem_of_list_lookup_2; exact Eb]. reflexivity. }
    constructor; cbn [bs_accepted bs_queue bs_loop bs_tasks bs_wg bs_stop bs_out bs_opened]; auto.
    + rewrite set_send_posts. exact H1.
    + rewrite set_send_running. exact H2.
    + eapply set_send_ok; eauto; try discriminate.
    + apply Forall_app. split; [eapply set_send_out; eauto|]. constructor; [|constructor].
      pose proof (set_send_this k i (Send p SEnd) ts t _ Eg) as Hthis. apply get_send_Some in Hthis as [Ht _].
      eexists _, cap. split; [exact Ht|]. cbn. tauto.
    + intros k' t' x Hk'. destruct (ended_for_mono _ _ _ _ _ _ _ _ _ x Eg ltac:(discriminate) Hk') as (t0 & Ht0 & Hle & Hlt).
      specialize (H7 k' t0 x Ht0). unfold times_sent in *. cbn [bs_out] in *. rewrite times_sent_app. cbn [ou_task ou_peer].
      destruct (decide (k = k' /\ p = x)) as [[<- <-]|_]; [specialize (Hlt eq_refl eq_refl eq_refl)|]; lia.
    + intros st' id Hin. destruct (H8 st' id Hin) as [(k' & i' & t' & p' & Hg' & Hid)|Ha].
      * destruct (decide ((k', i') = (k, i))) as [[= -> ->]|Hne].
        -- right. left. rewrite Eg in Hg'. injection Hg' as <- <- <-. subst id. cbn [bs_mgr]. apply AddStream_lookup.
        -- left. destruct (set_send_other _ _ (Send p SEnd) _ _ _ Hne _ _ Hg') as (t'' & Ha & Hb & _).
           exists k', i', t'', p'. rewrite Hb. auto.
      * right. destruct Ha as [(l & Hm & Hl)|Hr]; [left|right; exact Hr]. cbn [bs_mgr] in *. eapply AddStream_keep; eauto.
  - destruct (ts !! k) as [[p l [|]]|] eqn:Ek; try exact Hself.
    destruct (forallb is_end l) eqn:Ef; [|exact Hself].
    assert (Hall : Forall ended l).
    { apply Forall_forall. intros x Hx. apply elem_of_list_In in Hx. rewrite forallb_forall in Ef. specialize (Ef x Hx).
      unfold ended, is_end in *. destruct (sd_stat x); [discriminate|discriminate|reflexivity]. }
    assert (Hpost : map tk_post (<[k:=Task p l true]> ts) = map tk_post ts).
    { change (map tk_post ?x) with (tk_post <$> x). rewrite list_fmap_insert. apply list_insert_id. rewrite list_lookup_fmap, Ek. reflexivity. }
    assert (Hlk : forall k' t', <[k:=Task p l true]> ts !! k' = Some t' ->
      exists t0, ts !! k' = Some t0 /\ tk_post t0 = tk_post t' /\ tk_sends t0 = tk_sends t').
    { intros k' t' Hk'. destruct (decide (k' = k)) as [->|Hne].
      - rewrite list_lookup_insert in Hk' by (apply lookup_lt_is_Some; eauto). injection Hk' as <-. eauto.
      - rewrite list_lookup_insert_ne in Hk' by congruence. eauto. }
    assert (Hlk2 : forall k' t', ts !! k' = Some t' ->
      exists t0, <[k:=Task p l true]> ts !! k' = Some t0 /\ tk_post t0 = tk_post t' /\ tk_sends t0 = tk_sends t').
    { intros k' t' Hk'. destruct (decide (k' = k)) as [->|Hne].
      - rewrite Ek in Hk'. injection Hk' as <-. eexists. split; [apply list_lookup_insert; apply lookup_lt_is_Some; eauto|]. auto.
      - eexists. split; [rewrite list_lookup_insert_ne by congruence; exact Hk'|]. auto. }
    constructor; cbn [bs_accepted bs_queue bs_loop bs_tasks bs_wg bs_stop bs_out bs_opened]; auto.
    + rewrite Hpost. exact H1.
    + pose proof (filter_insert_length running ts k (Task p l true) _ Ek) as Hf.
      destruct (decide (running (Task p l false))) as [_|Hn]; [|exfalso; apply Hn; reflexivity].
      destruct (decide (running (Task p l true))) as [Hr|_]; [discriminate|]. lia.
    + intros Hst. specialize (H4 Hst). exfalso.
      pose proof (filter_insert_length running ts k (Task p l true) _ Ek) as Hf.
      destruct (decide (running (Task p l false))) as [_|Hn]; [|apply Hn; reflexivity].
      destruct (decide (running (Task p l true))) as [Hr|_]; [discriminate|]. destruct lp; lia.
    + apply Forall_lookup. intros k' t' Hk'. destruct (decide (k' = k)) as [->|Hne].
      * rewrite list_lookup_insert in Hk' by (apply lookup_lt_is_Some; eauto). injection Hk' as <-.
        destruct (Forall_lookup_1 _ _ _ _ H5 Ek) as (Ha & _ & Hc). split; [exact Ha|]. split; [intros _; exact Hall|exact Hc].
      * rewrite list_lookup_insert_ne in Hk' by congruence. eapply Forall_lookup_1; eauto.
    + eapply Forall_impl; [exact H6|]. intros o (t' & cap & Ha & Hb). destruct (Hlk2 _ _ Ha) as (t0 & Hc & Hd & _).
      exists t0, cap. rewrite Hd. auto.
    + intros k' t' x Hk'. destruct (Hlk _ _ Hk') as (t0 & Ht0 & _ & Hs). specialize (H7 k' t0 x Ht0).
      unfold ended_for in *. rewrite <- Hs. exact H7.
    + intros st id Hin. destruct (H8 st id Hin) as [(k' & i' & t' & p' & Hg' & Hid)|Ha]; [left|right; exact Ha].
      apply get_send_Some in Hg' as [Ha Hb]. destruct (Hlk2 _ _ Ha) as (t0 & Hc & Hd & He).
      exists k', i', t0, p'. rewrite Hd. split; [|exact Hid]. apply get_send_Some. rewrite He. auto.
  - destruct stp; constructor; cbn [bs_accepted bs_queue bs_loop bs_tasks bs_wg bs_stop bs_out bs_opened]; auto; discriminate.
  - destruct stp; try exact Hself. destruct (Z.eqb_spec wg 0) as [Hw|Hw]; [|exact Hself].
    constructor; cbn [bs_accepted bs_queue bs_loop bs_tasks bs_wg bs_stop bs_out bs_opened]; auto; discriminate.
  - unfold ReleaseStream, release_read.
    set (strs := default [] (m !! id) ++ default [] (m !! UNKNOWN)).
    assert (Hx : forall m' rs', (forall st i l, m !! i = Some l -> st ∈ l -> (exists l', m' !! i = Some l' /\ st ∈ l') \/ st ∈ rs') ->
       (forall st, st ∈ rs -> st ∈ rs') -> binv self (BState acc q lp ts wg stp false op os m' rs')).
    { intros m' rs' Hm Hr. constructor; cbn [bs_accepted bs_queue bs_loop bs_tasks bs_wg bs_stop bs_out bs_opened]; auto.
      intros st i Hin. destruct (H8 st i Hin) as [Hu|Ha]; [auto|right]. destruct Ha as [(l & Hl & Hs)|Hs].
      - destruct (Hm _ _ _ Hl Hs) as [He|He]; [left; exact He|right; exact He].
      - right. apply Hr. exact Hs. }
    assert (Hy : binv self (BState acc q lp ts wg stp false op os (delete id m) (rs ++ strs))).
    { apply Hx; [|intros; apply elem_of_app; auto]. intros st i l Hl Hs. destruct (decide (i = id)) as [->|Hne].
      - right. apply elem_of_app. right. unfold strs. rewrite Hl. apply elem_of_app. left. exact Hs.
      - left. exists l. rewrite lookup_delete_ne by congruence. auto. }
    assert (Hz : binv self (BState acc q lp ts wg stp false op os m (rs ++ []))) by (rewrite app_nil_r; exact Hself).
    destruct (m !! id), (m !! UNKNOWN); cbn [fst snd]; assumption.
Qed.

Lemma binv_run self tr : binv self (brun self tr).
Proof.
  induction tr as [|l tr IH] using rev_ind; [apply binv_init|]. rewrite brun_snoc. apply binv_step. exact IH.
Qed.
