(** Lemmas about the sending side: schedules that finish the work. *)
From Coq Require Import ZArith NArith Ascii String List Lia.
From stdpp Require Import base list strings gmap.
From Verif Require Import Base L_Base M_Stream S_Stream L_Stream M_Comm M_Json M_Wire M_Broadcast S_Broadcast L_Broadcast.
Local Arguments post_data : simpl never.

Lemma brun_from_app self s tr tr' : brun_from self s (tr ++ tr') = brun_from self (brun_from self s tr) tr'.
Proof. apply fold_left_app. Qed.

Lemma crash_stop self tr : bs_crash (brun self tr) = true -> bs_stop (brun self tr) <> NoStop.
Proof.
  induction tr as [|l tr IH] using rev_ind; [discriminate|]. rewrite brun_snoc. revert IH.
  destruct (brun self tr) as [acc q lp ts wg stp cr op os m rs]. cbn [bs_crash bs_stop]. intros IH. unfold bstep.
  destruct cr; [exact IH|].
  destruct l as [p| | |k i r|k i cap|k| | |id];
    repeat match goal with
      | |- context [match ?x with _ => _ end] => destruct x
      end; cbn [bs_crash bs_stop]; congruence.
Qed.

(** What stays: everything but the streams, the output and the state of the goroutines. *)
Record same (s s' : bstate) : Prop := {
  sm_crash : bs_crash s' = bs_crash s;
  sm_loop : bs_loop s' = bs_loop s;
  sm_queue : bs_queue s' = bs_queue s;
  sm_stop : bs_stop s' = bs_stop s;
  sm_wg : bs_wg s' = bs_wg s;
  sm_acc : bs_accepted s' = bs_accepted s;
  sm_posts : map tk_post (bs_tasks s') = map tk_post (bs_tasks s);
  sm_over : map tk_over (bs_tasks s') = map tk_over (bs_tasks s);
  sm_out : exists l, bs_out s' = bs_out s ++ l;
}.
Lemma same_refl s : same s s.
Proof. constructor; auto. exists []. rewrite app_nil_r. reflexivity. Qed.
Lemma same_trans s1 s2 s3 : same s1 s2 -> same s2 s3 -> same s1 s3.
Proof.
  intros [A1 A2 A3 A4 A5 A6 A7 A8 [l1 A9]] [B1 B2 B3 B4 B5 B6 B7 B8 [l2 B9]].
  constructor; try congruence. exists (l1 ++ l2). rewrite B9, A9, app_assoc. reflexivity.
Qed.
Definition status (s : bstate) (k i : nat) : option send := snd <$> get_send k i (bs_tasks s).

Lemma set_send_over k i x ts : map tk_over (set_send k i x ts) = map tk_over ts.
Proof.
  unfold set_send. destruct (ts !! k) as [t|] eqn:E; [|reflexivity].
  change (map tk_over ?l) with (tk_over <$> l). rewrite list_fmap_insert. cbn [tk_over].
  apply list_insert_id. rewrite list_lookup_fmap, E. reflexivity.
Qed.
Lemma set_send_status k i x ts k' i' : (k', i') <> (k, i) ->
  snd <$> get_send k' i' (set_send k i x ts) = snd <$> get_send k' i' ts.
Proof.
  intros Hne. destruct (get_send k' i' ts) as [[t y]|] eqn:E.
  - destruct (set_send_other k i x ts k' i' Hne t y E) as (t' & -> & _). reflexivity.
  - unfold set_send. destruct (ts !! k) as [t|] eqn:Ek; [|rewrite E; reflexivity].
    destruct (get_send k' i' (<[k:=_]> ts)) as [[t' y]|] eqn:E'; [|reflexivity]. exfalso.
    apply get_send_Some in E' as [E1 E2]. destruct (decide (k' = k)) as [->|Hk].
    + rewrite list_lookup_insert in E1 by (apply lookup_lt_is_Some; eauto). injection E1 as <-. cbn [tk_sends] in E2.
      rewrite list_lookup_insert_ne in E2 by congruence.
      assert (Hx : get_send k i' ts = Some (t, y)) by (apply get_send_Some; auto). congruence.
    + rewrite list_lookup_insert_ne in E1 by congruence.
      assert (Hx : get_send k' i' ts = Some (t', y)) by (apply get_send_Some; auto). congruence.
Qed.

(** One goroutine runs to its end. *)
Definition push (s : bstate) (k i : nat) : list blabel :=
  match get_send k i (bs_tasks s) with
  | Some (t, _) => [BOpen k i (Some 0); BWrite k i (4 + length (post_data (tk_post t)))]
  | None => []
  end.
Lemma write_frame msg : (N.of_nat (length msg) <= limit)%N ->
  frame msg (wr_out (snd (WriteStreamWithBuffer msg (Writer [] (4 + length msg))))).
Proof.
  intros Hl. pose proof (write_spec msg (Writer [] (4 + length msg))) as H. cbn zeta in H.
  destruct (WriteStreamWithBuffer msg (Writer [] (4 + length msg))) as [ok w]. destruct H as (H1 & _ & H3).
  assert (ok = true) as -> by (apply H3; rewrite app_length, put_uint32_length; cbn [wr_cap]; lia).
  cbn [snd]. rewrite H1 by reflexivity. cbn [wr_out]. rewrite N.mod_small by (unfold limit in Hl; lia).
  eexists. split; [|reflexivity]. apply put_header. unfold limit in Hl. lia.
Qed.

Lemma write_one self s k i t p st :
  bs_crash s = false -> get_send k i (bs_tasks s) = Some (t, Send p (SOpen st)) ->
  let s' := bstep self (BWrite k i (4 + length (post_data (tk_post t)))) s in
  same s s' /\ (forall k' i', (k', i') <> (k, i) -> status s' k' i' = status s k' i') /\
  status s' k i = Some (Send p SEnd) /\
  ((N.of_nat (length (post_data (tk_post t))) <= limit)%N -> delivered s' k p (post_data (tk_post t))).
Proof.
  destruct s as [acc q lp ts wg stp cr op os m rs]. cbn [bs_crash bs_tasks]. intros -> Hg. cbn zeta.
  unfold bstep. rewrite Hg. unfold status.
  split; [constructor; cbn [bs_crash bs_loop bs_queue bs_stop bs_wg bs_accepted bs_tasks bs_out]; auto; try (eexists; reflexivity)|].
  - apply set_send_posts.
  - apply set_send_over.
  - cbn [bs_tasks]. split; [intros; apply set_send_status; assumption|].
    split; [rewrite (set_send_this _ _ _ _ _ _ Hg); reflexivity|].
    intros Hl. eexists. split; [cbn [bs_out]; apply elem_of_app; right; left|]. cbn. split; [reflexivity|]. split; [reflexivity|].
    apply write_frame. exact Hl.
Qed.

Lemma push_one self s k i :
  bs_crash s = false ->
  let s' := brun_from self s (push s k i) in
  same s s' /\ (forall k' i', (k', i') <> (k, i) -> status s' k' i' = status s k' i') /\
  (forall x, status s k i = Some x -> status s' k i = Some (Send (sd_peer x) SEnd)) /\
  (status s k i = None -> status s' k i = None) /\
  (forall t x, get_send k i (bs_tasks s) = Some (t, x) -> sd_stat x <> SEnd -> sd_peer x <> self ->
     (N.of_nat (length (post_data (tk_post t))) <= limit)%N -> delivered s' k (sd_peer x) (post_data (tk_post t))).
Proof.
  intros Hc. unfold push. destruct (get_send k i (bs_tasks s)) as [[t [p stat]]|] eqn:Hg.
  2:{ cbn [brun_from fold_left]. split; [apply same_refl|]. split; [auto|]. unfold status. rewrite Hg. split; [discriminate|]. split; [auto|]. discriminate. }
  cbn [brun_from fold_left]. set (n := 4 + length (post_data (tk_post t))).
  assert (Hst : status s k i = Some (Send p stat)) by (unfold status; rewrite Hg; reflexivity).
  destruct stat as [|st|].
  - assert (Hs1 : exists y, (p = self -> y = SEnd) /\ (p <> self -> y = SOpen 0) /\
        let s1 := bstep self (BOpen k i (Some 0)) s in same s s1 /\ bs_crash s1 = false /\ bs_tasks s1 = set_send k i (Send p y) (bs_tasks s)).
    { destruct s as [acc q lp ts wg stp cr op os m rs]. cbn [bs_crash bs_tasks] in *. subst cr. unfold bstep. rewrite Hg.
      destruct (String.eqb_spec p self) as [Hp|Hp].
      - exists SEnd. split; [auto|]. split; [congruence|]. split; [|auto].
        constructor; cbn [bs_crash bs_loop bs_queue bs_stop bs_wg bs_accepted bs_tasks bs_out]; auto using set_send_posts, set_send_over.
        exists []. rewrite app_nil_r. reflexivity.
      - exists (SOpen 0). split; [congruence|]. split; [auto|]. split; [|auto].
        constructor; cbn [bs_crash bs_loop bs_queue bs_stop bs_wg bs_accepted bs_tasks bs_out]; auto using set_send_posts, set_send_over.
        exists []. rewrite app_nil_r. reflexivity. }
    destruct Hs1 as (y & Hy1 & Hy2 & Hsm & Hc1 & Ht1). revert Hsm Hc1 Ht1.
    generalize (bstep self (BOpen k i (Some 0)) s). intros s1 Hsm Hc1 Ht1.
    pose proof (set_send_this k i (Send p y) _ _ _ Hg) as Hg1. rewrite <- Ht1 in Hg1.
    assert (Hoth : forall k' i', (k', i') <> (k, i) -> status s1 k' i' = status s k' i').
    { intros k' i' Hne. unfold status. rewrite Ht1. apply set_send_status. exact Hne. }
    destruct (decide (p = self)) as [Hp|Hp].
    + rewrite (Hy1 Hp) in Hg1. assert (Hid : bstep self (BWrite k i n) s1 = s1).
      { destruct s1 as [acc q lp ts wg stp cr op os m rs]. cbn [bs_crash bs_tasks] in *. subst cr. unfold bstep. rewrite Hg1. reflexivity. }
      rewrite Hid. split; [exact Hsm|]. split; [exact Hoth|]. split; [|split; [congruence|]].
      * intros x Hx. rewrite Hst in Hx. injection Hx as <-. unfold status. rewrite Hg1. reflexivity.
      * intros t' x [= <- <-] _ Hne. cbn in Hne. congruence.
    + rewrite (Hy2 Hp) in Hg1. pose proof (write_one self s1 k i _ p 0 Hc1 Hg1) as Hw. cbn [tk_post] in Hw. fold n in Hw. cbn zeta in Hw.
      revert Hw. generalize (bstep self (BWrite k i n) s1). intros s2 (Hw1 & Hw2 & Hw3 & Hw4).
      split; [eapply same_trans; eauto|]. split; [intros k' i' Hne; rewrite Hw2, Hoth by exact Hne; reflexivity|].
      split; [|split; [congruence|]].
      * intros x Hx. rewrite Hst in Hx. injection Hx as <-. exact Hw3.
      * intros t' x [= <- <-] _ _ Hl. apply Hw4. exact Hl.
  - assert (Hid : bstep self (BOpen k i (Some 0)) s = s).
    { destruct s as [acc q lp ts wg stp cr op os m rs]. cbn [bs_crash bs_tasks] in *. subst cr. unfold bstep. rewrite Hg. reflexivity. }
    rewrite Hid. destruct (write_one self s k i _ p st Hc Hg) as (Hw1 & Hw2 & Hw3 & Hw4). fold n in Hw1, Hw2, Hw3, Hw4.
    split; [exact Hw1|]. split; [exact Hw2|]. split; [|split; [congruence|]].
    + intros x Hx. rewrite Hst in Hx. injection Hx as <-. exact Hw3.
    + intros t' x [= <- <-] _ _ Hl. apply Hw4. exact Hl.
  - assert (Hid : forall l, l = BOpen k i (Some 0) \/ l = BWrite k i n -> bstep self l s = s).
    { intros l Hl. destruct s as [acc q lp ts wg stp cr op os m rs]. cbn [bs_crash bs_tasks] in *. subst cr.
      destruct Hl as [-> | ->]; unfold bstep; rewrite Hg; reflexivity. }
    rewrite (Hid (BOpen k i (Some 0))), (Hid (BWrite k i n)) by auto.
    split; [apply same_refl|]. split; [auto|]. split; [|split; [auto|]].
    + intros x Hx. rewrite Hst in Hx. injection Hx as <-. exact Hst.
    + intros t' x [= <- <-] Hne. cbn in Hne. congruence.
Qed.

Fixpoint plan (self : string) (s : bstate) (L : list (nat * nat)) : list blabel :=
  match L with
  | [] => []
  | (k, i) :: L' => push s k i ++ plan self (brun_from self s (push s k i)) L'
  end.

Lemma delivered_mono s s' k q d : same s s' -> delivered s k q d -> delivered s' k q d.
Proof. intros Hs (o & H1 & H2). destruct (sm_out _ _ Hs) as [l Hl]. exists o. rewrite Hl. split; [apply elem_of_app; auto|exact H2]. Qed.
Lemma same_post s s' k i t x t' x' : same s s' -> get_send k i (bs_tasks s) = Some (t, x) ->
  get_send k i (bs_tasks s') = Some (t', x') -> tk_post t' = tk_post t.
Proof.
  intros Hs H1 H2. apply get_send_Some in H1 as [H1 _], H2 as [H2 _].
  assert (Ha : map tk_post (bs_tasks s') !! k = map tk_post (bs_tasks s) !! k) by (rewrite (sm_posts _ _ Hs); reflexivity).
  change (map tk_post ?l) with (tk_post <$> l) in Ha. rewrite !list_lookup_fmap, H1, H2 in Ha. cbn in Ha. congruence.
Qed.

Lemma plan_spec self L : forall s, bs_crash s = false ->
  let s' := brun_from self s (plan self s L) in
  same s s' /\ (forall k i, (k, i) ∉ L -> status s' k i = status s k i) /\
  (forall k i x, (k, i) ∈ L -> status s k i = Some x -> status s' k i = Some (Send (sd_peer x) SEnd)) /\
  (forall k i t x, (k, i) ∈ L -> get_send k i (bs_tasks s) = Some (t, x) -> sd_stat x <> SEnd -> sd_peer x <> self ->
     (N.of_nat (length (post_data (tk_post t))) <= limit)%N -> delivered s' k (sd_peer x) (post_data (tk_post t))) /\
  Forall (fun l => exists k i, (k, i) ∈ L /\ ((exists r, l = BOpen k i r) \/ (exists n, l = BWrite k i n))) (plan self s L).
Proof.
  induction L as [|[k i] L IH]; intros s Hc; cbn zeta.
  - cbn [plan brun_from fold_left]. split; [apply same_refl|]. split; [auto|]. split; [intros k i x Hx; inversion Hx|]. split; [intros k i t x Hx; inversion Hx|constructor].
  - cbn [plan]. rewrite brun_from_app.
    destruct (push_one self s k i Hc) as (P1 & P2 & P3 & P4 & P5).
    assert (Hlab : Forall (fun l => exists k' i', (k', i') ∈ (k, i) :: L /\ ((exists r, l = BOpen k' i' r) \/ (exists n, l = BWrite k' i' n))) (push s k i)).
    { unfold push. destruct (get_send k i (bs_tasks s)) as [[t x]|]; [|constructor].
      constructor; [|constructor; [|constructor]]; exists k, i; (split; [left|]); [left|right]; eexists; reflexivity. }
    revert P1 P2 P3 P4 P5. generalize (brun_from self s (push s k i)). intros s1 P1 P2 P3 P4 P5.
    assert (Hc1 : bs_crash s1 = false) by (rewrite (sm_crash _ _ P1); exact Hc).
    destruct (IH s1 Hc1) as (Q1 & Q2 & Q3 & Q4 & Q5). clear IH.
    revert Q1 Q2 Q3 Q4. generalize (brun_from self s1 (plan self s1 L)). intros s2 Q1 Q2 Q3 Q4.
    split; [eapply same_trans; eauto|]. split; [|split; [|split]].
    + intros k' i' Hn. apply not_elem_of_cons in Hn as [Hn1 Hn2]. rewrite Q2, P2; [reflexivity|exact Hn1|exact Hn2].
    + intros k' i' x Hin Hx. destruct (decide ((k', i') = (k, i))) as [[= -> ->]|Hne].
      * specialize (P3 x Hx). destruct (decide ((k, i) ∈ L)) as [HL|HL].
        -- specialize (Q3 k i _ HL P3). exact Q3.
        -- rewrite Q2 by exact HL. exact P3.
      * apply Q3; [apply elem_of_cons in Hin as [Hin|Hin]; [congruence|exact Hin]|]. rewrite P2 by exact Hne. exact Hx.
    + intros k' i' t x Hin Hg Hne Hp Hl. destruct (decide ((k', i') = (k, i))) as [[= -> ->]|Hki].
      * eapply delivered_mono; [exact Q1|]. eapply P5; eauto.
      * assert (Hg1 : exists t1, get_send k' i' (bs_tasks s1) = Some (t1, x)).
        { specialize (P2 k' i' Hki). unfold status in P2. rewrite Hg in P2. cbn in P2.
          destruct (get_send k' i' (bs_tasks s1)) as [[t1 x1]|]; [|discriminate]. cbn in P2. injection P2 as ->. eauto. }
        destruct Hg1 as (t1 & Hg1). pose proof (same_post _ _ _ _ _ _ _ _ P1 Hg Hg1) as He. rewrite <- He in *.
        apply (Q4 k' i' t1 x); auto. apply elem_of_cons in Hin as [Hin|Hin]; [congruence|exact Hin].
    + apply Forall_app. split; [exact Hlab|]. eapply Forall_impl; [exact Q5|]. intros l (k' & i' & Hin & Hl). exists k', i'. split; [right; exact Hin|exact Hl].
Qed.

(** All goroutines there are. *)
Definition pairs (ts : list task) : list (nat * nat) :=
  mjoin (imap (fun k t => map (pair k) (seq 0 (length (tk_sends t)))) ts).
Lemma pairs_in ts k i t x : get_send k i ts = Some (t, x) -> (k, i) ∈ pairs ts.
Proof.
  intros Hg. apply get_send_Some in Hg as [H1 H2]. unfold pairs. apply elem_of_list_join.
  exists (map (pair k) (seq 0 (length (tk_sends t)))). split.
  - apply elem_of_list_fmap. exists i. split; [reflexivity|]. apply elem_of_seq. apply lookup_lt_Some in H2. lia.
  - apply elem_of_lookup_imap. eauto.
Qed.

(** The queue is emptied. *)
Definition fresh (p : post) : task :=
  match po_peers p with [] => Task p [] true | ps => Task p (map (fun x => Send x SReady) ps) false end.
Lemma take_all self : forall s, bs_crash s = false -> bs_loop s = true ->
  let s' := brun_from self s (replicate (length (bs_queue s)) BTake) in
  bs_crash s' = false /\ bs_queue s' = [] /\ bs_tasks s' = bs_tasks s ++ map fresh (bs_queue s) /\
  bs_out s' = bs_out s /\ bs_accepted s' = bs_accepted s.
Proof.
  intros s. remember (bs_queue s) as q eqn:Eq. revert s Eq. induction q as [|p q IH]; intros s Eq Hc Hl.
  - cbn [length replicate brun_from fold_left map]. rewrite app_nil_r. auto.
  - cbn [length replicate]. change (brun_from self s (BTake :: replicate (length q) BTake)) with
      (brun_from self (bstep self BTake s) (replicate (length q) BTake)).
    destruct s as [acc q0 lp ts wg stp cr op os m rs]. cbn [bs_crash bs_queue bs_tasks bs_out bs_accepted bs_loop] in *. subst.
    set (s1 := bstep self BTake _).
    assert (Hs1 : bs_queue s1 = q /\ bs_crash s1 = false /\ bs_loop s1 = true /\ bs_tasks s1 = ts ++ [fresh p] /\ bs_out s1 = os /\ bs_accepted s1 = acc).
    { unfold s1, bstep, fresh. destruct (po_peers p); auto 10. }
    destruct Hs1 as (A1 & A2 & A3 & A4 & A5 & A6). clearbody s1.
    destruct (IH s1 (eq_sym A1) A2 A3) as (B1 & B2 & B3 & B4 & B5). cbn zeta.
    split; [exact B1|]. split; [exact B2|]. rewrite B3, A4, B4, B5, <- app_assoc. auto.
Qed.

(** All tasks return. *)
Lemma over_all self : forall n s, bs_crash s = false -> n <= length (bs_tasks s) ->
  (forall t, t ∈ bs_tasks s -> Forall ended (tk_sends t)) ->
  let s' := brun_from self s (map BOver (seq 0 n)) in
  bs_crash s' = false /\ bs_loop s' = bs_loop s /\ bs_stop s' = bs_stop s /\ length (bs_tasks s') = length (bs_tasks s) /\
  (forall t, t ∈ bs_tasks s' -> Forall ended (tk_sends t)) /\
  (forall k t, k < n -> bs_tasks s' !! k = Some t -> tk_over t = true).
Proof.
  induction n as [|n IH]; intros s Hc Hn Hall.
  - cbn. repeat split; auto. intros; lia.
  - rewrite seq_S, map_app. cbn [map Nat.add]. rewrite brun_from_app.
    destruct (IH s Hc ltac:(lia) Hall) as (A1 & A2 & A3 & A4 & A5 & A6). cbn zeta.
    revert A1 A2 A3 A4 A5 A6. generalize (brun_from self s (map BOver (seq 0 n))). intros s1 A1 A2 A3 A4 A5 A6.
    cbn [brun_from fold_left].
    destruct s1 as [acc q lp ts wg stp cr op os m rs]. cbn [bs_crash bs_loop bs_stop bs_tasks] in *. subst cr lp stp.
    assert (Hex : exists t, ts !! n = Some t) by (apply lookup_lt_is_Some; lia). destruct Hex as [[p l ov] Ht].
    unfold bstep. rewrite Ht. destruct ov.
    + cbn [bs_crash bs_loop bs_stop bs_tasks]. repeat split; auto.
      intros k t Hk Hl. destruct (decide (k = n)) as [->|Hne]; [|apply (A6 k t); [lia|exact Hl]].
      rewrite Ht in Hl. injection Hl as <-. reflexivity.
    + assert (Hl : Forall ended l) by (apply (A5 (Task p l false)); eapply elem_of_list_lookup_2; exact Ht).
      assert (Hf : forallb is_end l = true).
      { apply forallb_forall. intros x Hx. rewrite Forall_forall in Hl. apply elem_of_list_In in Hx. specialize (Hl x Hx).
        unfold ended in Hl. unfold is_end. rewrite Hl. reflexivity. }
      rewrite Hf. cbn [bs_crash bs_loop bs_stop bs_tasks]. repeat split; auto.
      * rewrite insert_length. exact A4.
      * intros t Hin. apply elem_of_list_lookup_1 in Hin as [k Hk]. destruct (decide (k = n)) as [->|Hne].
        -- rewrite list_lookup_insert in Hk by (apply lookup_lt_is_Some; eauto). injection Hk as <-. exact Hl.
        -- rewrite list_lookup_insert_ne in Hk by congruence. apply A5. eapply elem_of_list_lookup_2; eauto.
      * intros k t Hk Hlk. destruct (decide (k = n)) as [->|Hne].
        -- rewrite list_lookup_insert in Hlk by (apply lookup_lt_is_Some; eauto). injection Hlk as <-. reflexivity.
        -- rewrite list_lookup_insert_ne in Hlk by congruence. apply (A6 k t); [lia|exact Hlk].
Qed.

(** Nothing moves once Stop has returned. *)
Definition halted (s : bstate) : Prop :=
  bs_loop s = false /\ forall t, t ∈ bs_tasks s -> Forall ended (tk_sends t).
Lemma halted_step self s l : halted s -> halted (bstep self l s) /\ bs_out (bstep self l s) = bs_out s /\ bs_opened (bstep self l s) = bs_opened s.
Proof.
  intros Hh. destruct s as [acc q lp ts wg stp cr op os m rs]. unfold bstep. destruct cr; [auto|].
  destruct Hh as [Hl Ht]. cbn [bs_loop bs_tasks] in *. subst lp.
  assert (Hno : forall k i t x, get_send k i ts = Some (t, x) -> sd_stat x = SEnd).
  { intros k i t x Hg. apply get_send_Some in Hg as [H1 H2]. apply elem_of_list_lookup_2 in H1. specialize (Ht t H1).
    exact (Forall_lookup_1 _ _ _ _ Ht H2). }
  destruct l as [p| | |k i r|k i cap|k| | |id].
  - destruct (Nat.ltb _ _); (split; [split|]; auto).
  - split; [split|]; auto.
  - split; [split|]; auto.
  - destruct (get_send k i ts) as [[t [p [|st|]]]|] eqn:Eg; try (split; [split|]; auto; fail);
      specialize (Hno _ _ _ _ Eg); discriminate.
  - destruct (get_send k i ts) as [[t [p [|st|]]]|] eqn:Eg; try (split; [split|]; auto; fail);
      specialize (Hno _ _ _ _ Eg); discriminate.
  - destruct (ts !! k) as [[p l [|]]|] eqn:Ek; try (split; [split|]; auto; fail).
    destruct (forallb is_end l); (split; [split|]; auto). cbn [bs_tasks]. intros t Hin.
    apply elem_of_list_lookup_1 in Hin as [k' Hk]. destruct (decide (k' = k)) as [->|Hne].
    + rewrite list_lookup_insert in Hk by (apply lookup_lt_is_Some; eauto). injection Hk as <-.
      apply (Ht (Task p l false)). eapply elem_of_list_lookup_2; eauto.
    + rewrite list_lookup_insert_ne in Hk by congruence. apply Ht. eapply elem_of_list_lookup_2; eauto.
  - destruct stp; (split; [split|]; auto).
  - destruct stp; try (split; [split|]; auto; fail). destruct (Z.eqb _ _); (split; [split|]; auto).
  - destruct (ReleaseStream id m) as [strs m']. split; [split|]; auto.
Qed.
Lemma halted_run self tr : forall s, halted s -> bs_out (brun_from self s tr) = bs_out s /\ bs_opened (brun_from self s tr) = bs_opened s.
Proof.
  induction tr as [|l tr IH]; intros s Hh; [auto|]. destruct (halted_step self s l Hh) as (H1 & H2 & H3).
  change (brun_from self s (l :: tr)) with (brun_from self (bstep self l s) tr). destruct (IH _ H1) as [H4 H5]. split; congruence.
Qed.
Lemma stopped_halted self s : binv self s -> bs_stop s = Stopped -> halted s.
Proof.
  intros Hi Hs. pose proof (bi_stopped _ _ Hi Hs) as H0. rewrite (bi_wg _ _ Hi) in H0. split.
  - destruct (bs_loop s); [lia|reflexivity].
  - intros t Hin. pose proof (bi_tasks _ _ Hi) as Hf. rewrite Forall_forall in Hf. destruct (Hf t Hin) as (_ & Ho & _).
    apply Ho. destruct (tk_over t) eqn:E; [reflexivity|]. exfalso.
    assert (Hin' : t ∈ filter running (bs_tasks s)) by (apply elem_of_list_filter; auto).
    destruct (filter running (bs_tasks s)) as [|? ?]; [inversion Hin'|]. cbn [length] in H0. destruct (bs_loop s); lia.
Qed.
