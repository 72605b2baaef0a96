(** The streams of a request when the arrays behind the lists are looked at (C205, C206). *)
From Coq Require Import Ascii String List Lia.
From stdpp Require Import base list strings gmap.
From Verif Require Import Base M_Comm M_Slices S_Slices.

Section Proofs.
  Context (grow : nat -> nat).
  Notation step := (x_step grow).
  Notation run := (x_run grow).

  Definition outside (d : nat) (o : option slice) : Prop := match o with None => True | Some sl => s_arr sl <> d end.
  Definition within (h : gmap nat (list nat)) (o : option slice) : Prop :=
    match o with None => True | Some sl => s_len sl <= length (array h (s_arr sl)) end.
  Definition before (n : nat) (o : option slice) : Prop := match o with None => True | Some sl => s_arr sl < n end.
  Record xinv (s : xstate) : Prop := XInv {
    v_map_fresh : forall i, before (x_next s) (x_map s !! i);
    v_call_fresh : forall k c, x_calls s !! k = Some c -> before (x_next s) (r_used c) /\ forall d, r_dst c = Some d -> d < x_next s;
    v_map_len : forall i, within (x_heap s) (x_map s !! i);
    v_call_len : forall k c, x_calls s !! k = Some c -> within (x_heap s) (r_used c);
    v_map_apart : forall i j a n m, x_map s !! i = Some (Slice a n) -> x_map s !! j = Some (Slice a m) -> i = j;
    v_own : forall k c, x_calls s !! k = Some c -> x_map s !! r_id c = None \/ x_map s !! r_id c = r_used c;
    v_own_only : forall k c i a n m, x_calls s !! k = Some c -> r_used c = Some (Slice a n) -> x_map s !! i = Some (Slice a m) -> i = r_id c;
    v_same : forall k c k' c' a n m, x_calls s !! k = Some c -> x_calls s !! k' = Some c' ->
      r_used c = Some (Slice a n) -> r_used c' = Some (Slice a m) -> n = m;
    v_dst : forall k c d, x_calls s !! k = Some c -> r_dst c = Some d ->
      (exists n, r_used c = Some (Slice d n)) \/
      ((forall i, outside d (x_map s !! i)) /\
       forall k' c', x_calls s !! k' = Some c' -> outside d (r_used c') /\ (k' <> k -> r_dst c' <> Some d));
    v_begin : forall k c d, x_calls s !! k = Some c -> r_dst c = Some d ->
      take (slen (r_used c)) (array (x_heap s) d) = contents (x_heap s) (r_used c);
    v_done : forall k c x, x_calls s !! k = Some c -> x ∈ take (r_pos c) (contents (x_heap s) (r_used c)) -> x ∈ x_reset s }.

  Lemma array_insert_ne h a b l : a <> b -> array (<[b := l]> h) a = array h a.
  Proof. intros H. unfold array. rewrite lookup_insert_ne by congruence. reflexivity. Qed.
  Lemma array_insert h a l : array (<[a := l]> h) a = l.
  Proof. unfold array. rewrite lookup_insert. reflexivity. Qed.
  Lemma contents_outside h d l o : outside d o -> contents (<[d := l]> h) o = contents h o.
  Proof. destruct o as [sl|]; [|reflexivity]. intros H. cbn in *. rewrite array_insert_ne by exact H. reflexivity. Qed.
  Lemma within_outside h d l o : outside d o -> within h o -> within (<[d := l]> h) o.
  Proof. destruct o as [sl|]; [|auto]. intros H. cbn in *. rewrite array_insert_ne by exact H. auto. Qed.
  Lemma before_outside n o : before n o -> outside n o.
  Proof. destruct o; cbn; lia. Qed.
  Lemma before_S n o : before n o -> before (S n) o.
  Proof. destruct o; cbn; lia. Qed.
  Lemma contents_length h o : within h o -> length (contents h o) = slen o.
  Proof. destruct o as [sl|]; [|reflexivity]. cbn. intros H. rewrite take_length. lia. Qed.
  (** a write behind the end of a slice *)
  Lemma contents_behind h d i x o : (forall sl, o = Some sl -> s_arr sl = d -> s_len sl <= i) ->
    contents (<[d := <[i := x]> (array h d)]> h) o = contents h o.
  Proof.
    destruct o as [[a n]|]; [|reflexivity]. intros H. cbn. destruct (decide (a = d)) as [->|Hn].
    - rewrite array_insert. apply take_insert. exact (H _ eq_refl eq_refl).
    - rewrite array_insert_ne by exact Hn. reflexivity.
  Qed.
  Lemma within_write h d i x o : within h o -> within (<[d := <[i := x]> (array h d)]> h) o.
  Proof.
    destruct o as [[a n]|]; [|auto]. cbn. intros H. destruct (decide (a = d)) as [->|Hn].
    - rewrite array_insert, insert_length. exact H.
    - rewrite array_insert_ne by exact Hn. exact H.
  Qed.

  Lemma xinv_init : xinv x_init.
  Proof.
    constructor; cbn; intros; repeat match goal with H : ∅ !! _ = Some _ |- _ => rewrite lookup_empty in H; discriminate end;
      rewrite ?lookup_empty; cbn; auto.
  Qed.

  (** A step only changes the map by an addition or a deletion, and never the slices of a
      call. *)
  Lemma inv_add_fresh s id l n :
    xinv s -> (forall k c, x_calls s !! k = Some c -> r_id c <> id) -> n <= length l ->
    xinv (XState (<[x_next s := l]> (x_heap s)) (S (x_next s)) (<[id := Slice (x_next s) n]> (x_map s)) (x_calls s) (x_reset s)).
  Proof.
    intros Hv Hq Hn. destruct Hv as [Mf Cf Ml Cl Ma Ow Oo Sa Ds Bg Dn].
    constructor; cbn [x_heap x_next x_map x_calls x_reset].
    - intros i. destruct (decide (i = id)) as [->|Hi].
      + rewrite lookup_insert. cbn. lia.
      + rewrite lookup_insert_ne by congruence. apply before_S, Mf.
    - intros k c Hc. destruct (Cf k c Hc) as [H1 H2]. split; [apply before_S, H1|]. intros d Hd. specialize (H2 d Hd). lia.
    - intros i. destruct (decide (i = id)) as [->|Hi].
      + rewrite lookup_insert. cbn. rewrite array_insert. exact Hn.
      + rewrite lookup_insert_ne by congruence. apply within_outside; [apply before_outside, Mf|apply Ml].
    - intros k c Hc. apply within_outside; [apply before_outside; apply (Cf k c Hc)|exact (Cl k c Hc)].
    - intros i j a p q Hi Hj. destruct (decide (i = id)) as [->|Hi'], (decide (j = id)) as [->|Hj']; [reflexivity| | |].
      + rewrite lookup_insert in Hi. injection Hi as <- <-. rewrite lookup_insert_ne in Hj by congruence.
        pose proof (Mf j) as H. rewrite Hj in H. cbn in H. lia.
      + rewrite lookup_insert in Hj. injection Hj as <- <-. rewrite lookup_insert_ne in Hi by congruence.
        pose proof (Mf i) as H. rewrite Hi in H. cbn in H. lia.
      + rewrite lookup_insert_ne in Hi by congruence. rewrite lookup_insert_ne in Hj by congruence. eauto.
    - intros k c Hc. rewrite lookup_insert_ne by (intros E; exact (Hq k c Hc (eq_sym E))). exact (Ow k c Hc).
    - intros k c i a p q Hc Hu Hi. destruct (decide (i = id)) as [->|Hi'].
      + rewrite lookup_insert in Hi. injection Hi as <- <-. destruct (Cf k c Hc) as [H _]. rewrite Hu in H. cbn in H. lia.
      + rewrite lookup_insert_ne in Hi by congruence. eauto.
    - exact Sa.
    - intros k c d Hc Hd. destruct (Ds k c d Hc Hd) as [H|[H1 H2]]; [left; exact H|right]. split; [|exact H2].
      intros i. destruct (decide (i = id)) as [->|Hi].
      + rewrite lookup_insert. cbn. destruct (Cf k c Hc) as [_ H]. specialize (H d Hd). lia.
      + rewrite lookup_insert_ne by congruence. apply H1.
    - intros k c d Hc Hd. destruct (Cf k c Hc) as [H1 H2]. specialize (H2 d Hd).
      rewrite array_insert_ne by lia. rewrite contents_outside by (apply before_outside, H1). exact (Bg k c d Hc Hd).
    - intros k c x Hc. destruct (Cf k c Hc) as [H1 _]. rewrite contents_outside by (apply before_outside, H1). exact (Dn k c x Hc).
  Qed.

  Lemma inv_add s id st : xinv s -> (forall k c, x_calls s !! k = Some c -> r_id c <> id) -> xinv (x_add grow id st s).
  Proof.
    intros Hv Hq. unfold x_add. destruct (x_map s !! id) as [[a n]|] eqn:Hm.
    - destruct (Nat.ltb_spec n (length (array (x_heap s) a))) as [Hlt|Hge].
      + destruct Hv as [Mf Cf Ml Cl Ma Ow Oo Sa Ds Bg Dn].
        assert (Hu : forall k c, x_calls s !! k = Some c -> outside a (r_used c)).
        { intros k c Hc. destruct (r_used c) as [[b m]|] eqn:Hu; [|exact I]. cbn. intros ->.
          exact (Hq k c Hc (eq_sym (Oo k c id a m n Hc Hu Hm))). }
        assert (Hd : forall k c d, x_calls s !! k = Some c -> r_dst c = Some d -> d <> a).
        { intros k c d Hc Hd ->. destruct (Ds k c a Hc Hd) as [[m H]|[H _]].
          - pose proof (Hu k c Hc) as Ho. rewrite H in Ho. exact (Ho eq_refl).
          - pose proof (H id) as Ho. rewrite Hm in Ho. exact (Ho eq_refl). }
        constructor; cbn [x_heap x_next x_map x_calls x_reset].
        * intros i. destruct (decide (i = id)) as [->|Hi].
          -- rewrite lookup_insert. pose proof (Mf id) as H. rewrite Hm in H. exact H.
          -- rewrite lookup_insert_ne by congruence. apply Mf.
        * exact Cf.
        * intros i. destruct (decide (i = id)) as [->|Hi].
          -- rewrite lookup_insert. cbn. rewrite array_insert, insert_length. lia.
          -- rewrite lookup_insert_ne by congruence. apply within_write, Ml.
        * intros k c Hc. apply within_write, (Cl k c Hc).
        * intros i j b p q Hi Hj. destruct (decide (i = id)) as [->|Hi'], (decide (j = id)) as [->|Hj']; [reflexivity| | |].
          -- rewrite lookup_insert in Hi. injection Hi as <- <-. rewrite lookup_insert_ne in Hj by congruence. eauto.
          -- rewrite lookup_insert in Hj. injection Hj as <- <-. rewrite lookup_insert_ne in Hi by congruence. eauto.
          -- rewrite lookup_insert_ne in Hi by congruence. rewrite lookup_insert_ne in Hj by congruence. eauto.
        * intros k c Hc. rewrite lookup_insert_ne by (intros E; exact (Hq k c Hc (eq_sym E))). exact (Ow k c Hc).
        * intros k c i b p q Hc Hb Hi. destruct (decide (i = id)) as [->|Hi'].
          -- rewrite lookup_insert in Hi. injection Hi as <- <-. eauto.
          -- rewrite lookup_insert_ne in Hi by congruence. eauto.
        * exact Sa.
        * intros k c d Hc Hdd. destruct (Ds k c d Hc Hdd) as [H|[H1 H2]]; [left; exact H|right]. split; [|exact H2].
          intros i. destruct (decide (i = id)) as [->|Hi].
          -- rewrite lookup_insert. cbn. pose proof (Hd k c d Hc Hdd). congruence.
          -- rewrite lookup_insert_ne by congruence. apply H1.
        * intros k c d Hc Hdd. rewrite array_insert_ne by (exact (Hd k c d Hc Hdd)).
          rewrite contents_outside by (exact (Hu k c Hc)). exact (Bg k c d Hc Hdd).
        * intros k c x Hc. rewrite contents_outside by (exact (Hu k c Hc)). exact (Dn k c x Hc).
      + apply inv_add_fresh; [exact Hv|exact Hq|].
        pose proof (v_map_len s Hv id) as H. rewrite Hm in H. cbn in H. rewrite app_length, take_length. cbn. lia.
    - apply inv_add_fresh; [exact Hv|exact Hq|]. cbn. lia.
  Qed.

  (** Calls whose slices are as before *)
  Lemma inv_read s k id :
    xinv s -> x_calls s !! k = None -> xinv (put_call k (RCall id (x_map s !! id) (x_map s !! UNKNOWN) None 0 0) s).
  Proof.
    intros Hv Hk. destruct Hv as [Mf Cf Ml Cl Ma Ow Oo Sa Ds Bg Dn].
    constructor; cbn [x_heap x_next x_map x_calls x_reset put_call].
    - exact Mf.
    - intros k' c Hc. destruct (decide (k' = k)) as [->|Hn].
      + rewrite lookup_insert in Hc. injection Hc as <-. cbn. split; [apply Mf|discriminate].
      + rewrite lookup_insert_ne in Hc by congruence. eauto.
    - exact Ml.
    - intros k' c Hc. destruct (decide (k' = k)) as [->|Hn].
      + rewrite lookup_insert in Hc. injection Hc as <-. cbn. apply Ml.
      + rewrite lookup_insert_ne in Hc by congruence. eauto.
    - exact Ma.
    - intros k' c Hc. destruct (decide (k' = k)) as [->|Hn].
      + rewrite lookup_insert in Hc. injection Hc as <-. cbn. right. reflexivity.
      + rewrite lookup_insert_ne in Hc by congruence. eauto.
    - intros k' c i a n m Hc Hu Hi. destruct (decide (k' = k)) as [->|Hn].
      + rewrite lookup_insert in Hc. injection Hc as <-. cbn in *. eauto.
      + rewrite lookup_insert_ne in Hc by congruence. eauto.
    - assert (G : forall k' c' a n m, x_calls s !! k' = Some c' -> x_map s !! id = Some (Slice a n) -> r_used c' = Some (Slice a m) -> n = m).
      { intros k' c' a n m Hc Hm Hu. pose proof (Oo k' c' id a m n Hc Hu Hm) as ->.
        destruct (Ow k' c' Hc) as [H|H]; congruence. }
      intros k1 c1 k2 c2 a n m H1 H2 Hu1 Hu2. destruct (decide (k1 = k)) as [->|Hn1], (decide (k2 = k)) as [->|Hn2].
      + rewrite lookup_insert in H1, H2. congruence.
      + rewrite lookup_insert in H1. injection H1 as <-. rewrite lookup_insert_ne in H2 by congruence. cbn in Hu1. eauto.
      + rewrite lookup_insert in H2. injection H2 as <-. rewrite lookup_insert_ne in H1 by congruence. cbn in Hu2. symmetry. eauto.
      + rewrite lookup_insert_ne in H1 by congruence. rewrite lookup_insert_ne in H2 by congruence. eauto.
    - intros k' c d Hc Hd. destruct (decide (k' = k)) as [->|Hn].
      + rewrite lookup_insert in Hc. injection Hc as <-. discriminate.
      + rewrite lookup_insert_ne in Hc by congruence. destruct (Ds k' c d Hc Hd) as [H|[H1 H2]]; [left; exact H|right]. split; [exact H1|].
        intros k2 c2 Hc2. destruct (decide (k2 = k)) as [->|Hn2].
        * rewrite lookup_insert in Hc2. injection Hc2 as <-. cbn. split; [apply H1|discriminate].
        * rewrite lookup_insert_ne in Hc2 by congruence. eauto.
    - intros k' c d Hc Hd. destruct (decide (k' = k)) as [->|Hn].
      + rewrite lookup_insert in Hc. injection Hc as <-. discriminate.
      + rewrite lookup_insert_ne in Hc by congruence. eauto.
    - intros k' c x Hc. destruct (decide (k' = k)) as [->|Hn].
      + rewrite lookup_insert in Hc. injection Hc as <-. cbn. inversion 1.
      + rewrite lookup_insert_ne in Hc by congruence. eauto.
  Qed.

  Lemma upd_back (m : gmap nat rcall) k c c' k2 c2 : m !! k = Some c -> r_id c' = r_id c -> r_used c' = r_used c ->
    <[k := c']> m !! k2 = Some c2 ->
    exists o, m !! k2 = Some o /\ r_id c2 = r_id o /\ r_used c2 = r_used o /\ (k2 = k -> c2 = c') /\ (k2 <> k -> c2 = o).
  Proof.
    intros Hk Hi Hu H. destruct (decide (k2 = k)) as [->|Hn].
    - rewrite lookup_insert in H. injection H as <-. exists c. repeat split; congruence.
    - rewrite lookup_insert_ne in H by congruence. exists c2. repeat split; congruence.
  Qed.
  (** A call goes on: its slices stay, its array and its counters may change, the arrays
      are written to only behind the slices. *)
  Lemma inv_call s k c c' h n r :
    xinv s -> x_calls s !! k = Some c -> r_id c' = r_id c -> r_used c' = r_used c ->
    x_next s <= n ->
    (forall i, contents h (x_map s !! i) = contents (x_heap s) (x_map s !! i) /\ within h (x_map s !! i)) ->
    (forall k2 c2, x_calls s !! k2 = Some c2 -> contents h (r_used c2) = contents (x_heap s) (r_used c2) /\ within h (r_used c2)) ->
    (forall k2 c2 d, <[k := c']> (x_calls s) !! k2 = Some c2 -> r_dst c2 = Some d ->
       d < n /\ take (slen (r_used c2)) (array h d) = contents h (r_used c2)) ->
    (forall d, r_dst c' = Some d -> r_dst c = Some d \/ (exists m, r_used c = Some (Slice d m)) \/ d = x_next s) ->
    (forall x, x ∈ x_reset s -> x ∈ r) ->
    (forall x, x ∈ take (r_pos c') (contents h (r_used c')) -> x ∈ r) ->
    xinv (XState h n (x_map s) (<[k := c']> (x_calls s)) r).
  Proof.
    intros Hv Hk Hid Hus Hnx Hmap Hcalls Hdst Hnew Hres Hpos. destruct Hv as [Mf Cf Ml Cl Ma Ow Oo Sa Ds Bg Dn].
    constructor; cbn [x_heap x_next x_map x_calls x_reset].
    - intros i. pose proof (Mf i) as H. destruct (x_map s !! i); cbn in *; lia.
    - intros k2 c2 Hc2. destruct (upd_back _ k c c' k2 c2 Hk Hid Hus Hc2) as (o & Ho & Hi & Hu & _). split.
      + rewrite Hu. destruct (Cf k2 o Ho) as [H _]. destruct (r_used o); cbn in *; lia.
      + intros d Hd. apply (Hdst k2 c2 d Hc2 Hd).
    - intros i. apply Hmap.
    - intros k2 c2 Hc2. destruct (upd_back _ k c c' k2 c2 Hk Hid Hus Hc2) as (o & Ho & Hi & Hu & _). rewrite Hu. apply (Hcalls k2 o Ho).
    - exact Ma.
    - intros k2 c2 Hc2. destruct (upd_back _ k c c' k2 c2 Hk Hid Hus Hc2) as (o & Ho & Hi & Hu & _). rewrite Hi, Hu. exact (Ow k2 o Ho).
    - intros k2 c2 i a p q Hc2 Hu2 Hm. destruct (upd_back _ k c c' k2 c2 Hk Hid Hus Hc2) as (o & Ho & Hi & Hu & _).
      rewrite Hi. rewrite Hu in Hu2. exact (Oo k2 o i a p q Ho Hu2 Hm).
    - intros k1 c1 k2 c2 a p q H1 H2 Hu1 Hu2.
      destruct (upd_back _ k c c' k1 c1 Hk Hid Hus H1) as (o1 & Ho1 & _ & E1 & _).
      destruct (upd_back _ k c c' k2 c2 Hk Hid Hus H2) as (o2 & Ho2 & _ & E2 & _).
      rewrite E1 in Hu1. rewrite E2 in Hu2. exact (Sa k1 o1 k2 o2 a p q Ho1 Ho2 Hu1 Hu2).
    - intros k1 c1 d H1 Hd1. destruct (upd_back _ k c c' k1 c1 Hk Hid Hus H1) as (o1 & Ho1 & _ & E1 & Heq & Hne).
      (* the array of call k1 in the old state, or a new one *)
      assert (Hcase : (exists m, r_used c1 = Some (Slice d m)) \/ (r_dst o1 = Some d) \/ (k1 = k /\ d = x_next s)).
      { destruct (decide (k1 = k)) as [->|Hn].
        - assert (o1 = c) by congruence. subst o1. rewrite (Heq eq_refl) in *. destruct (Hnew d Hd1) as [H|[[m H]|H]]; auto.
          left. exists m. congruence.
        - rewrite (Hne Hn) in Hd1. auto. }
      destruct Hcase as [H|[Hold|[-> ->]]]; [left; exact H| |].
      + destruct (Ds k1 o1 d Ho1 Hold) as [[m H]|[Hm Hc]]; [left; exists m; congruence|right]. split; [exact Hm|].
        intros k2 c2 H2. destruct (upd_back _ k c c' k2 c2 Hk Hid Hus H2) as (o2 & Ho2 & _ & E2 & Heq2 & Hne2).
        destruct (Hc k2 o2 Ho2) as [Hc1 Hc2]. rewrite E2. split; [exact Hc1|]. intros Hkk Hd2.
        destruct (decide (k2 = k)) as [->|Hn].
        * rewrite (Heq2 eq_refl) in Hd2. assert (o2 = c) by congruence. subst o2.
          destruct (Hnew d Hd2) as [H|[[m H]|H]].
          -- exact (Hc2 Hkk H).
          -- rewrite H in Hc1. exact (Hc1 eq_refl).
          -- destruct (Cf k1 o1 Ho1) as [_ Hf]. specialize (Hf d Hold). lia.
        * rewrite (Hne2 Hn) in Hd2. exact (Hc2 Hkk Hd2).
      + right. split; [intros i; apply before_outside, Mf|].
        intros k2 c2 H2. destruct (upd_back _ k c c' k2 c2 Hk Hid Hus H2) as (o2 & Ho2 & _ & E2 & Heq2 & Hne2).
        destruct (Cf k2 o2 Ho2) as [Hf1 Hf2]. rewrite E2. split; [apply before_outside, Hf1|]. intros Hkk Hd2.
        rewrite (Hne2 Hkk) in Hd2. specialize (Hf2 _ Hd2). lia.
    - intros k2 c2 d H2 Hd. apply (Hdst k2 c2 d H2 Hd).
    - intros k2 c2 x H2 Hx. destruct (upd_back _ k c c' k2 c2 Hk Hid Hus H2) as (o & Ho & _ & Hu & Heq & Hne).
      destruct (decide (k2 = k)) as [->|Hn].
      + rewrite (Heq eq_refl) in *. apply Hpos, Hx.
      + rewrite (Hne Hn) in *. apply Hres, (Dn k2 o x Ho). destruct (Hcalls k2 o Ho) as [E _]. rewrite <- E. exact Hx.
  Qed.

  Lemma inv_step s l : xinv s ->
    (forall id st, l = XAdd id st -> forall k c, x_calls s !! k = Some c -> r_id c <> id) -> xinv (step l s).
  Proof.
    intros Hv Hq. destruct l as [id st|k id|k|k|k|k]; cbn [x_step].
    - apply inv_add; [exact Hv|]. exact (Hq id st eq_refl).
    - destruct (x_calls s !! k) eqn:Hk; [exact Hv|].
      destruct (x_map s !! id) eqn:Hu, (x_map s !! UNKNOWN) eqn:Hun; try exact Hv;
        rewrite <- Hu, <- Hun; apply inv_read; assumption.
    - destruct (x_calls s !! k) as [[id u v [d|] c p]|] eqn:Hk; [exact Hv| |exact Hv].
      assert (Hfresh : xinv (XState (<[x_next s := contents (x_heap s) u ++ replicate (slen v + grow (slen u)) 0]> (x_heap s))
                (S (x_next s)) (x_map s) (<[k := RCall id u v (Some (x_next s)) c p]> (x_calls s)) (x_reset s))).
      { set (h := <[x_next s := _]> (x_heap s)).
        assert (Hcc : forall k2 c2, x_calls s !! k2 = Some c2 -> contents h (r_used c2) = contents (x_heap s) (r_used c2) /\ within h (r_used c2)).
        { intros k2 c2 H2. destruct (v_call_fresh s Hv k2 c2 H2) as [Hf _]. split.
          - apply contents_outside, before_outside, Hf.
          - apply within_outside; [apply before_outside, Hf|exact (v_call_len s Hv k2 c2 H2)]. }
        eapply (inv_call s k _ (RCall id u v (Some (x_next s)) c p) h (S (x_next s)) (x_reset s) Hv Hk); try reflexivity.
        - lia.
        - intros i. split.
          + apply contents_outside, before_outside, (v_map_fresh s Hv).
          + apply within_outside; [apply before_outside, (v_map_fresh s Hv)|apply (v_map_len s Hv)].
        - exact Hcc.
        - intros k2 c2 d H2 Hd. destruct (decide (k2 = k)) as [->|Hn].
          + rewrite lookup_insert in H2. injection H2 as <-. cbn in *. injection Hd as <-. split; [lia|].
            destruct (Hcc k _ Hk) as [E _]. cbn in E. rewrite E. unfold h. rewrite array_insert.
            pose proof (contents_length (x_heap s) u) as Hl. specialize (Hl (v_call_len s Hv k _ Hk)).
            rewrite <- Hl. apply take_app.
          + rewrite lookup_insert_ne in H2 by congruence. destruct (v_call_fresh s Hv k2 c2 H2) as [_ Hf]. specialize (Hf d Hd).
            split; [lia|]. destruct (Hcc k2 c2 H2) as [-> _]. unfold h. rewrite array_insert_ne by lia. exact (v_begin s Hv k2 c2 d H2 Hd).
        - cbn. intros d [= <-]. auto.
        - auto.
        - cbn. destruct (Hcc k _ Hk) as [E _]. cbn in E. rewrite E. intros x. exact (v_done s Hv k _ x Hk). }
      destruct u as [[a n]|]; [|exact Hfresh].
      destruct (Nat.leb_spec (n + slen v) (length (array (x_heap s) a))) as [Hle|]; [|exact Hfresh]. clear Hfresh.
      eapply (inv_call s k _ (RCall id (Some (Slice a n)) v (Some a) c p) (x_heap s) (x_next s) (x_reset s) Hv Hk); try reflexivity.
      + intros i. split; [reflexivity|apply (v_map_len s Hv)].
      + intros k2 c2 H2. split; [reflexivity|exact (v_call_len s Hv k2 c2 H2)].
      + intros k2 c2 d H2 Hd. destruct (decide (k2 = k)) as [->|Hn].
        * rewrite lookup_insert in H2. injection H2 as <-. cbn in *. injection Hd as <-. split; [|reflexivity].
          destruct (v_call_fresh s Hv k _ Hk) as [H _]. exact H.
        * rewrite lookup_insert_ne in H2 by congruence. split; [apply (v_call_fresh s Hv k2 c2 H2), Hd|exact (v_begin s Hv k2 c2 d H2 Hd)].
      + cbn. intros d [= <-]. right. left. eauto.
      + auto.
      + intros x. exact (v_done s Hv k _ x Hk).
    - destruct (x_calls s !! k) as [[id u [v|] [d|] c p]|] eqn:Hk; try exact Hv.
      destruct (Nat.ltb_spec c (s_len v)) as [Hlt|]; [|exact Hv].
      set (w := nth c (array (x_heap s) (s_arr v)) 0). set (h := <[d := _]> (x_heap s)).
      pose proof (v_dst s Hv k _ d Hk eq_refl) as Hd. cbn in Hd.
      assert (Hcc : forall k2 c2, x_calls s !! k2 = Some c2 -> contents h (r_used c2) = contents (x_heap s) (r_used c2) /\ within h (r_used c2)).
      { intros k2 c2 H2. split.
        - apply contents_behind. intros [a m] Hu2 Ha. cbn in *. subst a. destruct Hd as [[n Hn]|[_ Hp]].
          + rewrite (v_same s Hv k2 c2 k _ d m n H2 Hk Hu2 Hn), Hn. cbn. lia.
          + destruct (Hp k2 c2 H2) as [Ho _]. rewrite Hu2 in Ho. exfalso. exact (Ho eq_refl).
        - apply within_write. exact (v_call_len s Hv k2 c2 H2). }
      eapply (inv_call s k _ (RCall id u (Some v) (Some d) (S c) p) h (x_next s) (x_reset s) Hv Hk); try reflexivity.
      + intros i. split.
        * apply contents_behind. intros [a m] Hm Ha. cbn in *. subst a. destruct Hd as [[n Hn]|[Hp _]].
          -- pose proof (v_own_only s Hv k _ i d n m Hk Hn Hm) as Hi. cbn in Hi. subst i.
             destruct (v_own s Hv k _ Hk) as [H|H]; cbn in H; [congruence|]. rewrite Hm, Hn in H. injection H as <-. rewrite Hn. cbn. lia.
          -- pose proof (Hp i) as Ho. rewrite Hm in Ho. exfalso. exact (Ho eq_refl).
        * apply within_write, (v_map_len s Hv).
      + exact Hcc.
      + intros k2 c2 d2 H2 Hd2.
        destruct (upd_back _ k _ _ k2 c2 Hk (eq_refl : r_id (RCall id u (Some v) (Some d) (S c) p) = r_id _) eq_refl H2) as (o & Ho & _ & Hu2 & Heq & Hne).
        assert (Hold : r_dst o = Some d2).
        { destruct (decide (k2 = k)) as [->|Hn]; [|rewrite <- (Hne Hn); exact Hd2].
          assert (o = RCall id u (Some v) (Some d) c p) by congruence. subst o. rewrite (Heq eq_refl) in Hd2. exact Hd2. }
        split; [apply (v_call_fresh s Hv k2 o Ho), Hold|]. rewrite Hu2. destruct (Hcc k2 o Ho) as [-> _].
        pose proof (v_begin s Hv k2 o d2 Ho Hold) as Hb. destruct (decide (d2 = d)) as [->|Hn]; [|unfold h; rewrite array_insert_ne by exact Hn; exact Hb].
        rewrite <- Hb. unfold h. rewrite array_insert. apply take_insert.
        destruct (decide (k2 = k)) as [->|Hkk]; [assert (o = RCall id u (Some v) (Some d) c p) by congruence; subst o; cbn; lia|].
        destruct (v_dst s Hv k2 o d Ho Hold) as [[n Hn]|[_ Hp]].
        * destruct Hd as [[m Hm]|[_ Hp]].
          -- rewrite Hn. pose proof (v_same s Hv k2 o k _ d n m Ho Hk Hn Hm) as E. rewrite Hm. cbn. lia.
          -- destruct (Hp k2 o Ho) as [Hx _]. rewrite Hn in Hx. exfalso. exact (Hx eq_refl).
        * destruct (Hp k _ Hk) as [_ Hx]. exfalso. apply Hx; [congruence|reflexivity].
      + cbn. auto.
      + auto.
      + cbn. destruct (Hcc k _ Hk) as [E _]. cbn in E. rewrite E. intros x. exact (v_done s Hv k _ x Hk).
    - destruct (x_calls s !! k) as [[id u v [d|] c p]|] eqn:Hk; try exact Hv.
      destruct (Nat.leb (slen v) c && Nat.ltb p (slen u + slen v))%bool; [|exact Hv].
      eapply (inv_call s k _ (RCall id u v (Some d) c (S p)) (x_heap s) (x_next s) _ Hv Hk); try reflexivity.
      + intros i. split; [reflexivity|apply (v_map_len s Hv)].
      + intros k2 c2 H2. split; [reflexivity|exact (v_call_len s Hv k2 c2 H2)].
      + intros k2 c2 d2 H2 Hd2.
        destruct (upd_back _ k _ _ k2 c2 Hk (eq_refl : r_id (RCall id u v (Some d) c (S p)) = r_id _) eq_refl H2) as (o & Ho & _ & Hu2 & Heq & Hne).
        assert (Hold : r_dst o = Some d2).
        { destruct (decide (k2 = k)) as [->|Hn]; [|rewrite <- (Hne Hn); exact Hd2].
          assert (o = RCall id u v (Some d) c p) by congruence. subst o. rewrite (Heq eq_refl) in Hd2. exact Hd2. }
        split; [apply (v_call_fresh s Hv k2 o Ho), Hold|]. rewrite Hu2. exact (v_begin s Hv k2 o d2 Ho Hold).
      + cbn. auto.
      + intros x Hx. apply elem_of_app. auto.
      + cbn. intros x Hx. apply elem_of_app.
        pose proof (v_begin s Hv k _ d Hk eq_refl) as Hb. cbn in Hb.
        apply elem_of_take in Hx as (i & Hi & Hlt). destruct (decide (i < p)) as [Hip|Hip].
        * left. apply (v_done s Hv k _ x Hk). cbn. apply elem_of_take. eauto.
        * assert (i = p) by lia. subst i. right. rewrite <- Hb in Hi. apply lookup_take_Some in Hi as [Hi _].
          apply elem_of_list_singleton. symmetry. apply nth_lookup_Some. exact Hi.
    - destruct (x_calls s !! k) as [[id u v [d|] c p]|] eqn:Hk; try exact Hv.
      destruct (Nat.leb (slen v) c && Nat.leb (slen u + slen v) p)%bool; [|exact Hv].
      destruct Hv as [Mf Cf Ml Cl Ma Ow Oo Sa Ds Bg Dn].
      assert (Hm : forall i sl, delete id (x_map s) !! i = Some sl -> x_map s !! i = Some sl) by (intros i sl H; apply lookup_delete_Some in H as [_ H]; exact H).
      assert (Hc : forall k2 c2, delete k (x_calls s) !! k2 = Some c2 -> x_calls s !! k2 = Some c2) by (intros k2 c2 H; apply lookup_delete_Some in H as [_ H]; exact H).
      assert (Ho : forall i, delete id (x_map s) !! i = None \/ delete id (x_map s) !! i = x_map s !! i).
      { intros i. destruct (delete id (x_map s) !! i) eqn:E; [right; symmetry; exact (Hm _ _ E)|auto]. }
      constructor; cbn [x_heap x_next x_map x_calls x_reset].
      + intros i. destruct (Ho i) as [->| ->]; [exact I|apply Mf].
      + intros k2 c2 H2. exact (Cf k2 c2 (Hc _ _ H2)).
      + intros i. destruct (Ho i) as [->| ->]; [exact I|apply Ml].
      + intros k2 c2 H2. exact (Cl k2 c2 (Hc _ _ H2)).
      + intros i j a n m Hi Hj. exact (Ma i j a n m (Hm _ _ Hi) (Hm _ _ Hj)).
      + intros k2 c2 H2. destruct (Ho (r_id c2)) as [->| ->]; [left; reflexivity|exact (Ow k2 c2 (Hc _ _ H2))].
      + intros k2 c2 i a n m H2 Hu Hi. exact (Oo k2 c2 i a n m (Hc _ _ H2) Hu (Hm _ _ Hi)).
      + intros k1 c1 k2 c2 a n m H1 H2. exact (Sa k1 c1 k2 c2 a n m (Hc _ _ H1) (Hc _ _ H2)).
      + intros k1 c1 d1 H1 Hd1. destruct (Ds k1 c1 d1 (Hc _ _ H1) Hd1) as [H|[Hp1 Hp2]]; [left; exact H|right]. split.
        * intros i. destruct (Ho i) as [->| ->]; [exact I|apply Hp1].
        * intros k2 c2 H2. exact (Hp2 k2 c2 (Hc _ _ H2)).
      + intros k2 c2 d2 H2. exact (Bg k2 c2 d2 (Hc _ _ H2)).
      + intros k2 c2 x H2. exact (Dn k2 c2 x (Hc _ _ H2)).
  Qed.

  Definition allowed (s : xstate) (l : xlabel) : Prop :=
    forall id st, l = XAdd id st -> forall k c, x_calls s !! k = Some c -> r_id c <> id.
  (** No step changes what is in a slice that somebody has. *)
  Lemma step_contents s l : xinv s -> allowed s l ->
    (forall k c, x_calls s !! k = Some c -> contents (x_heap (step l s)) (r_used c) = contents (x_heap s) (r_used c)) /\
    (forall i, contents (x_heap (step l s)) (x_map s !! i) = contents (x_heap s) (x_map s !! i)).
  Proof.
    intros Hv Hq.
    assert (Hfr : forall l, (forall k c, x_calls s !! k = Some c -> contents (<[x_next s := l]> (x_heap s)) (r_used c) = contents (x_heap s) (r_used c)) /\
      (forall i, contents (<[x_next s := l]> (x_heap s)) (x_map s !! i) = contents (x_heap s) (x_map s !! i))).
    { intros l0. split; [intros k c Hc|intros i]; apply contents_outside, before_outside;
        [apply (v_call_fresh s Hv k c Hc)|apply (v_map_fresh s Hv)]. }
    assert (Hid : (forall k c, x_calls s !! k = Some c -> contents (x_heap s) (r_used c) = contents (x_heap s) (r_used c)) /\
      (forall i, contents (x_heap s) (x_map s !! i) = contents (x_heap s) (x_map s !! i))) by (split; reflexivity).
    destruct l as [id st|k id|k|k|k|k]; cbn [x_step].
    - unfold x_add. destruct (x_map s !! id) as [[a n]|] eqn:Hm; [|apply Hfr].
      destruct (Nat.ltb_spec n (length (array (x_heap s) a))) as [Hlt|Hge]; [|apply Hfr]. cbn [x_heap].
      split.
      + intros k c Hc. apply contents_behind. intros [b m] Hu Hb. cbn in *. subst b. exfalso.
        exact (Hq id st eq_refl k c Hc (eq_sym (v_own_only s Hv k c id a m n Hc Hu Hm))).
      + intros i. apply contents_behind. intros [b m] Hu Hb. cbn in *. subst b.
        pose proof (v_map_apart s Hv i id a m n Hu Hm) as ->. rewrite Hm in Hu. injection Hu as <-. lia.
    - destruct (x_calls s !! k); [exact Hid|]. destruct (x_map s !! id), (x_map s !! UNKNOWN); exact Hid.
    - destruct (x_calls s !! k) as [[id u v [d|] c p]|]; try exact Hid.
      destruct u as [[a n]|]; [|apply Hfr].
      destruct (Nat.leb (n + slen v) (length (array (x_heap s) a))); [exact Hid|apply Hfr].
    - destruct (x_calls s !! k) as [[id u [v|] [d|] c p]|] eqn:Hk; try exact Hid.
      destruct (Nat.ltb_spec c (s_len v)) as [Hlt|]; [|exact Hid]. cbn [x_heap].
      pose proof (v_dst s Hv k _ d Hk eq_refl) as Hd. cbn in Hd. split.
      + intros k2 c2 H2. apply contents_behind. intros [a m] Hu2 Ha. cbn in *. subst a. destruct Hd as [[n Hn]|[_ Hp]].
        * rewrite (v_same s Hv k2 c2 k _ d m n H2 Hk Hu2 Hn), Hn. cbn. lia.
        * destruct (Hp k2 c2 H2) as [Ho _]. rewrite Hu2 in Ho. exfalso. exact (Ho eq_refl).
      + intros i. apply contents_behind. intros [a m] Hm Ha. cbn in *. subst a. destruct Hd as [[n Hn]|[Hp _]].
        * pose proof (v_own_only s Hv k _ i d n m Hk Hn Hm) as Hi. cbn in Hi. subst i.
          destruct (v_own s Hv k _ Hk) as [H|H]; cbn in H; [congruence|]. rewrite Hm, Hn in H. injection H as <-. rewrite Hn. cbn. lia.
        * pose proof (Hp i) as Ho. rewrite Hm in Ho. exfalso. exact (Ho eq_refl).
    - destruct (x_calls s !! k) as [[id u v [d|] c p]|]; try exact Hid.
      destruct (Nat.leb (slen v) c && Nat.ltb p (slen u + slen v))%bool; exact Hid.
    - destruct (x_calls s !! k) as [[id u v [d|] c p]|]; try exact Hid.
      destruct (Nat.leb (slen v) c && Nat.leb (slen u + slen v) p)%bool; exact Hid.
  Qed.
  (** What is to be reset is reset by the end of a call. *)
  Lemma step_call s l k c : xinv s -> x_calls s !! k = Some c ->
    (exists c', x_calls (step l s) !! k = Some c' /\ r_used c' = r_used c) \/
    (x_calls (step l s) !! k = None /\ forall x, x ∈ contents (x_heap s) (r_used c) -> x ∈ x_reset (step l s)).
  Proof.
    intros Hv Hk.
    assert (Hst : forall s', x_calls s' = x_calls s -> exists c', x_calls s' !! k = Some c' /\ r_used c' = r_used c) by (intros s' ->; eauto).
    assert (Hup : forall k2 c2 c2', x_calls s !! k2 = Some c2 -> r_used c2' = r_used c2 ->
      exists c', <[k2 := c2']> (x_calls s) !! k = Some c' /\ r_used c' = r_used c).
    { intros k2 c2 c2' H2 Hu. destruct (decide (k = k2)) as [->|Hn].
      - rewrite lookup_insert. eexists. split; [reflexivity|]. congruence.
      - rewrite lookup_insert_ne by congruence. eauto. }
    destruct l as [id st|k2 id|k2|k2|k2|k2]; cbn [x_step].
    - left. apply Hst. unfold x_add. destruct (x_map s !! id) as [[a n]|]; [|reflexivity].
      destruct (Nat.ltb n (length (array (x_heap s) a))); reflexivity.
    - left. destruct (x_calls s !! k2) eqn:H2; [eauto|].
      assert (k <> k2) by congruence.
      destruct (x_map s !! id), (x_map s !! UNKNOWN); cbn; rewrite ?lookup_insert_ne by congruence; eauto.
    - left. destruct (x_calls s !! k2) as [[id u v [d|] c2 p]|] eqn:H2; [eauto| |eauto].
      destruct u as [[a n]|]; [destruct (Nat.leb (n + slen v) (length (array (x_heap s) a)))|]; cbn;
        eapply Hup; eauto.
    - left. destruct (x_calls s !! k2) as [[id u [v|] [d|] c2 p]|] eqn:H2; try solve [eauto].
      destruct (Nat.ltb c2 (s_len v)); [|eauto]. cbn. eapply Hup; eauto.
    - left. destruct (x_calls s !! k2) as [[id u v [d|] c2 p]|] eqn:H2; try solve [eauto].
      destruct (Nat.leb (slen v) c2 && Nat.ltb p (slen u + slen v))%bool; [|eauto]. cbn. eapply Hup; eauto.
    - destruct (x_calls s !! k2) as [[id u v [d|] c2 p]|] eqn:H2; try solve [eauto].
      destruct (Nat.leb_spec (slen v) c2); [|eauto]. destruct (Nat.leb_spec (slen u + slen v) p) as [Hle|]; [|eauto]. cbn.
      destruct (decide (k = k2)) as [->|Hn]; [|left; rewrite lookup_delete_ne by congruence; eauto].
      right. split; [apply lookup_delete|]. intros x Hx. assert (c = RCall id u v (Some d) c2 p) by congruence. subst c. cbn in Hx.
      apply (v_done s Hv k2 _ x Hk). cbn. rewrite take_ge; [exact Hx|].
      rewrite contents_length by exact (v_call_len s Hv k2 _ Hk). lia.
  Qed.
  Lemma step_reset s l x : x ∈ x_reset s -> x ∈ x_reset (step l s).
  Proof.
    intros Hx. destruct l as [id st|k id|k|k|k|k]; cbn [x_step];
      repeat first [exact Hx | apply elem_of_app; left; exact Hx | progress unfold x_add | match goal with |- x ∈ x_reset (match ?e with _ => _ end) => destruct e end].
  Qed.
  (** What a step does to the map *)
  Lemma step_map s l i x : xinv s -> allowed s l -> x ∈ recorded i s -> x ∈ recorded i (step l s) \/ x ∈ x_reset (step l s).
  Proof.
    intros Hv Hq Hx. destruct (step_contents s l Hv Hq) as [_ Hm]. specialize (Hm i). unfold recorded in *.
    assert (Hsame : x_map (step l s) !! i = x_map s !! i -> x ∈ contents (x_heap (step l s)) (x_map (step l s) !! i)) by (intros ->; rewrite Hm; exact Hx).
    destruct l as [id st|k id|k|k|k|k]; cbn [x_step] in *.
    - left. unfold x_add in *. destruct (x_map s !! id) as [[a n]|] eqn:Hid.
      + pose proof (v_map_len s Hv id) as Hl. rewrite Hid in Hl. cbn in Hl.
        destruct (decide (i = id)) as [->|Hn].
        * rewrite Hid in Hx. cbn in Hx.
          destruct (Nat.ltb_spec n (length (array (x_heap s) a))) as [Hlt|Hge]; cbn [x_heap x_map]; rewrite lookup_insert; cbn; rewrite array_insert.
          -- apply elem_of_take in Hx as (j & Hj & Hjn). apply elem_of_take. exists j. split; [|lia].
             rewrite list_lookup_insert_ne by lia. exact Hj.
          -- rewrite take_app_ge by (rewrite take_length; lia). apply elem_of_app. left. exact Hx.
        * apply Hsame. destruct (Nat.ltb n (length (array (x_heap s) a))); cbn [x_map]; rewrite lookup_insert_ne by congruence; reflexivity.
      + destruct (decide (i = id)) as [->|Hn].
        * rewrite Hid in Hx. inversion Hx.
        * apply Hsame. cbn [x_map]. rewrite lookup_insert_ne by congruence. reflexivity.
    - left. apply Hsame. destruct (x_calls s !! k); [reflexivity|]. destruct (x_map s !! id), (x_map s !! UNKNOWN); reflexivity.
    - left. apply Hsame. destruct (x_calls s !! k) as [[id u v [d|] c p]|]; try reflexivity.
      destruct u as [[a n]|]; [|reflexivity]. destruct (Nat.leb (n + slen v) (length (array (x_heap s) a))); reflexivity.
    - left. apply Hsame. destruct (x_calls s !! k) as [[id u [v|] [d|] c p]|]; try reflexivity.
      destruct (Nat.ltb c (s_len v)); reflexivity.
    - left. apply Hsame. destruct (x_calls s !! k) as [[id u v [d|] c p]|]; try reflexivity.
      destruct (Nat.leb (slen v) c && Nat.ltb p (slen u + slen v))%bool; reflexivity.
    - destruct (x_calls s !! k) as [[id u v [d|] c p]|] eqn:Hk; try (left; apply Hsame; reflexivity).
      destruct (Nat.leb_spec (slen v) c); [|left; apply Hsame; reflexivity].
      destruct (Nat.leb_spec (slen u + slen v) p) as [Hle|]; [|left; apply Hsame; reflexivity]. cbn [andb] in *. cbn [x_map x_heap x_reset] in *.
      destruct (decide (i = id)) as [->|Hn].
      + right. destruct (v_own s Hv k _ Hk) as [H'|H']; cbn in H'; rewrite H' in Hx; [inversion Hx|].
        apply (v_done s Hv k _ x Hk). cbn. rewrite take_ge; [exact Hx|]. rewrite contents_length by exact (v_call_len s Hv k _ Hk). lia.
      + left. apply Hsame. rewrite lookup_delete_ne by congruence. reflexivity.
  Qed.
End Proofs.

Lemma run_app grow ls1 ls2 s : x_run grow (ls1 ++ ls2) s = x_run grow ls2 (x_run grow ls1 s).
Proof. apply fold_left_app. Qed.
Lemma undisturbed_app grow ls1 ls2 : undisturbed grow (ls1 ++ ls2) -> undisturbed grow ls1.
Proof. intros H a id st b k c -> Hc. eapply (H a id st (b ++ ls2)); [|exact Hc]. rewrite <- app_assoc. reflexivity. Qed.
Lemma undisturbed_last grow ls l : undisturbed grow (ls ++ [l]) -> allowed (x_run grow ls x_init) l.
Proof. intros H id st -> k c Hc. exact (H ls id st [] k c eq_refl Hc). Qed.
Lemma inv_run grow ls : undisturbed grow ls -> xinv (x_run grow ls x_init).
Proof.
  induction ls as [|l ls IH] using rev_ind; intros H; [apply xinv_init|].
  rewrite run_app. cbn. apply inv_step; [apply IH; eapply undisturbed_app; exact H|]. exact (undisturbed_last grow ls l H).
Qed.

(** ** C205 *)

(** A release that has ended has reset every stream that was recorded under its id when it
    began, unless a stream was added under an id during a release of this id. *)
Theorem C205_found_is_reset :
  forall grow ls1 k id ls2,
    undisturbed grow (ls1 ++ XRead k id :: ls2) ->
    ~ in_progress k (x_run grow ls1 x_init) ->
    ~ in_progress k (x_run grow (ls1 ++ XRead k id :: ls2) x_init) ->
    forall st, st ∈ recorded id (x_run grow ls1 x_init) ->
      st ∈ x_reset (x_run grow (ls1 ++ XRead k id :: ls2) x_init).
Proof.
  intros grow ls1 k id ls2 Hund Hk1 Hk2 st Hst.
  assert (G : let s := x_run grow (ls1 ++ XRead k id :: ls2) x_init in
    st ∈ x_reset s \/ exists c, x_calls s !! k = Some c /\ st ∈ contents (x_heap s) (r_used c)).
  { clear Hk2. induction ls2 as [|l ls2 IH] using rev_ind.
    - right. rewrite run_app. cbn. destruct (x_calls (x_run grow ls1 x_init) !! k) as [c|] eqn:Hk; [exfalso; apply Hk1; exists c; exact Hk|].
      unfold recorded in Hst.
      destruct (x_map (x_run grow ls1 x_init) !! id) as [u|] eqn:Hu; [|inversion Hst].
      cbn. eexists. rewrite lookup_insert. split; [reflexivity|]. exact Hst.
    - rewrite app_comm_cons, app_assoc in *. rewrite (run_app grow _ [l]). cbn.
      pose proof (undisturbed_app grow _ _ Hund) as Hund'. specialize (IH Hund').
      set (s := x_run grow (ls1 ++ XRead k id :: ls2) x_init) in *.
      assert (Hv : xinv s) by (apply inv_run; exact Hund').
      destruct IH as [Hr|(c & Hc & Hin)]; [left; apply step_reset, Hr|].
      destruct (step_call grow s l k c Hv Hc) as [(c' & Hc' & Hu)|[_ Hall]]; [|left; apply Hall, Hin].
      right. exists c'. split; [exact Hc'|]. rewrite Hu.
      destruct (step_contents grow s l Hv (undisturbed_last grow _ l Hund)) as [Hcc _]. rewrite (Hcc k c Hc). exact Hin. }
  destruct G as [G|(c & Hc & _)]; [exact G|]. exfalso. apply Hk2. exists c. exact Hc.
Qed.
Print Assumptions C205_found_is_reset.

(** ** C206 *)

(** In such histories no stream is lost. *)
Theorem C206_no_stream_lost :
  forall grow ls, undisturbed grow ls ->
    forall id st, In (XAdd id st) ls ->
      let s := x_run grow ls x_init in
      st ∈ recorded id s \/ st ∈ x_reset s \/
      (exists k c, x_calls s !! k = Some c /\ st ∈ contents (x_heap s) (r_used c)).
Proof.
  intros grow ls. induction ls as [|l ls IH] using rev_ind; intros Hund id st Hin s; [destruct Hin|].
  subst s. pose proof (undisturbed_app grow _ _ Hund) as Hund'. pose proof (undisturbed_last grow ls l Hund) as Hal.
  rewrite run_app. cbn. set (s := x_run grow ls x_init) in *. assert (Hv : xinv s) by (apply inv_run; exact Hund').
  apply in_app_iff in Hin as [Hin|[->|[]]].
  - destruct (IH Hund' id st Hin) as [Hi|[Hr|(k & c & Hc & Hx)]].
    + destruct (step_map grow s l id st Hv Hal Hi) as [H|H]; eauto.
    + right. left. apply step_reset, Hr.
    + destruct (step_call grow s l k c Hv Hc) as [(c' & Hc' & Hu)|[_ Hall]]; [|right; left; apply Hall, Hx].
      right. right. exists k, c'. split; [exact Hc'|]. rewrite Hu. destruct (step_contents grow s l Hv Hal) as [Hcc _]. rewrite (Hcc k c Hc). exact Hx.
  - left. cbn. unfold recorded, x_add. destruct (x_map s !! id) as [[a n]|] eqn:Hm.
    + pose proof (v_map_len s Hv id) as Hl. rewrite Hm in Hl. cbn in Hl.
      destruct (Nat.ltb_spec n (length (array (x_heap s) a))) as [Hlt|Hge]; cbn [x_heap x_map]; rewrite lookup_insert; cbn; rewrite array_insert; apply elem_of_take; exists n; (split; [|lia]).
      * apply list_lookup_insert. exact Hlt.
      * rewrite lookup_app_r by (rewrite take_length; lia). rewrite take_length, Nat.min_l by lia. rewrite Nat.sub_diag. reflexivity.
    + cbn [x_heap x_map]. rewrite lookup_insert. cbn. rewrite array_insert. left.
Qed.
Print Assumptions C206_no_stream_lost.

(** A stream may be added under an id while a release of this id is in progress, in the
    place behind the streams this release has found. The release then puts a stream of an
    unknown id there. A second release of the id, which begins after the stream is added,
    finds the other stream in its place; both end, and the stream is neither recorded nor
    reset. *)
Definition doubling (n : nat) : nat := n - 1.
Definition overwritten : list xlabel :=
  [XAdd "m" 1; XAdd "m" 2; XAdd "m" 3; XAdd UNKNOWN 9; XRead 0 "m"; XAdd "m" 4].
Definition overwritten_end : list xlabel :=
  [XAppend 0; XCopy 0; XAppend 1; XCopy 1; XReset 1; XReset 1; XReset 1; XReset 1; XReset 1; XDelete 1;
   XReset 0; XReset 0; XReset 0; XReset 0; XDelete 0].
Lemma overwritten_before1 : x_calls (x_run doubling overwritten x_init) !! 1 = None.
Proof. vm_compute. reflexivity. Qed.
Lemma overwritten_before2 : recorded "m" (x_run doubling overwritten x_init) = [1; 2; 3; 4].
Proof. vm_compute. reflexivity. Qed.
Lemma overwritten_after1 : x_reset (x_run doubling (overwritten ++ XRead 1 "m" :: overwritten_end) x_init) = [1; 2; 3; 9; 9; 1; 2; 3; 9].
Proof. vm_compute. reflexivity. Qed.
Lemma overwritten_after2 : x_map (x_run doubling (overwritten ++ XRead 1 "m" :: overwritten_end) x_init) !! "m" = None.
Proof. vm_compute. reflexivity. Qed.
Lemma overwritten_after3 : map_to_list (x_calls (x_run doubling (overwritten ++ XRead 1 "m" :: overwritten_end) x_init)) = [].
Proof. vm_compute. reflexivity. Qed.
Theorem C205_any_history_refuted :
  ~ forall grow ls1 k id ls2,
    ~ in_progress k (x_run grow ls1 x_init) ->
    ~ in_progress k (x_run grow (ls1 ++ XRead k id :: ls2) x_init) ->
    forall st, st ∈ recorded id (x_run grow ls1 x_init) ->
      let s := x_run grow (ls1 ++ XRead k id :: ls2) x_init in
      st ∈ x_reset s \/ st ∈ recorded id s \/ exists k, in_progress k s.
Proof.
  intros H. specialize (H doubling overwritten 1 "m" overwritten_end).
  pose proof overwritten_before1 as B1. pose proof overwritten_before2 as B2.
  pose proof overwritten_after1 as A1. pose proof overwritten_after2 as A2. pose proof overwritten_after3 as A3.
  revert H B1 B2 A1 A2 A3. cbv zeta.
  generalize (x_run doubling overwritten x_init). generalize (x_run doubling (overwritten ++ XRead 1 "m" :: overwritten_end) x_init).
  intros t s H B1 B2 Er Em Ec. apply map_to_list_empty_iff in Ec.
  assert (F : 4 ∈ x_reset t \/ 4 ∈ recorded "m" t \/ exists k, in_progress k t).
  { apply H.
    - intros [c Hc]. congruence.
    - intros [c Hc]. rewrite Ec in Hc. rewrite lookup_empty in Hc. discriminate Hc.
    - rewrite B2. do 3 apply elem_of_list_further. apply elem_of_list_here. }
  destruct F as [G|[G|[k [c G]]]].
  - rewrite Er in G. repeat (apply elem_of_cons in G as [G|G]; [discriminate G|]). inversion G.
  - unfold recorded in G. rewrite Em in G. inversion G.
  - rewrite Ec in G. rewrite lookup_empty in G. discriminate G.
Qed.
Print Assumptions C205_any_history_refuted.

(** ** A case *)

Fixpoint quiet (grow : nat -> nat) (ls : list xlabel) (s : xstate) : bool :=
  match ls with
  | [] => true
  | l :: ls =>
      (match l with
       | XAdd id _ => forallb (fun kc => negb (String.eqb (r_id kc.2) id)) (map_to_list (x_calls s))
       | _ => true
       end && quiet grow ls (x_step grow l s))%bool
  end.
Lemma quiet_spec grow : forall ls s, quiet grow ls s = true ->
  forall ls1 id st ls2 k c, ls = ls1 ++ XAdd id st :: ls2 -> x_calls (x_run grow ls1 s) !! k = Some c -> r_id c <> id.
Proof.
  induction ls as [|l ls IH]; intros s H ls1 id st ls2 k c Hl Hc; [destruct ls1; discriminate Hl|].
  cbn in H. apply andb_true_iff in H as [H1 H2]. destruct ls1 as [|l1 ls1].
  - cbn in Hl, Hc. injection Hl as -> ->. rewrite forallb_forall in H1. intros He.
    assert (Hin : In (k, c) (map_to_list (x_calls s))) by (apply elem_of_list_In, elem_of_map_to_list; exact Hc).
    specialize (H1 _ Hin). cbn in H1. rewrite He, String.eqb_refl in H1. discriminate H1.
  - cbn in Hl. injection Hl as -> ->. exact (IH _ H2 ls1 id st ls2 k c eq_refl Hc).
Qed.
Definition two_releases : list xlabel :=
  [XAdd "m" 1; XAdd "m" 2; XAdd "m" 3; XAdd UNKNOWN 9; XRead 0 "m"].
Definition two_releases_end : list xlabel :=
  [XAppend 0; XAppend 1; XCopy 0; XAdd "n" 5; XCopy 1; XReset 0; XReset 1; XReset 0; XReset 0; XReset 0; XDelete 0;
   XAdd "n" 6; XReset 1; XReset 1; XReset 1; XDelete 1].
(** Two releases that share an array: both reset all. *)
Example C205_example :
  let ls := two_releases ++ XRead 1 "m" :: two_releases_end in
  undisturbed doubling ls /\
  ~ in_progress 1 (x_run doubling two_releases x_init) /\
  ~ in_progress 1 (x_run doubling ls x_init) /\
  recorded "m" (x_run doubling two_releases x_init) = [1; 2; 3] /\
  x_reset (x_run doubling ls x_init) = [1; 1; 2; 3; 9; 2; 3; 9] /\
  recorded "n" (x_run doubling ls x_init) = [5; 6].
Proof.
  assert (E1 : x_calls (x_run doubling two_releases x_init) !! 1 = None) by (vm_compute; reflexivity).
  assert (E2 : x_calls (x_run doubling (two_releases ++ XRead 1 "m" :: two_releases_end) x_init) !! 1 = None) by (vm_compute; reflexivity).
  assert (Hq : quiet doubling (two_releases ++ XRead 1 "m" :: two_releases_end) x_init = true) by (vm_compute; reflexivity).
  cbv zeta. split; [|split; [|split; [|split; [|split]]]].
  - intros ls1 id st ls2 k c. exact (quiet_spec doubling _ _ Hq ls1 id st ls2 k c).
  - intros [c Hc]. congruence.
  - intros [c Hc]. congruence.
  - vm_compute. reflexivity.
  - vm_compute. reflexivity.
  - vm_compute. reflexivity.
Qed.
(** In the middle of it, a stream that is nowhere but in a call in progress *)
Example C206_example :
  let s := x_run doubling (take 16 (two_releases ++ XRead 1 "m" :: two_releases_end)) x_init in
  recorded "n" s = [5] /\ recorded "m" s = [1; 2; 3] /\ in_progress 0 s /\ in_progress 1 s.
Proof.
  cbv zeta. split; [vm_compute; reflexivity|]. split; [vm_compute; reflexivity|].
  split; eexists; vm_compute; reflexivity.
Qed.
