(** C205 for the streams recorded under no id in particular. *)
From Coq Require Import Ascii String List Lia.
From stdpp Require Import base list strings gmap.
From Verif Require Import Base M_Comm M_Slices S_Slices P_Slices.

Notation unknown s := (contents (x_heap s) (x_map s !! UNKNOWN)).
Record uinv (s : xstate) : Prop := UInv {
  u_id : forall k c, x_calls s !! k = Some c -> r_id c <> UNKNOWN;
  u_arr : forall k c a m, x_calls s !! k = Some c -> r_unknown c = Some (Slice a m) ->
    a < x_next s /\ (forall i n, x_map s !! i = Some (Slice a n) -> i = UNKNOWN /\ m <= n) /\
    forall k' c', x_calls s !! k' = Some c' -> outside a (r_used c') /\ r_dst c' <> Some a;
  u_pre : forall k c, x_calls s !! k = Some c ->
    slen (r_unknown c) <= length (unknown s) /\ contents (x_heap s) (r_unknown c) = take (slen (r_unknown c)) (unknown s);
  u_le : forall k c, x_calls s !! k = Some c -> r_copied c <= slen (r_unknown c) /\ (r_dst c = None -> r_copied c = 0);
  u_cap : forall k c d, x_calls s !! k = Some c -> r_dst c = Some d ->
    slen (r_used c) + slen (r_unknown c) <= length (array (x_heap s) d);
  u_copied : forall k c d j, x_calls s !! k = Some c -> r_dst c = Some d -> j < r_copied c ->
    array (x_heap s) d !! (slen (r_used c) + j) = unknown s !! j;
  u_pos : forall k c, x_calls s !! k = Some c -> r_pos c <= slen (r_used c) + slen (r_unknown c);
  u_done : forall k c j x, x_calls s !! k = Some c -> slen (r_used c) + j < r_pos c -> unknown s !! j = Some x -> x ∈ x_reset s }.

Lemma uinv_init : uinv x_init.
Proof.
  constructor; cbn; intros; match goal with H : ∅ !! _ = Some _ |- _ => rewrite lookup_empty in H; discriminate end.
Qed.

(** When the calls are the same, the list is longer by [r], and the arrays the calls have are as they were. *)
Lemma uinv_same s s' r :
  uinv s -> x_calls s' = x_calls s -> x_reset s' = x_reset s -> x_next s <= x_next s' ->
  unknown s' = (unknown s ++ r)%list ->
  (forall i a n, x_map s' !! i = Some (Slice a n) -> x_next s <= a \/ exists n0, n0 <= n /\ x_map s !! i = Some (Slice a n0)) ->
  (forall k c, x_calls s !! k = Some c -> contents (x_heap s') (r_unknown c) = contents (x_heap s) (r_unknown c)) ->
  (forall k c d, x_calls s !! k = Some c -> r_dst c = Some d -> array (x_heap s') d = array (x_heap s) d) ->
  uinv s'.
Proof.
  intros [Ui Ua Up Ul Uc Uo Us Ud] Ec Er En Eu Em Ev Ed. constructor; rewrite ?Ec, ?Er, ?Eu.
  - exact Ui.
  - intros k c a m Hc Hv. destruct (Ua k c a m Hc Hv) as (A1 & A2 & A3). split; [lia|]. split; [|exact A3].
    intros i n Hi. destruct (Em i a n Hi) as [H|(n0 & Hn & H)]; [lia|]. destruct (A2 i n0 H). split; [assumption|lia].
  - intros k c Hc. destruct (Up k c Hc) as [A1 A2]. rewrite app_length. split; [lia|]. rewrite (Ev k c Hc), A2, take_app_le by exact A1. reflexivity.
  - exact Ul.
  - intros k c d Hc Hd. rewrite (Ed k c d Hc Hd). exact (Uc k c d Hc Hd).
  - intros k c d j Hc Hd Hj. rewrite (Ed k c d Hc Hd). rewrite (Uo k c d j Hc Hd Hj). destruct (Ul k c Hc), (Up k c Hc).
    rewrite lookup_app_l by lia. reflexivity.
  - exact Us.
  - intros k c j x Hc Hj. pose proof (Us k c Hc). destruct (Up k c Hc). rewrite lookup_app_l by lia. exact (Ud k c j x Hc Hj).
Qed.

Lemma slice_eta (o : option slice) : o = None \/ exists a n, o = Some (Slice a n).
Proof. destruct o as [[a n]|]; eauto. Qed.

Section Step.
  Context (grow : nat -> nat).

  (** no call has the array of a list of the table it did not find there *)
  Lemma apart_from s i a n : xinv s -> x_map s !! i = Some (Slice a n) ->
    (forall k c, x_calls s !! k = Some c -> r_id c <> i) ->
    forall k c, x_calls s !! k = Some c -> outside a (r_used c) /\ r_dst c <> Some a.
  Proof.
    intros Hv Hi Hq k c Hc.
    assert (Ho : outside a (r_used c)).
    { destruct (r_used c) as [[b m]|] eqn:Hu; [|exact I]. cbn. intros ->.
      exact (Hq k c Hc (eq_sym (v_own_only s Hv k c i a m n Hc Hu Hi))). }
    split; [exact Ho|]. intros Hd. destruct (v_dst s Hv k c a Hc Hd) as [[m H]|[H _]].
    - rewrite H in Ho. exact (Ho eq_refl).
    - specialize (H i). rewrite Hi in H. exact (H eq_refl).
  Qed.

  Lemma uinv_add s id st : xinv s -> uinv s -> (forall k c, x_calls s !! k = Some c -> r_id c <> id) -> uinv (x_add grow id st s).
  Proof.
    intros Hv Hu Hq.
    assert (Hfresh : forall l n, n <= length l -> (exists r, (if decide (id = UNKNOWN) then take n l else unknown s) = (unknown s ++ r)%list) ->
      uinv (XState (<[x_next s := l]> (x_heap s)) (S (x_next s)) (<[id := Slice (x_next s) n]> (x_map s)) (x_calls s) (x_reset s))).
    { intros l n Hn [r Hr]. apply (uinv_same s _ r Hu); cbn [x_heap x_next x_map x_calls x_reset]; [reflexivity|reflexivity|lia| | | |].
      - rewrite <- Hr. destruct (decide (id = UNKNOWN)) as [->|Hne].
        + rewrite lookup_insert. cbn. rewrite array_insert. reflexivity.
        + rewrite lookup_insert_ne by exact Hne. apply contents_outside, before_outside, (v_map_fresh s Hv).
      - intros i a m Hi. destruct (decide (i = id)) as [->|Hne].
        + rewrite lookup_insert in Hi. injection Hi as <- <-. left. lia.
        + rewrite lookup_insert_ne in Hi by congruence. right. exists m. split; [lia|exact Hi].
      - intros k c Hc. apply contents_outside. destruct (r_unknown c) as [[a m]|] eqn:Hru; [|exact I].
        destruct (u_arr s Hu k c a m Hc Hru) as (A1 & _). cbn. lia.
      - intros k c d Hc Hd. apply array_insert_ne. destruct (v_call_fresh s Hv k c Hc) as [_ H]. specialize (H d Hd). lia. }
    unfold x_add. destruct (x_map s !! id) as [[a n]|] eqn:Hm.
    - pose proof (v_map_len s Hv id) as Hl. rewrite Hm in Hl. cbn in Hl.
      destruct (Nat.ltb_spec n (length (array (x_heap s) a))) as [Hlt|Hge].
      + apply (uinv_same s _ (if decide (id = UNKNOWN) then [st] else []) Hu); cbn [x_heap x_next x_map x_calls x_reset]; [reflexivity|reflexivity|lia| | | |].
        * destruct (decide (id = UNKNOWN)) as [->|Hne].
          -- rewrite lookup_insert, Hm. cbn. rewrite array_insert.
             rewrite (take_S_r _ n st) by (apply list_lookup_insert; exact Hlt). rewrite take_insert by lia. reflexivity.
          -- rewrite lookup_insert_ne by exact Hne. rewrite app_nil_r. apply contents_behind.
             intros [b m] Hb Hab. cbn in *. subst b. exfalso. apply Hne. exact (v_map_apart s Hv id UNKNOWN a n m Hm Hb).
        * intros i b m Hi. right. destruct (decide (i = id)) as [->|Hne].
          -- rewrite lookup_insert in Hi. injection Hi as <- <-. exists n. split; [lia|exact Hm].
          -- rewrite lookup_insert_ne in Hi by congruence. exists m. split; [lia|exact Hi].
        * intros k c Hc. apply contents_behind. intros [b m] Hb Hab. cbn in *. subst b.
          destruct (u_arr s Hu k c a m Hc Hb) as (_ & A2 & _). destruct (A2 id n Hm). assumption.
        * intros k c d Hc Hd. apply array_insert_ne. intros ->. destruct (apart_from s id a n Hv Hm Hq k c Hc) as [_ H]. exact (H Hd).
      + apply Hfresh; [rewrite app_length, take_length; cbn; lia|].
        destruct (decide (id = UNKNOWN)) as [->|_]; [|exists []; rewrite app_nil_r; reflexivity].
        exists [st]. rewrite Hm. cbn. rewrite take_app_ge by (rewrite take_length; lia). rewrite take_length, Nat.min_l by lia.
        replace (S n - n) with 1 by lia. reflexivity.
    - apply Hfresh; [cbn; lia|]. destruct (decide (id = UNKNOWN)) as [->|_]; [|exists []; rewrite app_nil_r; reflexivity].
      exists [st]. rewrite Hm. reflexivity.
  Qed.

  Lemma uinv_read s k id : xinv s -> uinv s -> id <> UNKNOWN -> x_calls s !! k = None ->
    uinv (put_call k (RCall id (x_map s !! id) (x_map s !! UNKNOWN) None 0 0) s).
  Proof.
    intros Hv Hu Hid Hk. pose proof Hu as [Ui Ua Up Ul Uc Uo Us Ud].
    constructor; unfold put_call; cbn [x_heap x_next x_map x_calls x_reset].
    - intros k2 c2 H2. destruct (decide (k2 = k)) as [->|Hn]; [rewrite lookup_insert in H2; injection H2 as <-; exact Hid|].
      rewrite lookup_insert_ne in H2 by congruence. eauto.
    - intros k2 c2 a m H2 Hru.
      assert (Hold : a < x_next s /\ (forall i n, x_map s !! i = Some (Slice a n) -> i = UNKNOWN /\ m <= n) /\
        forall k' c', x_calls s !! k' = Some c' -> outside a (r_used c') /\ r_dst c' <> Some a).
      { destruct (decide (k2 = k)) as [->|Hn].
        - rewrite lookup_insert in H2. injection H2 as <-. cbn in Hru.
          split; [pose proof (v_map_fresh s Hv UNKNOWN) as H; rewrite Hru in H; exact H|]. split.
          + intros i n Hi. pose proof (v_map_apart s Hv i UNKNOWN a n m Hi Hru) as ->. split; [reflexivity|]. rewrite Hru in Hi. injection Hi as <-. lia.
          + exact (apart_from s UNKNOWN a m Hv Hru Ui).
        - rewrite lookup_insert_ne in H2 by congruence. exact (Ua k2 c2 a m H2 Hru). }
      destruct Hold as (A1 & A2 & A3). split; [exact A1|]. split; [exact A2|]. intros k' c' H'. destruct (decide (k' = k)) as [->|Hn].
      + rewrite lookup_insert in H'. injection H' as <-. cbn. split; [|discriminate].
        destruct (x_map s !! id) as [[b n]|] eqn:Hb; [|exact I]. cbn. intros ->. destruct (A2 id n Hb) as [E _]. exact (Hid E).
      + rewrite lookup_insert_ne in H' by congruence. exact (A3 k' c' H').
    - intros k2 c2 H2. destruct (decide (k2 = k)) as [->|Hn].
      + rewrite lookup_insert in H2. injection H2 as <-. cbn [r_unknown]. rewrite <- contents_length with (h := x_heap s) by exact (v_map_len s Hv UNKNOWN).
        split; [lia|]. rewrite firstn_all. reflexivity.
      + rewrite lookup_insert_ne in H2 by congruence. eauto.
    - intros k2 c2 H2. destruct (decide (k2 = k)) as [->|Hn]; [rewrite lookup_insert in H2; injection H2 as <-; cbn; split; [lia|reflexivity]|].
      rewrite lookup_insert_ne in H2 by congruence. eauto.
    - intros k2 c2 d H2 Hd. destruct (decide (k2 = k)) as [->|Hn]; [rewrite lookup_insert in H2; injection H2 as <-; discriminate Hd|].
      rewrite lookup_insert_ne in H2 by congruence. eauto.
    - intros k2 c2 d j H2 Hd. destruct (decide (k2 = k)) as [->|Hn]; [rewrite lookup_insert in H2; injection H2 as <-; discriminate Hd|].
      rewrite lookup_insert_ne in H2 by congruence. eauto.
    - intros k2 c2 H2. destruct (decide (k2 = k)) as [->|Hn]; [rewrite lookup_insert in H2; injection H2 as <-; cbn; lia|].
      rewrite lookup_insert_ne in H2 by congruence. eauto.
    - intros k2 c2 j x H2. destruct (decide (k2 = k)) as [->|Hn]; [rewrite lookup_insert in H2; injection H2 as <-; cbn; lia|].
      rewrite lookup_insert_ne in H2 by congruence. eauto.
  Qed.

  (** A call goes on: [c'] for [c]; the map is as it was. *)
  Lemma uinv_call s k c c' h n reset :
    xinv s -> uinv s -> x_calls s !! k = Some c ->
    r_id c' = r_id c -> r_used c' = r_used c -> r_unknown c' = r_unknown c ->
    x_next s <= n -> (forall x, x ∈ x_reset s -> x ∈ reset) ->
    contents h (x_map s !! UNKNOWN) = unknown s ->
    (forall k2 c2, x_calls s !! k2 = Some c2 -> contents h (r_unknown c2) = contents (x_heap s) (r_unknown c2)) ->
    (forall d, r_dst c' = Some d -> r_dst c <> Some d -> x_next s <= d \/ exists m, r_used c = Some (Slice d m)) ->
    (forall k2 c2 d, k2 <> k -> x_calls s !! k2 = Some c2 -> r_dst c2 = Some d -> length (array h d) = length (array (x_heap s) d)) ->
    (forall k2 c2 d j, k2 <> k -> x_calls s !! k2 = Some c2 -> r_dst c2 = Some d -> j < r_copied c2 ->
       array h d !! (slen (r_used c2) + j) = unknown s !! j) ->
    r_copied c' <= slen (r_unknown c) -> (r_dst c' = None -> r_copied c' = 0) ->
    (forall d, r_dst c' = Some d -> slen (r_used c) + slen (r_unknown c) <= length (array h d)) ->
    (forall d j, r_dst c' = Some d -> j < r_copied c' -> array h d !! (slen (r_used c) + j) = unknown s !! j) ->
    r_pos c' <= slen (r_used c) + slen (r_unknown c) ->
    (forall j x, slen (r_used c) + j < r_pos c' -> unknown s !! j = Some x -> x ∈ reset) ->
    uinv (XState h n (x_map s) (<[k := c']> (x_calls s)) reset).
  Proof.
    intros Hv Hu Hk Ei Eu Ev En Er EU Eun Ed El Eo C1 C2 C3 C4 C5 C6. pose proof Hu as [Ui Ua Up Ul Uc Uo Us Ud].
    constructor; cbn [x_heap x_next x_map x_calls x_reset]; rewrite ?EU.
    - intros k2 c2 H2. destruct (decide (k2 = k)) as [->|Hn]; [rewrite lookup_insert in H2; injection H2 as <-; rewrite Ei; eauto|].
      rewrite lookup_insert_ne in H2 by congruence. eauto.
    - intros k2 c2 a m H2 Hru.
      assert (Hold : a < x_next s /\ (forall i n, x_map s !! i = Some (Slice a n) -> i = UNKNOWN /\ m <= n) /\
        forall k' c', x_calls s !! k' = Some c' -> outside a (r_used c') /\ r_dst c' <> Some a).
      { destruct (decide (k2 = k)) as [->|Hn].
        - rewrite lookup_insert in H2. injection H2 as <-. rewrite Ev in Hru. exact (Ua k c a m Hk Hru).
        - rewrite lookup_insert_ne in H2 by congruence. exact (Ua k2 c2 a m H2 Hru). }
      destruct Hold as (A1 & A2 & A3). split; [lia|]. split; [exact A2|]. intros k' c3 H'. destruct (decide (k' = k)) as [->|Hn].
      + rewrite lookup_insert in H'. injection H' as <-. rewrite Eu. destruct (A3 k c Hk) as [B1 B2]. split; [exact B1|].
        intros Hd. destruct (Ed a Hd B2) as [H|[p H]]; [lia|]. rewrite H in B1. exact (B1 eq_refl).
      + rewrite lookup_insert_ne in H' by congruence. exact (A3 k' c3 H').
    - intros k2 c2 H2. destruct (decide (k2 = k)) as [->|Hn].
      + rewrite lookup_insert in H2. injection H2 as <-. rewrite Ev, (Eun k c Hk). exact (Up k c Hk).
      + rewrite lookup_insert_ne in H2 by congruence. rewrite (Eun k2 c2 H2). exact (Up k2 c2 H2).
    - intros k2 c2 H2. destruct (decide (k2 = k)) as [->|Hn]; [rewrite lookup_insert in H2; injection H2 as <-; rewrite Ev; split; assumption|].
      rewrite lookup_insert_ne in H2 by congruence. eauto.
    - intros k2 c2 d H2 Hd. destruct (decide (k2 = k)) as [->|Hn]; [rewrite lookup_insert in H2; injection H2 as <-; rewrite Eu, Ev; eauto|].
      rewrite lookup_insert_ne in H2 by congruence. rewrite (El k2 c2 d Hn H2 Hd). eauto.
    - intros k2 c2 d j H2 Hd Hj. destruct (decide (k2 = k)) as [->|Hn]; [rewrite lookup_insert in H2; injection H2 as <-; rewrite Eu; eauto|].
      rewrite lookup_insert_ne in H2 by congruence. eauto.
    - intros k2 c2 H2. destruct (decide (k2 = k)) as [->|Hn]; [rewrite lookup_insert in H2; injection H2 as <-; rewrite Eu, Ev; exact C5|].
      rewrite lookup_insert_ne in H2 by congruence. eauto.
    - intros k2 c2 j x H2 Hj Hx. destruct (decide (k2 = k)) as [->|Hn]; [rewrite lookup_insert in H2; injection H2 as <-; rewrite Eu in Hj; eauto|].
      rewrite lookup_insert_ne in H2 by congruence. eauto.
  Qed.

  Lemma uinv_step s l : xinv s -> uinv s -> allowed s l -> (forall k, l <> XRead k UNKNOWN) -> uinv (x_step grow l s).
  Proof.
    intros Hv Hu Hq Hn. destruct (step_contents grow s l Hv Hq) as [_ Hcm]. specialize (Hcm UNKNOWN).
    destruct l as [id st|k id|k|k|k|k]; cbn [x_step] in *.
    - apply uinv_add; [exact Hv|exact Hu|]. exact (Hq id st eq_refl).
    - destruct (x_calls s !! k) eqn:Hk; [exact Hu|].
      assert (Hid : id <> UNKNOWN) by (intros ->; exact (Hn k eq_refl)).
      pose proof (uinv_read s k id Hv Hu Hid Hk) as H.
      destruct (x_map s !! id) eqn:H1, (x_map s !! UNKNOWN) eqn:H2; assumption.
    - destruct (x_calls s !! k) as [[id u v [d|] c p]|] eqn:Hk; [exact Hu| |exact Hu].
      destruct (u_le s Hu k _ Hk) as [_ Hc0]. specialize (Hc0 eq_refl). cbn in Hc0. subst c.
      assert (Hfresh : uinv (XState (<[x_next s := contents (x_heap s) u ++ replicate (slen v + grow (slen u)) 0]> (x_heap s))
                (S (x_next s)) (x_map s) (<[k := RCall id u v (Some (x_next s)) 0 p]> (x_calls s)) (x_reset s))).
      { assert (Hne : forall k2 c2 d, x_calls s !! k2 = Some c2 -> r_dst c2 = Some d -> d <> x_next s).
        { intros k2 c2 d H2 Hd. destruct (v_call_fresh s Hv k2 c2 H2) as [_ H]. specialize (H d Hd). lia. }
        apply (uinv_call s k _ _ _ _ _ Hv Hu Hk); cbn [r_id r_used r_unknown r_dst r_copied r_pos]; try reflexivity; try lia; auto.
        - apply contents_outside, before_outside, (v_map_fresh s Hv).
        - intros k2 c2 H2. apply contents_outside. destruct (r_unknown c2) as [[a m]|] eqn:Hru; [|exact I].
          destruct (u_arr s Hu k2 c2 a m H2 Hru) as (A1 & _). cbn. lia.
        - intros d [= <-] _. left. lia.
        - intros k2 c2 d _ H2 Hd. rewrite array_insert_ne by (exact (Hne k2 c2 d H2 Hd)). reflexivity.
        - intros k2 c2 d j _ H2 Hd Hj. rewrite array_insert_ne by (exact (Hne k2 c2 d H2 Hd)). exact (u_copied s Hu k2 c2 d j H2 Hd Hj).
        - intros d [= <-]. rewrite array_insert, app_length, replicate_length, contents_length by exact (v_call_len s Hv k _ Hk). lia.
        - exact (u_pos s Hu k _ Hk).
        - intros j x. exact (u_done s Hu k _ j x Hk). }
      destruct u as [[a n]|]; [|exact Hfresh].
      destruct (Nat.leb_spec (n + slen v) (length (array (x_heap s) a))) as [Hle|]; [|exact Hfresh].
      unfold put_call. apply (uinv_call s k _ _ _ _ _ Hv Hu Hk); cbn [r_id r_used r_unknown r_dst r_copied r_pos]; try reflexivity; try lia; auto.
      + intros d [= <-] _. right. eauto.
      + intros k2 c2 d j _ H2 Hd Hj. exact (u_copied s Hu k2 c2 d j H2 Hd Hj).
      + intros d [= <-]. exact Hle.
      + exact (u_pos s Hu k _ Hk).
      + intros j x. exact (u_done s Hu k _ j x Hk).
    - destruct (x_calls s !! k) as [[id u [v|] [d|] c p]|] eqn:Hk; try exact Hu.
      destruct (Nat.ltb_spec c (s_len v)) as [Hlt|]; [|exact Hu]. cbn [x_heap] in Hcm.
      destruct (u_pre s Hu k _ Hk) as [P1 P2]. cbn in P1, P2.
      assert (Hx : unknown s !! c = Some (nth c (array (x_heap s) (s_arr v)) 0)).
      { assert (Hc : c < length (array (x_heap s) (s_arr v))).
        { assert (length (take (s_len v) (array (x_heap s) (s_arr v))) = s_len v) by (rewrite P2, take_length; lia). rewrite take_length in H. lia. }
        rewrite <- (lookup_take _ (s_len v)) by exact Hlt. rewrite <- P2. rewrite lookup_take by exact Hlt.
        apply nth_lookup_Some with (d := 0); [|reflexivity] || (rewrite nth_lookup; destruct (lookup_lt_is_Some_2 _ _ Hc) as [y Hy]; rewrite Hy; reflexivity). }
      assert (Hcap := u_cap s Hu k _ d Hk eq_refl). cbn in Hcap.
      assert (Hat : forall y i, array (<[d := <[slen u + c := y]> (array (x_heap s) d)]> (x_heap s)) d !! i =
        if decide (i = slen u + c) then Some y else array (x_heap s) d !! i).
      { intros y i. rewrite array_insert. destruct (decide (i = slen u + c)) as [->|Hne]; [apply list_lookup_insert; lia|apply list_lookup_insert_ne; congruence]. }
      apply (uinv_call s k _ _ _ _ _ Hv Hu Hk); cbn [r_id r_used r_unknown r_dst r_copied r_pos]; try reflexivity; try lia; auto.
      + intros k2 c2 H2. apply contents_outside. destruct (r_unknown c2) as [[a m]|] eqn:Hru; [|exact I].
        destruct (u_arr s Hu k2 c2 a m H2 Hru) as (_ & _ & A3). destruct (A3 k _ Hk) as [_ A]. cbn in *. congruence.
      + intros e [= <-] Hne. exfalso. apply Hne. reflexivity.
      + intros k2 c2 e _ H2 He. destruct (decide (e = d)) as [->|Hne]; [rewrite array_insert, insert_length; reflexivity|rewrite array_insert_ne by exact Hne; reflexivity].
      + intros k2 c2 e j Hk2 H2 He Hj. destruct (decide (e = d)) as [->|Hne]; [|rewrite array_insert_ne by exact Hne; exact (u_copied s Hu k2 c2 e j H2 He Hj)].
        assert (Hs : slen (r_used c2) = slen u).
        { destruct (v_dst s Hv k _ d Hk eq_refl) as [[n Hn1]|[_ A]]; cbn in *.
          - destruct (v_dst s Hv k2 c2 d H2 He) as [[m Hm]|[_ A]].
            + rewrite Hm, Hn1. cbn. exact (v_same s Hv k2 c2 k _ d m n H2 Hk Hm Hn1).
            + destruct (A k _ Hk) as [A1 _]. cbn in A1. rewrite Hn1 in A1. exfalso. exact (A1 eq_refl).
          - destruct (A k2 c2 H2) as [_ A2]. exfalso. exact (A2 Hk2 He). }
        rewrite Hat. rewrite Hs. destruct (decide (slen u + j = slen u + c)) as [E|_].
        * assert (j = c) by lia. subst j. rewrite Hx. reflexivity.
        * rewrite <- Hs. exact (u_copied s Hu k2 c2 d j H2 He Hj).
      + discriminate.
      + intros e [= <-]. rewrite array_insert, insert_length. exact Hcap.
      + intros e j [= <-] Hj. rewrite Hat. destruct (decide (slen u + j = slen u + c)) as [E|E].
        * assert (j = c) by lia. subst j. rewrite Hx. reflexivity.
        * refine (u_copied s Hu k _ d j Hk eq_refl _). cbn. lia.
      + exact (u_pos s Hu k _ Hk).
      + intros j x. exact (u_done s Hu k _ j x Hk).
    - destruct (x_calls s !! k) as [[id u v [d|] c p]|] eqn:Hk; try exact Hu.
      destruct (Nat.leb_spec (slen v) c) as [Hle|]; [|exact Hu]. destruct (Nat.ltb_spec p (slen u + slen v)) as [Hlt|]; [|exact Hu]. cbn [andb].
      destruct (u_le s Hu k _ Hk) as [L1 L2]. cbn in L1, L2.
      apply (uinv_call s k _ _ _ _ _ Hv Hu Hk); cbn [r_id r_used r_unknown r_dst r_copied r_pos]; try reflexivity; try lia; auto.
      + intros x Hx. apply elem_of_app. left. exact Hx.
      + intros e H H'. exfalso. exact (H' H).
      + intros k2 c2 e j _ H2 He Hj. exact (u_copied s Hu k2 c2 e j H2 He Hj).
      + intros e He. exact (u_cap s Hu k _ e Hk He).
      + intros e j He Hj. exact (u_copied s Hu k _ e j Hk He Hj).
      + intros j x Hj Hx. destruct (decide (slen u + j = p)) as [E|E].
        * apply elem_of_app. right. apply elem_of_list_singleton.
          assert (H : array (x_heap s) d !! (slen u + j) = Some x) by (rewrite <- Hx; refine (u_copied s Hu k _ d j Hk eq_refl _); cbn; lia).
          rewrite <- E. symmetry. rewrite nth_lookup, H. reflexivity.
        * apply elem_of_app. left. refine (u_done s Hu k _ j x Hk _ Hx). cbn. lia.
    - destruct (x_calls s !! k) as [[id u v [d|] c p]|] eqn:Hk; try exact Hu.
      destruct (Nat.leb_spec (slen v) c) as [Hle|]; [|exact Hu]. destruct (Nat.leb_spec (slen u + slen v) p) as [Hle2|]; [|exact Hu]. cbn [andb].
      assert (Hid : id <> UNKNOWN) by exact (u_id s Hu k _ Hk).
      assert (Hdel : forall k2 c2, delete k (x_calls s) !! k2 = Some c2 -> x_calls s !! k2 = Some c2) by (intros k2 c2 H2; apply lookup_delete_Some in H2 as [_ H2]; exact H2).
      pose proof Hu as [Ui Ua Up Ul Uc Uo Us Ud].
      constructor; cbn [x_heap x_next x_map x_calls x_reset]; rewrite ?(lookup_delete_ne _ id UNKNOWN) by exact Hid; eauto.
      + intros k2 c2 a m H2 Hru. destruct (Ua k2 c2 a m (Hdel _ _ H2) Hru) as (A1 & A2 & A3). split; [exact A1|]. split.
        * intros i n Hi. apply lookup_delete_Some in Hi as [_ Hi]. exact (A2 i n Hi).
        * intros k' c' H'. exact (A3 k' c' (Hdel _ _ H')).
  Qed.
  (** The list is only ever made longer. *)
  Lemma unknown_step s l j x : xinv s -> uinv s -> allowed s l -> (forall k, l <> XRead k UNKNOWN) ->
    unknown s !! j = Some x -> unknown (x_step grow l s) !! j = Some x.
  Proof.
    intros Hv Hu Hq Hn Hx. destruct (step_contents grow s l Hv Hq) as [_ Hcm]. specialize (Hcm UNKNOWN).
    assert (Hsame : x_map (x_step grow l s) !! UNKNOWN = x_map s !! UNKNOWN -> unknown (x_step grow l s) !! j = Some x) by (intros ->; rewrite Hcm; exact Hx).
    destruct l as [id st|k id|k|k|k|k]; cbn [x_step] in *.
    - unfold x_add in *. destruct (x_map s !! id) as [[a n]|] eqn:Hid.
      + destruct (decide (id = UNKNOWN)) as [->|Hne].
        * pose proof (v_map_len s Hv UNKNOWN) as Hl. rewrite Hid in Hl, Hx. cbn in Hl, Hx.
          assert (Hj : j < n) by (apply lookup_lt_Some in Hx; rewrite take_length in Hx; lia).
          rewrite lookup_take in Hx by exact Hj.
          destruct (Nat.ltb_spec n (length (array (x_heap s) a))) as [Hlt|Hge]; cbn [x_heap x_map]; rewrite lookup_insert; cbn; rewrite array_insert; rewrite lookup_take by lia.
          -- rewrite list_lookup_insert_ne by lia. exact Hx.
          -- rewrite lookup_app_l by (rewrite take_length; lia). rewrite lookup_take by exact Hj. exact Hx.
        * apply Hsame. destruct (Nat.ltb n (length (array (x_heap s) a))); cbn [x_map]; rewrite lookup_insert_ne by congruence; reflexivity.
      + destruct (decide (id = UNKNOWN)) as [->|Hne]; [rewrite Hid in Hx; discriminate Hx|].
        apply Hsame. cbn [x_map]. rewrite lookup_insert_ne by congruence. reflexivity.
    - apply Hsame. destruct (x_calls s !! k); [reflexivity|]. destruct (x_map s !! id), (x_map s !! UNKNOWN) eqn:HU; cbn; exact HU.
    - apply Hsame. destruct (x_calls s !! k) as [[id u v [d|] c p]|]; try reflexivity.
      destruct u as [[a n]|]; [|reflexivity]. destruct (Nat.leb (n + slen v) (length (array (x_heap s) a))); reflexivity.
    - apply Hsame. destruct (x_calls s !! k) as [[id u [v|] [d|] c p]|]; try reflexivity.
      destruct (Nat.ltb c (s_len v)); reflexivity.
    - apply Hsame. destruct (x_calls s !! k) as [[id u v [d|] c p]|]; try reflexivity.
      destruct (Nat.leb (slen v) c && Nat.ltb p (slen u + slen v))%bool; reflexivity.
    - apply Hsame. destruct (x_calls s !! k) as [[id u v [d|] c p]|] eqn:Hk; try reflexivity.
      pose proof (u_id s Hu k _ Hk) as Hid. cbn in Hid.
      destruct (Nat.leb (slen v) c && Nat.leb (slen u + slen v) p)%bool; [|reflexivity]. cbn. rewrite lookup_delete_ne by exact Hid. reflexivity.
  Qed.
  Lemma step_unknown s l k c : uinv s -> x_calls s !! k = Some c ->
    (exists c', x_calls (x_step grow l s) !! k = Some c' /\ r_unknown c' = r_unknown c) \/
    (forall j x, j < slen (r_unknown c) -> unknown s !! j = Some x -> x ∈ x_reset (x_step grow l s)).
  Proof.
    intros Hu Hk.
    assert (Hst : forall s', x_calls s' = x_calls s -> exists c', x_calls s' !! k = Some c' /\ r_unknown c' = r_unknown c) by (intros s' ->; eauto).
    assert (Hup : forall k2 c2 c2', x_calls s !! k2 = Some c2 -> r_unknown c2' = r_unknown c2 ->
      exists c', <[k2 := c2']> (x_calls s) !! k = Some c' /\ r_unknown c' = r_unknown c).
    { intros k2 c2 c2' H2 Hu2. destruct (decide (k = k2)) as [->|Hn].
      - rewrite lookup_insert. eexists. split; [reflexivity|]. congruence.
      - rewrite lookup_insert_ne by congruence. eauto. }
    destruct l as [id st|k2 id|k2|k2|k2|k2]; cbn [x_step].
    - left. apply Hst. unfold x_add. destruct (x_map s !! id) as [[a n]|]; [|reflexivity].
      destruct (Nat.ltb n (length (array (x_heap s) a))); reflexivity.
    - left. destruct (x_calls s !! k2) eqn:H2; [eauto|].
      assert (k <> k2) by congruence.
      destruct (x_map s !! id), (x_map s !! UNKNOWN); cbn; rewrite ?lookup_insert_ne by congruence; eauto.
    - left. destruct (x_calls s !! k2) as [[id u v [d|] c2 p]|] eqn:H2; [eauto| |eauto].
      destruct u as [[a n]|]; [destruct (Nat.leb (n + slen v) (length (array (x_heap s) a)))|]; cbn;
        eapply Hup; eauto.
    - left. destruct (x_calls s !! k2) as [[id u [v|] [d|] c2 p]|] eqn:H2; try solve [eauto].
      destruct (Nat.ltb c2 (s_len v)); [|eauto]. cbn. eapply Hup; eauto.
    - left. destruct (x_calls s !! k2) as [[id u v [d|] c2 p]|] eqn:H2; try solve [eauto].
      destruct (Nat.leb (slen v) c2 && Nat.ltb p (slen u + slen v))%bool; [|eauto]. cbn. eapply Hup; eauto.
    - destruct (x_calls s !! k2) as [[id u v [d|] c2 p]|] eqn:H2; try solve [eauto].
      destruct (Nat.leb_spec (slen v) c2); [|eauto]. destruct (Nat.leb_spec (slen u + slen v) p) as [Hle|]; [|eauto]. cbn.
      destruct (decide (k = k2)) as [->|Hn]; [|left; rewrite lookup_delete_ne by congruence; eauto].
      right. intros j x Hj Hx. assert (c = RCall id u v (Some d) c2 p) by congruence. subst c. cbn in Hj.
      refine (u_done s Hu k2 _ j x Hk _ Hx). cbn. lia.
  Qed.
End Step.

Lemma uinv_run grow ls : undisturbed grow ls -> (forall k, ~ In (XRead k UNKNOWN) ls) -> uinv (x_run grow ls x_init).
Proof.
  induction ls as [|l ls IH] using rev_ind; intros H Hn; [apply uinv_init|].
  rewrite run_app. cbn. pose proof (undisturbed_app grow _ _ H) as H'. apply uinv_step.
  - apply inv_run, H'.
  - apply IH; [exact H'|]. intros k Hk. apply (Hn k), in_app_iff. left. exact Hk.
  - exact (undisturbed_last grow ls l H).
  - intros k ->. apply (Hn k), in_app_iff. right. left. reflexivity.
Qed.

(** A release also resets the streams recorded without an id when it began, provided the
    word for them is never itself released. *)
Theorem C205_unknown_is_reset :
  forall grow ls1 k id ls2,
    undisturbed grow (ls1 ++ XRead k id :: ls2) ->
    (forall k', ~ In (XRead k' UNKNOWN) (ls1 ++ XRead k id :: ls2)) ->
    ~ in_progress k (x_run grow ls1 x_init) ->
    ~ in_progress k (x_run grow (ls1 ++ XRead k id :: ls2) x_init) ->
    forall st, st ∈ recorded UNKNOWN (x_run grow ls1 x_init) ->
      st ∈ x_reset (x_run grow (ls1 ++ XRead k id :: ls2) x_init).
Proof.
  intros grow ls1 k id ls2 Hund Hun Hk1 Hk2 st Hst.
  unfold recorded in Hst. apply elem_of_list_lookup in Hst as [j Hj].
  assert (G : let s := x_run grow (ls1 ++ XRead k id :: ls2) x_init in
    st ∈ x_reset s \/ exists c, x_calls s !! k = Some c /\ j < slen (r_unknown c) /\ unknown s !! j = Some st).
  { clear Hk2. induction ls2 as [|l ls2 IH] using rev_ind.
    - right. rewrite run_app. cbn. destruct (x_calls (x_run grow ls1 x_init) !! k) as [c|] eqn:Hk; [exfalso; apply Hk1; exists c; exact Hk|].
      assert (Hlen : j < slen (x_map (x_run grow ls1 x_init) !! UNKNOWN)).
      { apply lookup_lt_Some in Hj. rewrite contents_length in Hj; [exact Hj|]. apply v_map_len, inv_run. eapply undisturbed_app. exact Hund. }
      destruct (x_map (x_run grow ls1 x_init) !! UNKNOWN) as [v|] eqn:Hu; [|discriminate Hj].
      destruct (x_map (x_run grow ls1 x_init) !! id) as [u|]; cbn; (eexists; rewrite lookup_insert; split; [reflexivity|]; split; [exact Hlen|]; rewrite Hu; exact Hj).
    - rewrite app_comm_cons, app_assoc in *. rewrite (run_app grow _ [l]). cbn.
      pose proof (undisturbed_app grow _ _ Hund) as Hund'.
      assert (Hun' : forall k', ~ In (XRead k' UNKNOWN) (ls1 ++ XRead k id :: ls2)) by (intros k' H; apply (Hun k'), in_app_iff; left; exact H).
      assert (Hl : forall k', l <> XRead k' UNKNOWN) by (intros k' ->; apply (Hun k'), in_app_iff; right; left; reflexivity).
      specialize (IH Hund' Hun').
      set (s := x_run grow (ls1 ++ XRead k id :: ls2) x_init) in *.
      assert (Hv : xinv s) by (apply inv_run; exact Hund'). assert (Hu : uinv s) by (apply uinv_run; assumption).
      destruct IH as [Hr|(c & Hc & Hlen & Hx)]; [left; apply step_reset, Hr|].
      destruct (step_unknown grow s l k c Hu Hc) as [(c' & Hc' & He)|Hall]; [|left; exact (Hall j st Hlen Hx)].
      right. exists c'. split; [exact Hc'|]. rewrite He. split; [exact Hlen|].
      exact (unknown_step grow s l j st Hv Hu (undisturbed_last grow _ l Hund) Hl Hx). }
  destruct G as [G|(c & Hc & _)]; [exact G|]. exfalso. apply Hk2. exists c. exact Hc.
Qed.
Print Assumptions C205_unknown_is_reset.
(** [C205_example] is a case: 9 is recorded without an id, and no such release is begun. *)
Example C205_example_unknown :
  recorded UNKNOWN (x_run doubling two_releases x_init) = [9] /\
  forall k', ~ In (XRead k' UNKNOWN) (two_releases ++ XRead 1 "m" :: two_releases_end).
Proof.
  split; [vm_compute; reflexivity|]. intros k' H. apply elem_of_list_In in H.
  unfold two_releases, two_releases_end in H. cbn [app] in H. repeat (apply elem_of_cons in H as [H|H]; [discriminate H|]). inversion H.
Qed.
