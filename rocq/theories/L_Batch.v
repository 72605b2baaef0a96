(** Lemmas about batch signing. *)
From Coq Require Import NArith Ascii String List Lia.
From stdpp Require Import base list strings gmap sorting.
From Verif Require Import Base L_Base M_Conv M_Base64 L_Base64 M_Sort L_Sort M_Notifier M_Batch S_Batch.

Lemma decode_msgs_payloads strs : forall ps, decode_msgs strs = Some ps <-> payloads strs ps.
Proof.
  unfold payloads. induction strs as [|s strs IH]; intros ps; simpl.
  - split; [intros [= <-]; constructor|]. intros H. inversion H. reflexivity.
  - split.
    + destruct (DecodeString s) as [m|] eqn:Hs; [|discriminate].
      destruct (decode_msgs strs) as [r|] eqn:Hr; [|discriminate].
      intros [= <-]. constructor; [exact Hs|]. apply IH. reflexivity.
    + intros H. inversion H as [|? ? ? ps' Hs Hr]; subst. rewrite Hs.
      apply IH in Hr. rewrite Hr. reflexivity.
Qed.

Lemma payloads_perm s1 s2 p1 : payloads s1 p1 -> s1 ≡ₚ s2 -> exists p2, payloads s2 p2 /\ p1 ≡ₚ p2.
Proof.
  intros H Hp. revert p1 H. induction Hp as [|x l l' Hp IH|x y l|l l' l'' Hp1 IH1 Hp2 IH2]; intros p1 H.
  - inversion H. exists []. split; constructor.
  - inversion H as [|? b ? pr Hb Hr]; subst. destruct (IH _ Hr) as (p2 & H2 & Hp2).
    exists (b :: p2). split; [constructor; assumption|]. constructor. exact Hp2.
  - inversion H as [|? b ? pr Hb Hr]; subst. inversion Hr as [|? c ? pr' Hc Hr']; subst.
    exists (c :: b :: pr'). split; [repeat constructor; assumption|]. constructor.
  - destruct (IH1 _ H) as (p2 & H2 & Hpp). destruct (IH2 _ H2) as (p3 & H3 & Hpp').
    exists p3. split; [exact H3|]. etransitivity; eassumption.
Qed.

(** ** Sorting by a number, downwards *)

Section Desc.
  Context {A : Type} (v : A -> N).
  Definition nlt (a b : A) : bool := negb (N.ltb (v a) (v b)).

  Lemma SliceStable_perm l : SliceStable nlt l ≡ₚ l.
  Proof.
    apply (SliceStable_spec nlt (fun x y => (v y <= v x)%N)); unfold nlt.
    - intros x. lia.
    - intros x y z. lia.
    - intros x y H. apply negb_true_iff, N.ltb_ge in H. exact H.
    - intros x y H. apply negb_false_iff, N.ltb_lt in H. lia.
  Qed.

  Lemma nth_strongly (l : list A) :
    (forall i j x y, i <= j -> nth_error l i = Some x -> nth_error l j = Some y -> (v y <= v x)%N) ->
    StronglySorted N.ge (v <$> l).
  Proof.
    induction l as [|a l IH]; intros H; [constructor|]. simpl. constructor.
    - apply IH. intros i j x y Hij Hi Hj. apply (H (S i) (S j)); [lia|exact Hi|exact Hj].
    - apply Forall_fmap, List.Forall_forall. intros y Hy.
      apply In_nth_error in Hy as (j & Hj). simpl.
      pose proof (H 0 (S j) a y ltac:(lia) eq_refl Hj). lia.
  Qed.

  Lemma SliceStable_desc l : StronglySorted N.ge (v <$> SliceStable nlt l).
  Proof.
    apply nth_strongly.
    apply (SliceStable_spec nlt (fun x y => (v y <= v x)%N)); unfold nlt.
    - intros x. lia.
    - intros x y z. lia.
    - intros x y H. apply negb_true_iff, N.ltb_ge in H. exact H.
    - intros x y H. apply negb_false_iff, N.ltb_lt in H. lia.
  Qed.
End Desc.

Lemma desc_unique (l1 l2 : list N) :
  StronglySorted N.ge l1 -> StronglySorted N.ge l2 -> l1 ≡ₚ l2 -> l1 = l2.
Proof.
  assert (AntiSymm (=) N.ge) by (intros x y; lia).
  apply (StronglySorted_unique N.ge).
Qed.

Lemma sort_msgs_perm l : sort_msgs l ≡ₚ l.
Proof. apply (SliceStable_perm MsgToHashInt). Qed.
Lemma sort_msgs_desc l : StronglySorted N.ge (MsgToHashInt <$> sort_msgs l).
Proof. apply (SliceStable_desc MsgToHashInt). Qed.
Lemma sort_sigs_perm l : sort_sigs l ≡ₚ l.
Proof. apply (SliceStable_perm (fun g => be_val (sg_M g))). Qed.
Lemma sort_sigs_desc l : StronglySorted N.ge ((fun g => be_val (sg_M g)) <$> sort_sigs l).
Proof. apply (SliceStable_desc (fun g => be_val (sg_M g))). Qed.

(** ** Collecting and answering *)

Lemma collect_all : forall endCh acc, endCh <> [] ->
  collect (length acc + length endCh) acc endCh = Some (acc ++ endCh).
Proof.
  induction endCh as [|s rest IH]; intros acc Hne; [congruence|]. cbn [collect].
  rewrite app_length. simpl length.
  destruct rest as [|s' rest'].
  - simpl. rewrite Nat.eqb_refl. reflexivity.
  - destruct (Nat.eqb_spec (length acc + 1) (length acc + S (length (s' :: rest')))) as [H|H]; [simpl in H; lia|].
    specialize (IH (acc ++ [s]) ltac:(discriminate)).
    rewrite app_length in IH. simpl length in IH.
    replace (length acc + 1 + S (length rest')) with (length acc + S (length (s' :: rest'))) in IH by (simpl; lia).
    rewrite IH. rewrite <- app_assoc. reflexivity.
Qed.

Lemma batch_loop_ok : forall sigs i msgs, i + length sigs <= length msgs ->
  exists resp, batch_loop i sigs msgs = Some resp /\ length resp = length sigs /\
    forall k x, resp !! k = Some x -> exists m g, msgs !! (i + k) = Some m /\ sigs !! k = Some g /\
      x = RSig (EncodeToString m) (EncodeToString (sg_R g)) (EncodeToString (sg_S g))
            (EncodeToString (sg_recovery g)).
Proof.
  induction sigs as [|g sigs IH]; intros i msgs Hlen; simpl.
  - exists []. split; [reflexivity|]. split; [reflexivity|]. intros k x H. discriminate H.
  - simpl in Hlen. destruct (lookup_lt_is_Some_2 msgs i) as (m & Hm); [lia|]. rewrite Hm.
    destruct (IH (S i) msgs) as (resp & -> & Hl & Hr); [lia|].
    eexists. split; [reflexivity|]. split; [simpl; lia|].
    intros [|k] x Hx.
    + injection Hx as <-. exists m, g. rewrite Nat.add_0_r. auto.
    + simpl in Hx. destruct (Hr k x Hx) as (m' & g' & H1 & H2 & H3).
      exists m', g'. rewrite Nat.add_succ_r. auto.
Qed.

Lemma batch_loop_panic : forall sigs i msgs, length msgs < i + length sigs -> sigs <> [] ->
  batch_loop i sigs msgs = None.
Proof.
  induction sigs as [|g sigs IH]; intros i msgs Hlen Hne; [congruence|]. simpl in *.
  destruct (msgs !! i) as [m|] eqn:Hm; [|reflexivity].
  apply lookup_lt_Some in Hm. rewrite IH; [reflexivity|lia|]. intros ->. simpl in Hlen. lia.
Qed.

(** ** Identifiers *)

Lemma itoa_fuel_digits fuel n acc c :
  In c (itoa_fuel fuel n acc) -> In c acc \/ exists d, (d < 10)%N /\ c = digit d.
Proof.
  revert n acc. induction fuel as [|fuel IH]; intros n acc; simpl; [auto|].
  assert (Hd : (n mod 10 < 10)%N) by (apply N.mod_upper_bound; lia).
  destruct (N.ltb n 10).
  - intros [<-|H]; [right; eauto|auto].
  - intros H. destruct (IH _ _ H) as [[<-|H']|H']; [right; eauto|auto|auto].
Qed.
Lemma itoa_no_colon n : ":"%char ∉ to_bytes (itoa n).
Proof.
  unfold itoa. rewrite to_of_bytes. intros H. apply elem_of_list_In in H.
  destruct (itoa_fuel_digits _ _ _ _ H) as [[]|(d & Hd & Hc)].
  destruct (L_Base64.below d 10 Hd) as (i & Hi & ->).
  do 10 (destruct i as [|i]; [discriminate Hc|]). lia.
Qed.

Lemma split_unique {A} (x : A) (a b c d : list A) :
  x ∉ a -> x ∉ c -> a ++ x :: b = c ++ x :: d -> a = c /\ b = d.
Proof.
  revert c. induction a as [|y a IH]; intros [|z c] Ha Hc H; simpl in H.
  - injection H as <-. auto.
  - injection H as -> _. exfalso. apply Hc. left.
  - injection H as -> _. exfalso. apply Ha. left.
  - injection H as <- H. apply not_elem_of_cons in Ha as [_ Ha]. apply not_elem_of_cons in Hc as [_ Hc].
    destruct (IH c Ha Hc H) as [-> ->]. auto.
Qed.

Lemma moniker_inj i j m n : moniker i m = moniker j n -> i = j /\ m = n.
Proof.
  unfold moniker. intros H. apply (f_equal to_bytes) in H. rewrite !to_bytes_app in H.
  change (to_bytes ":") with [":"%char] in H. simpl in H.
  apply split_unique in H as [H1 H2]; [|apply itoa_no_colon|apply itoa_no_colon].
  apply to_bytes_inj, itoa_inj in H1. apply to_bytes_inj, itoa_inj in H2. lia.
Qed.

Lemma sessions_lookup msgs k s : sessions msgs !! k = Some s <->
  exists m, msgs !! k = Some m /\ s = (moniker k (MsgToHashInt m), MsgToHashInt m).
Proof.
  unfold sessions. rewrite list_lookup_imap. split.
  - intros H. apply fmap_Some in H as (m & Hm & ->). eauto.
  - intros (m & -> & ->). reflexivity.
Qed.

Lemma sessions_nodup msgs : NoDup (fst <$> sessions msgs).
Proof.
  apply NoDup_alt. intros i j x Hi Hj.
  apply list_lookup_fmap_Some in Hi as (s1 & H1 & ->). apply list_lookup_fmap_Some in Hj as (s2 & H2 & He).
  apply sessions_lookup in H1 as (m1 & _ & ->). apply sessions_lookup in H2 as (m2 & _ & ->).
  simpl in He. apply moniker_inj in He as [-> _]. reflexivity.
Qed.

Lemma sessions_by_int l1 l2 : MsgToHashInt <$> l1 = MsgToHashInt <$> l2 -> sessions l1 = sessions l2.
Proof.
  intros H. apply list_eq. intros k. unfold sessions. rewrite !list_lookup_imap.
  assert (Hk : (MsgToHashInt <$> l1) !! k = (MsgToHashInt <$> l2) !! k) by (rewrite H; reflexivity).
  rewrite !list_lookup_fmap in Hk.
  destruct (l1 !! k), (l2 !! k); simpl in *; congruence.
Qed.

Lemma foldl_map_nodup (l : list (string * N)) : forall acc : gmap string N,
  NoDup (fst <$> l) -> (forall s, s ∈ l -> acc !! fst s = None) ->
  let m := foldl (fun acc s => <[fst s := snd s]> acc) acc l in
  size m = size acc + length l /\ (forall s, s ∈ l -> m !! fst s = Some (snd s)) /\
  (forall k, k ∉ fst <$> l -> m !! k = acc !! k).
Proof.
  induction l as [|s l IH]; intros acc Hnd Hacc; simpl.
  - split; [lia|]. split; [|reflexivity]. intros s Hs. inversion Hs.
  - simpl in Hnd. apply NoDup_cons in Hnd as [Hs Hnd].
    destruct (IH (<[fst s := snd s]> acc) Hnd) as (H1 & H2 & H3).
    { intros s' Hs'. rewrite lookup_insert_ne; [apply Hacc; right; exact Hs'|].
      intros He. apply Hs. rewrite He. apply elem_of_list_fmap_1, Hs'. }
    split; [|split].
    + rewrite H1. rewrite map_size_insert_None by (apply Hacc; left). lia.
    + intros s' Hs'. apply elem_of_cons in Hs' as [->|Hs']; [|apply H2, Hs'].
      rewrite H3 by exact Hs. apply lookup_insert.
    + intros k Hk. apply not_elem_of_cons in Hk as [Hk1 Hk2]. rewrite H3 by exact Hk2.
      apply lookup_insert_ne. congruence.
Qed.
