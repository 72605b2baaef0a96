(** Proofs about leader election, request ids, party tables, hash integers. *)
From Coq Require Import ZArith NArith Ascii String List Lia.
From stdpp Require Import base list strings gmap sorting.
From Verif Require Import Base L_Base M_Conv S_Conv.

(** ** Leader election *)
Section Leader.
  Variable sha : bytes -> string.
  Implicit Types ids : list string.

  Lemma leader_hash_ticket m h x : leader_hash sha m h x = ticket sha m h x.
  Proof. unfold leader_hash, ticket. by rewrite !to_bytes_app, <- app_assoc. Qed.

  (** The key store maps the hash of every participant to a participant with
      that hash. *)
  Lemma leader_loop_spec m h ids ks hs ks' hs' :
    leader_loop sha m h ids ks hs = (ks', hs') ->
    hs' = hs ++ map (ticket sha m h) ids /\
    (forall e, e ∈ map (ticket sha m h) ids ->
       exists x, x ∈ ids /\ ks' !! e = Some x /\ ticket sha m h x = e) /\
    (forall e, e ∉ map (ticket sha m h) ids -> ks' !! e = ks !! e).
  Proof.
    revert ks hs. induction ids as [|x ids IH]; intros ks hs H; cbn in H.
    - simplify_eq. rewrite app_nil_r. split_and!; [done| |done].
      intros e He. by apply elem_of_nil in He.
    - apply IH in H as (-> & H2 & H3). rewrite leader_hash_ticket in *.
      split_and!.
      + cbn. by rewrite <- app_assoc.
      + intros e He.
        destruct (decide (e ∈ map (ticket sha m h) ids)) as [Hin|Hnin].
        * destruct (H2 e Hin) as (y & ? & ? & ?). exists y. split; [by right|done].
        * cbn in He. apply elem_of_cons in He as [->|He]; [|done].
          exists x. split; [left|]. rewrite H3 by done. by rewrite lookup_insert.
      + intros e He. cbn in He. apply not_elem_of_cons in He as [He1 He2].
        rewrite H3 by done. by rewrite lookup_insert_ne.
  Qed.

  Lemma LeaderNode_none m h ids :
    LeaderNode sha m h ids = None <-> ids = [] \/ m = EmptyString \/ h = 0%Z.
  Proof.
    unfold LeaderNode.
    destruct (Nat.eqb_spec (length ids) 0) as [E1|E1];
    destruct (Nat.eqb_spec (String.length m) 0) as [E2|E2];
    destruct (Z.eqb_spec h 0) as [E3|E3]; cbn [orb].
    all: try (split; [|done]; intros _; destruct ids, m; cbn in *; tauto || lia).
    destruct (leader_loop sha m h ids ∅ []) as [ks hs] eqn:E.
    apply leader_loop_spec in E as (-> & _ & _). cbn [app].
    destruct (sort_strings (map (ticket sha m h) ids)) as [|h0 t] eqn:E.
    - assert (length ids = 0); [|done].
      rewrite <- (map_length (ticket sha m h)), <- (sort_strings_perm _), E. done.
    - split; [done|]. intros [-> | [-> | ->]]; done.
  Qed.

  Lemma LeaderNode_smallest m h ids l :
    LeaderNode sha m h ids = Some l -> smallest_ticket sha m h ids l.
  Proof.
    unfold LeaderNode. destruct (_ || _)%bool; [done|].
    destruct (leader_loop sha m h ids ∅ []) as [ks hs] eqn:E.
    apply leader_loop_spec in E as (-> & H2 & _). cbn [app].
    pose proof (sort_strings_perm (map (ticket sha m h) ids)) as Hp.
    pose proof (sort_strings_sorted (map (ticket sha m h) ids)) as Hs.
    destruct (sort_strings _) as [|h0 t]; [done|].
    destruct (H2 h0) as (x & Hx & Hl & Ht); [rewrite <- Hp; left|].
    rewrite Hl. cbn. intros [= <-]. split; [done|].
    intros y Hy. rewrite Ht.
    assert (ticket sha m h y ∈ h0 :: t) as Hin.
    { rewrite Hp. apply elem_of_list_In, in_map, elem_of_list_In. done. }
    apply elem_of_cons in Hin as [->|Hin]; [apply str_le_refl|].
    apply StronglySorted_inv in Hs as [_ Hs].
    rewrite Forall_forall in Hs. by apply Hs.
  Qed.

  Lemma smallest_ticket_unique m h ids1 ids2 l1 l2 :
    (forall x, x ∈ ids1 <-> x ∈ ids2) ->
    no_ticket_collision sha m h ids1 ->
    smallest_ticket sha m h ids1 l1 -> smallest_ticket sha m h ids2 l2 -> l1 = l2.
  Proof.
    intros Hs Hc [H1 M1] [H2 M2]. apply Hc; [done|by apply Hs|].
    apply (anti_symm str_le).
    - apply M1. by apply Hs.
    - apply M2. by apply Hs.
  Qed.
End Leader.

(** ** Request ids *)
Lemma requestToMsgId_perm sha r1 r2 :
  same_request r1 r2 -> requestToMsgId sha r1 = requestToMsgId sha r2.
Proof.
  intros [k1 k2 h v H|p m1 m2 s1 s2 h v H1 H2]; cbn.
  - by rewrite (sort_strings_eq _ _ H).
  - by rewrite (sort_strings_eq _ _ H1), (sort_strings_eq _ _ H2).
Qed.

Lemma to_bytes_nil s : to_bytes s = [] <-> s = EmptyString.
Proof. destruct s; split; done. Qed.

Lemma concat_strings_nil l : to_bytes (concat_strings l) = [] <-> forall k, k ∈ l -> k = EmptyString.
Proof.
  induction l as [|s l IH]; cbn [concat_strings].
  - split; [|done]. intros _ k Hk. by apply elem_of_nil in Hk.
  - rewrite to_bytes_app. split.
    + intros H. apply app_nil in H as [H1 H2]. intros k Hk.
      apply elem_of_cons in Hk as [->|Hk]; [by apply to_bytes_nil|by apply IH].
    + intros H. rewrite (proj2 (to_bytes_nil s)) by (apply H; left).
      cbn. apply IH. intros k Hk. apply H. by right.
Qed.

Lemma join_strings_cons2 sep s1 s2 l :
  join_strings sep (s1 :: s2 :: l) =
  String.append s1 (String.append sep (join_strings sep (s2 :: l))).
Proof. done. Qed.

Lemma join_strings_nil l :
  to_bytes (join_strings "," l) = [] <->
  length l <= 1 /\ forall k, k ∈ l -> k = EmptyString.
Proof.
  destruct l as [|s [|s2 l]].
  - cbn. split; [|done]. intros _. split; [lia|]. intros k Hk. by apply elem_of_nil in Hk.
  - cbn [join_strings length]. rewrite to_bytes_nil. split.
    + intros ->. split; [lia|]. intros k Hk. by apply elem_of_list_singleton in Hk.
    + intros [_ H]. apply H. left.
  - rewrite join_strings_cons2, !to_bytes_app. split.
    + intros H. apply app_nil in H as [_ H]. apply app_nil in H as [H _]. done.
    + cbn. intros [H _]. lia.
Qed.

Lemma MsgToHashString_none sha b : MsgToHashString sha b = None <-> b = [].
Proof. destruct b; cbn; split; done. Qed.

Lemma requestToMsgId_error sha r :
  fst (requestToMsgId sha r) = None <-> nothing_to_hash r.
Proof.
  destruct r as [keys h v|p msgs signers h v]; cbn [requestToMsgId fst nothing_to_hash];
    rewrite MsgToHashString_none.
  - rewrite concat_strings_nil. by setoid_rewrite sort_strings_perm.
  - split.
    + intros H. apply app_nil in H as [H1 H2].
      apply join_strings_nil in H1 as [H1 H1']. rewrite concat_strings_nil in H2.
      rewrite sort_strings_perm in H1.
      split_and!; [done| |]; intros k Hk; [apply H1'|apply H2]; by rewrite sort_strings_perm.
    + intros (H1 & H2 & H3).
      rewrite (proj2 (join_strings_nil _)), (proj2 (concat_strings_nil _)); [done| |].
      * intros k Hk. rewrite sort_strings_perm in Hk. by apply H3.
      * rewrite sort_strings_perm. split; [done|].
        intros k Hk. rewrite sort_strings_perm in Hk. by apply H2.
Qed.

(** Injectivity where it holds: keys of one length, comma-free messages. *)
Lemma to_bytes_length s : length (to_bytes s) = String.length s.
Proof. induction s as [|c s IH]; [done|]. cbn. by f_equal. Qed.

Lemma concat_uniform_inj n l1 l2 :
  uniform n l1 -> uniform n l2 ->
  to_bytes (concat_strings l1) = to_bytes (concat_strings l2) -> l1 = l2.
Proof.
  intros [Hn H1] [_ H2]. revert l2 H2. induction l1 as [|s1 l1 IH]; intros [|s2 l2] H2 H.
  - done.
  - exfalso. cbn [concat_strings] in H. rewrite to_bytes_app in H. symmetry in H.
    apply app_nil in H as [H _]. apply (f_equal length) in H.
    rewrite to_bytes_length in H. rewrite H2 in H by left. cbn in H. lia.
  - exfalso. cbn [concat_strings] in H. rewrite to_bytes_app in H.
    apply app_nil in H as [H _]. apply (f_equal length) in H.
    rewrite to_bytes_length in H. rewrite H1 in H by left. cbn in H. lia.
  - cbn [concat_strings] in H. rewrite !to_bytes_app in H.
    apply app_inj_1 in H as [Ha Hb].
    + f_equal; [by apply to_bytes_inj|]. apply IH; [|intros; apply H2; by right|done].
      intros. apply H1. by right.
    + rewrite !to_bytes_length, H1, H2 by left. done.
Qed.

Lemma concat_uniform_length n l :
  uniform n l -> length (to_bytes (concat_strings l)) = length l * n.
Proof.
  intros [Hn H]. induction l as [|s l IH]; [done|].
  cbn [concat_strings length]. rewrite to_bytes_app, app_length, to_bytes_length.
  rewrite H by left. rewrite IH by (intros; apply H; by right). lia.
Qed.

Lemma comma_split (a b x y : bytes) :
  ","%char ∉ a -> ","%char ∉ b -> a ++ ","%char :: x = b ++ ","%char :: y -> a = b /\ x = y.
Proof.
  revert b. induction a as [|c a IH]; intros [|d b] Ha Hb H; cbn in H; simplify_eq.
  - done.
  - exfalso. apply Hb. left.
  - exfalso. apply Ha. left.
  - destruct (IH b) as [-> ->]; [| |done|done].
    + intros Hin. apply Ha. by right.
    + intros Hin. apply Hb. by right.
Qed.

Lemma join_inj l1 l2 :
  (forall m, m ∈ l1 -> no_comma m) -> (forall m, m ∈ l2 -> no_comma m) ->
  l1 <> [] -> l2 <> [] ->
  to_bytes (join_strings "," l1) = to_bytes (join_strings "," l2) -> l1 = l2.
Proof.
  assert (Hc : forall s x l, no_comma s ->
    to_bytes s = to_bytes (join_strings "," (x :: l)) -> l = [] /\ s = x).
  { intros s x [|y l] Hs H; [split; [done|by apply to_bytes_inj]|].
    exfalso. rewrite join_strings_cons2, !to_bytes_app in H.
    apply Hs. rewrite H. apply elem_of_app. right. apply elem_of_app. left. left. }
  revert l2. induction l1 as [|s1 l1 IH]; intros [|s2 l2] H1 H2 N1 N2 H; try done.
  destruct l1 as [|t1 l1].
  - destruct (Hc s1 s2 l2) as [-> ->]; [apply H1; left|exact H|done].
  - destruct l2 as [|t2 l2].
    + destruct (Hc s2 s1 (t1 :: l1)) as [? ?]; [apply H2; left|symmetry; exact H|done].
    + rewrite !join_strings_cons2, !to_bytes_app in H. cbn [to_bytes list_ascii_of_string app] in H.
      apply comma_split in H as [Ha Hb].
      * apply to_bytes_inj in Ha as ->. f_equal. apply IH; try done.
        -- intros. apply H1. by right.
        -- intros. apply H2. by right.
      * apply H1. left.
      * apply H2. left.
Qed.

Lemma requestToMsgId_material sha r id :
  fst (requestToMsgId sha r) = Some id -> sha (material r) = id.
Proof.
  destruct r; cbn [requestToMsgId fst material]; unfold MsgToHashString.
  - destruct (to_bytes _); congruence.
  - destruct (_ ++ _); congruence.
Qed.

Lemma uniform_sort n l : uniform n l -> uniform n (sort_strings l).
Proof. intros [? H]. split; [done|]. intros k Hk. rewrite sort_strings_perm in Hk. eauto. Qed.

Lemma keygen_material_inj n k1 k2 h1 h2 v1 v2 :
  uniform n k1 -> uniform n k2 ->
  material (KeygenReq k1 h1 v1) = material (KeygenReq k2 h2 v2) -> k1 ≡ₚ k2.
Proof.
  intros U1 U2 E. cbn [material] in E.
  apply (concat_uniform_inj n) in E; [|by apply uniform_sort..].
  by rewrite <- (sort_strings_perm k1), E, sort_strings_perm.
Qed.

Lemma keysign_material_inj n p1 p2 m1 m2 s1 s2 h1 h2 v1 v2 :
  uniform n s1 -> uniform n s2 -> length s1 = length s2 -> m1 <> [] -> m2 <> [] ->
  (forall m, m ∈ m1 -> no_comma m) -> (forall m, m ∈ m2 -> no_comma m) ->
  material (KeysignReq p1 m1 s1 h1 v1) = material (KeysignReq p2 m2 s2 h2 v2) ->
  m1 ≡ₚ m2 /\ s1 ≡ₚ s2.
Proof.
  intros U1 U2 Hlen N1 N2 C1 C2 E. cbn [material] in *.
  apply app_inj_2 in E as [Em Es].
  - apply join_inj in Em.
    + apply (concat_uniform_inj n) in Es; [|by apply uniform_sort..].
      split.
      * by rewrite <- (sort_strings_perm m1), Em, sort_strings_perm.
      * by rewrite <- (sort_strings_perm s1), Es, sort_strings_perm.
    + intros m Hm. rewrite sort_strings_perm in Hm. eauto.
    + intros m Hm. rewrite sort_strings_perm in Hm. eauto.
    + intros H. apply N1. pose proof (sort_strings_perm m1) as Hp. rewrite H in Hp.
      by apply Permutation_nil_l in Hp.
    + intros H. apply N2. pose proof (sort_strings_perm m2) as Hp. rewrite H in Hp.
      by apply Permutation_nil_l in Hp.
  - rewrite !(concat_uniform_length n) by (by apply uniform_sort).
    by rewrite !sort_strings_perm, Hlen.
Qed.

(** ** Party tables *)
Section Parties.
  Variable kb : string -> option bytes.

  Lemma GetParties_perm k1 k2 loc : k1 ≡ₚ k2 -> GetParties kb k1 loc = GetParties kb k2 loc.
  Proof. intros H. unfold GetParties. by rewrite (sort_strings_eq _ _ H). Qed.

  (** The loop lists id and key of every position. *)
  Lemma parties_loop_spec idx keys loc acc l0 l1 :
    parties_loop kb idx keys loc acc l0 = Some l1 ->
    (exists l, fst l1 = acc ++ l /\ length l = length keys /\
      (forall i k, keys !! i = Some k -> exists b, kb k = Some b /\
         l !! i = Some (itoa (idx + N.of_nat i), be_val b))) /\
    (match snd l1 with
     | Some p => l0 = Some p \/ exists i b, keys !! i = Some loc /\ kb loc = Some b /\
                   p = (itoa (idx + N.of_nat i), be_val b)
     | None => l0 = None
     end) /\
    (loc ∈ keys -> snd l1 <> None) /\ (loc ∉ keys -> snd l1 = l0).
  Proof.
    revert idx acc l0. induction keys as [|k keys IH]; intros idx acc l0 H; cbn in H.
    - simplify_eq. cbn. split_and!.
      + exists []. rewrite app_nil_r. done.
      + destruct l0; [by left|done].
      + intros Hin. by apply elem_of_nil in Hin.
      + done.
    - destruct (kb k) as [b|] eqn:Ek; [|done].
      apply IH in H as ((l & Hl & Hlen & Hlk) & Hloc & Hin & Hnin).
      split_and!.
      + exists ((itoa idx, be_val b) :: l). rewrite Hl, <- app_assoc. split_and!.
        * done.
        * cbn. by f_equal.
        * intros [|i] k' Hk'; cbn in Hk'.
          -- simplify_eq. exists b. split; [done|]. cbn. by rewrite N.add_0_r.
          -- destruct (Hlk i k' Hk') as (b' & ? & Hi). exists b'. split; [done|].
             etransitivity; [exact Hi|]. do 3 f_equal. lia.
      + destruct (snd l1) as [p|].
        * destruct Hloc as [Hloc|(i & b' & ? & ? & ->)].
          -- destruct (String.eqb_spec k loc) as [->|Hne].
             ++ right. exists 0, b. simplify_eq. rewrite N.add_0_r. done.
             ++ by left.
          -- right. exists (S i), b'. split_and!; [done|done|]. do 2 f_equal. lia.
        * destruct (String.eqb_spec k loc); done.
      + intros Hk. destruct (String.eqb_spec k loc) as [->|Hne].
        * destruct (decide (loc ∈ keys)); [by apply Hin|]. rewrite Hnin by done. done.
        * apply elem_of_cons in Hk as [->|Hk]; [done|by apply Hin].
      + intros Hk. apply not_elem_of_cons in Hk as [Hk1 Hk2]. rewrite Hnin by done.
        destruct (String.eqb_spec k loc); [congruence|done].
  Qed.

  Lemma parties_loop_none idx keys loc acc l0 :
    parties_loop kb idx keys loc acc l0 = None <-> exists k, k ∈ keys /\ kb k = None.
  Proof.
    revert idx acc l0. induction keys as [|k keys IH]; intros idx acc l0; cbn.
    - split; [done|]. intros (k & Hk & _). by apply elem_of_nil in Hk.
    - destruct (kb k) as [b|] eqn:Ek.
      + rewrite IH. split.
        * intros (k' & ? & ?). exists k'. split; [by right|done].
        * intros (k' & Hk & ?). apply elem_of_cons in Hk as [->|Hk]; [congruence|eauto].
      + split; [|done]. intros _. exists k. split; [left|done].
  Qed.

  Global Instance pkey_le_total : Total pkey_le.
  Proof. intros a b. unfold pkey_le. lia. Qed.
  Global Instance pkey_le_trans : Transitive pkey_le.
  Proof. intros a b c. unfold pkey_le. lia. Qed.

  Lemma imap_lookup_inv {A B} (f : nat -> A -> B) l i y :
    imap f l !! i = Some y -> exists x, l !! i = Some x /\ y = f i x.
  Proof.
    rewrite list_lookup_imap. destruct (l !! i) eqn:E; cbn; [|done].
    intros [= <-]. eauto.
  Qed.

  Lemma SortPartyIDs_ids l : map p_id (SortPartyIDs l) = map fst (merge_sort pkey_le l).
  Proof.
    unfold SortPartyIDs. generalize (merge_sort pkey_le l). intros l'.
    assert (forall f, (forall i p, p_id (f i p) = fst p) ->
              map p_id (imap f l') = map fst l') as H; [|by apply H].
    induction l' as [|x l' IH]; intros f Hf; [done|]. cbn. rewrite Hf. f_equal.
    apply IH. intros. apply Hf.
  Qed.

  Lemma SortPartyIDs_sorted l :
    StronglySorted (fun a b => (p_key a <= p_key b)%N) (SortPartyIDs l).
  Proof.
    unfold SortPartyIDs.
    assert (StronglySorted pkey_le (merge_sort pkey_le l)) as Hs
      by (apply StronglySorted_merge_sort; apply _).
    revert Hs. generalize (merge_sort pkey_le l). intros l'.
    assert (forall f, (forall i p, p_key (f i p) = snd p) -> StronglySorted pkey_le l' ->
              StronglySorted (fun a b => (p_key a <= p_key b)%N) (imap f l')) as H;
      [|by apply H].
    induction l' as [|x l' IH]; intros f Hf Hs; [constructor|].
    apply StronglySorted_inv in Hs as [Hs Hx]. cbn. constructor.
    - apply IH; [|done]. intros. apply Hf.
    - rewrite Forall_forall in Hx. apply Forall_forall. intros y Hy.
      apply elem_of_list_lookup in Hy as [i Hi].
      apply imap_lookup_inv in Hi as (z & Hz & ->). cbn. rewrite !Hf.
      apply Hx. by apply elem_of_list_lookup_2 in Hz.
  Qed.

  Lemma GetParties_some keys loc ps lp :
    GetParties kb keys loc = Some (ps, lp) -> party_table_ok kb keys loc ps lp.
  Proof.
    unfold GetParties.
    destruct (parties_loop kb 0 (sort_strings keys) loc [] None) as [[l [[i0 n0]|]]|] eqn:E;
      [|done|done].
    apply parties_loop_spec in E as ((l' & Hl & Hlen & Hlk) & Hloc & _ & _).
    cbn in Hl, Hloc. subst l'.
    set (f := list_find _ _). destruct f as [[j p]|] eqn:Ef; [|done].
    intros [= <- ->]. unfold f in Ef. apply list_find_Some in Ef as (Hj & Hid & _).
    cbn in Hid.
    pose proof (merge_sort_Permutation pkey_le l) as Hperm.
    assert (Hrank : forall i k, sort_strings keys !! i = Some k -> ranked keys i k).
    { intros i k Hk. exists (sort_strings keys).
      split_and!; [apply sort_strings_perm|apply sort_strings_sorted|done]. }
    assert (Hmem : forall q, q ∈ l -> exists i k b, q = (itoa (N.of_nat i), be_val b) /\
              sort_strings keys !! i = Some k /\ kb k = Some b).
    { intros q Hq. apply elem_of_list_lookup in Hq as [i Hi].
      assert (is_Some (sort_strings keys !! i)) as [k Hk].
      { apply lookup_lt_is_Some. rewrite <- Hlen. by apply lookup_lt_Some in Hi. }
      destruct (Hlk i k Hk) as (b & Hb & Hi'). simplify_eq. exists i, k, b. done. }
    assert (Hps : forall q, q ∈ SortPartyIDs l -> exists i k b,
              p_id q = itoa (N.of_nat i) /\ sort_strings keys !! i = Some k /\
              kb k = Some b /\ p_key q = be_val b).
    { intros q Hq. apply elem_of_list_lookup in Hq as [i Hi].
      apply imap_lookup_inv in Hi as ([x y] & Hx & ->).
      apply elem_of_list_lookup_2 in Hx. rewrite Hperm in Hx.
      destruct (Hmem _ Hx) as (i' & k & b & [= -> ->] & ? & ?). exists i', k, b. done. }
    constructor.
    - rewrite SortPartyIDs_ids.
      assert (map fst l = map (fun i => itoa (N.of_nat i)) (seq 0 (length keys))) as <-;
        [|by apply Permutation_map].
      rewrite sort_strings_perm in Hlen.
      apply list_eq. intros i. rewrite !list_lookup_fmap.
      destruct (decide (i < length keys)) as [Hlt|Hge].
      + assert (is_Some (sort_strings keys !! i)) as [k Hk].
        { apply lookup_lt_is_Some. by rewrite sort_strings_perm. }
        destruct (Hlk i k Hk) as (b & _ & Hi). rewrite Hi.
        rewrite lookup_seq_lt by done. done.
      + rewrite lookup_ge_None_2 by lia.
        rewrite (lookup_ge_None_2 (seq _ _)); [done|]. rewrite seq_length. lia.
    - intros q Hq. destruct (Hps q Hq) as (i & k & b & ? & ? & ? & ?).
      exists i, k, b. split_and!; auto.
    - apply SortPartyIDs_sorted.
    - intros i q Hq. apply imap_lookup_inv in Hq as (x & _ & ->). done.
    - by apply elem_of_list_lookup_2 in Hj.
    - destruct Hloc as [?|(i & b & Hk & Hb & [= -> ->])]; [done|].
      exists i, b. split_and!; [done|by apply Hrank|done|].
      destruct (Hps lp) as (i' & k' & b' & Hid' & Hk' & Hb' & Hkey).
      { by apply elem_of_list_lookup_2 in Hj. }
      assert (i' = i) as ->.
      { rewrite Hid in Hid'. apply itoa_inj in Hid'. lia. }
      rewrite Hkey. simplify_eq. done.
  Qed.

  Lemma GetParties_none keys loc :
    GetParties kb keys loc = None <->
    (exists k, k ∈ keys /\ kb k = None) \/ loc ∉ keys.
  Proof.
    unfold GetParties.
    destruct (parties_loop kb 0 (sort_strings keys) loc [] None) as [[l o]|] eqn:E.
    - assert (~ exists k, k ∈ keys /\ kb k = None) as Hne.
      { intros (k & Hk & Hn).
        assert (parties_loop kb 0 (sort_strings keys) loc [] None = None); [|congruence].
        apply parties_loop_none. exists k. by rewrite sort_strings_perm. }
      apply parties_loop_spec in E as ((l' & Hl & Hlen & Hlk) & Hloc & Hin & Hnin).
      cbn in *. subst l'. rewrite sort_strings_perm in Hin, Hnin.
      destruct o as [p|].
      + assert (loc ∈ keys).
        { destruct (decide (loc ∈ keys)); [done|]. specialize (Hnin n). done. }
        set (f := list_find _ _). destruct f as [[j q]|] eqn:Ef.
        * split; [done|]. intros [?|?]; done.
        * exfalso. unfold f in Ef. apply list_find_None in Ef.
          destruct Hloc as [?|(i & b & Hk & Hb & ->)]; [done|].
          destruct (Hlk i loc Hk) as (b' & ? & Hi). simplify_eq.
          apply elem_of_list_lookup_2 in Hi.
          rewrite <- (merge_sort_Permutation pkey_le l) in Hi.
          apply elem_of_list_lookup in Hi as [j Hj].
          rewrite Forall_lookup in Ef. eapply (Ef j).
          -- unfold SortPartyIDs. rewrite list_lookup_imap, Hj. done.
          -- done.
      + split; [|done]. intros _. right. intros Hi. by apply Hin.
    - split; [|done]. intros _. left.
      apply parties_loop_none in E as (k & Hk & Hn). exists k.
      by rewrite sort_strings_perm in Hk.
  Qed.
End Parties.

(** ** Hash integers *)
Lemma MsgToHashInt_take msg : MsgToHashInt msg = be_val (take 32 msg).
Proof.
  unfold MsgToHashInt, hashToInt. cbv zeta. change ((256 + 7) / 8) with 32.
  destruct (Nat.ltb_spec 32 (length msg)) as [H|H].
  - rewrite take_length. destruct (Z.ltb_spec 0 (Z.of_nat (32 `min` length msg) * 8 - Z.of_nat 256));
      [lia|done].
  - rewrite take_ge by lia.
    destruct (Z.ltb_spec 0 (Z.of_nat (length msg) * 8 - Z.of_nat 256)); [lia|done].
Qed.

Lemma MsgToHashInt_bound msg : (MsgToHashInt msg < 2 ^ 256)%N.
Proof.
  rewrite MsgToHashInt_take. eapply N.lt_le_trans; [apply be_val_bound|].
  change (2 ^ 256)%N with (256 ^ 32)%N. apply N.pow_le_mono_r; [done|].
  rewrite take_length. lia.
Qed.

(** Leading zero bytes do not count; the rest does. *)
Fixpoint strip_zeros (b : bytes) : bytes :=
  match b with
  | c :: b' => if N.eqb (byte_val c) 0 then strip_zeros b' else b
  | [] => []
  end.
Lemma be_val_acc_mul acc b :
  be_val_acc acc b = (acc * 256 ^ N.of_nat (length b) + be_val b)%N.
Proof.
  unfold be_val. revert acc. induction b as [|c b IH]; intros acc.
  - cbn. lia.
  - cbn [be_val_acc length]. rewrite IH, (IH (0 * 256 + byte_val c)%N).
    replace (N.of_nat (S (length b))) with (N.succ (N.of_nat (length b))) by lia.
    rewrite N.pow_succ_r by lia. lia.
Qed.
Lemma be_val_cons c b :
  be_val (c :: b) = (byte_val c * 256 ^ N.of_nat (length b) + be_val b)%N.
Proof. unfold be_val at 1. cbn [be_val_acc]. rewrite be_val_acc_mul. lia. Qed.
Lemma be_val_strip b : be_val (strip_zeros b) = be_val b.
Proof.
  induction b as [|c b IH]; [done|]. cbn [strip_zeros].
  destruct (N.eqb_spec (byte_val c) 0) as [E|E]; [|done].
  rewrite be_val_cons, E, IH. lia.
Qed.
Lemma be_val_inj_length a b : length a = length b -> be_val a = be_val b -> a = b.
Proof.
  revert b. induction a as [|x a IH]; intros [|y b] Hl H; try done.
  rewrite !be_val_cons in H. cbn in Hl. injection Hl as Hl. rewrite Hl in H.
  pose proof (be_val_bound a) as Ba. pose proof (be_val_bound b) as Bb. rewrite Hl in Ba.
  assert (byte_val x = byte_val y) as E by nia.
  f_equal; [by apply byte_val_inj|]. apply IH; [done|]. rewrite E in H. lia.
Qed.
Lemma strip_zeros_head b :
  match strip_zeros b with [] => True | c :: _ => byte_val c <> 0%N end.
Proof.
  induction b as [|c b IH]; [done|]. cbn. destruct (N.eqb_spec (byte_val c) 0); done.
Qed.
Lemma be_val_strip_inj a b : be_val a = be_val b <-> strip_zeros a = strip_zeros b.
Proof.
  split; [|intros H; by rewrite <- be_val_strip, H, be_val_strip].
  rewrite <- (be_val_strip a), <- (be_val_strip b).
  pose proof (strip_zeros_head a) as Ha. pose proof (strip_zeros_head b) as Hb.
  generalize dependent (strip_zeros a). generalize dependent (strip_zeros b).
  intros u Hu v Hv H.
  assert (Hlow : forall c w, byte_val c <> 0%N -> (256 ^ N.of_nat (length w) <= be_val (c :: w))%N).
  { intros c w Hc. rewrite be_val_cons. nia. }
  assert (length v = length u); [|by apply be_val_inj_length].
  assert (Hmono : forall c w w', byte_val c <> 0%N -> be_val w' = be_val (c :: w) ->
            length (c :: w) <= length w').
  { intros c w w' Hc E. destruct (decide (length (c :: w) <= length w')) as [?|Hn]; [done|].
    exfalso. pose proof (be_val_bound w') as B. rewrite E in B.
    pose proof (Hlow c w Hc) as L.
    assert (256 ^ N.of_nat (length w') <= 256 ^ N.of_nat (length w))%N; [|lia].
    apply N.pow_le_mono_r; [done|]. cbn in Hn. lia. }
  destruct v as [|c v], u as [|d u]; [done| | |].
  - specialize (Hmono d u [] Hu H). cbn in Hmono. lia.
  - symmetry in H. specialize (Hmono c v [] Hv H). cbn in Hmono. lia.
  - pose proof (Hmono d u (c :: v) Hu H). symmetry in H.
    pose proof (Hmono c v (d :: u) Hv H). lia.
Qed.
