(** Go's SliceStable sorts, also when the comparator is the negation of a strict order. *)
From Coq Require Import Arith List Lia Bool Permutation.
From Verif Require Import M_Sort.
Import ListNotations.

Section Sort.
  Context {A : Type}.
  Variable less : A -> A -> bool.
  Variable le : A -> A -> Prop.
  Hypothesis le_refl : forall x, le x x.
  Hypothesis le_trans : forall x y z, le x y -> le y z -> le x z.
  Hypothesis less_le : forall x y, less x y = true -> le x y.
  Hypothesis notless_le : forall x y, less x y = false -> le y x.

  Notation arr := (nat -> A).

  Definition sorted (f : arr) (a b : nat) : Prop :=
    forall i j, a <= i -> i <= j -> j < b -> le (f i) (f j).

  (** Arrays reached by swaps inside a range. *)
  Inductive swaps (a b : nat) (f : arr) : arr -> Prop :=
    | swaps_refl : swaps a b f f
    | swaps_step g i j : swaps a b f g -> a <= i < b -> a <= j < b -> swaps a b f (swap g i j).

  Lemma swaps_trans a b f g h : swaps a b f g -> swaps a b g h -> swaps a b f h.
  Proof. intros H1 H2. induction H2; [assumption|]. apply swaps_step; assumption. Qed.

  Lemma swaps_wide a b a' b' f g : swaps a b f g -> a' <= a -> b <= b' -> swaps a' b' f g.
  Proof. intros H Ha Hb. induction H; [constructor|]. apply swaps_step; [assumption|lia|lia]. Qed.

  Lemma swap_l (f : arr) i j : swap f i j i = f j.
  Proof. unfold swap. rewrite Nat.eqb_refl. reflexivity. Qed.
  Lemma swap_r (f : arr) i j : swap f i j j = f i.
  Proof.
    unfold swap. destruct (Nat.eqb_spec j i) as [->|]; [reflexivity|]. rewrite Nat.eqb_refl. reflexivity.
  Qed.
  Lemma swap_o (f : arr) i j k : k <> i -> k <> j -> swap f i j k = f k.
  Proof.
    intros. unfold swap. destruct (Nat.eqb_spec k i); [lia|]. destruct (Nat.eqb_spec k j); [lia|]. reflexivity.
  Qed.

  Lemma swaps_out a b f g k : swaps a b f g -> k < a \/ b <= k -> g k = f k.
  Proof. intros H Hk. induction H; [reflexivity|]. rewrite swap_o by lia. assumption. Qed.

  Lemma swaps_from a b f g k : swaps a b f g -> a <= k < b -> exists k', a <= k' < b /\ g k = f k'.
  Proof.
    intros H. revert k. induction H as [|g i j H IH Hi Hj]; intros k Hk; [eauto|].
    destruct (Nat.eq_dec k i) as [->|Hki]; [rewrite swap_l; apply IH; lia|].
    destruct (Nat.eq_dec k j) as [->|Hkj]; [rewrite swap_r; apply IH; lia|].
    rewrite swap_o by assumption. apply IH. lia.
  Qed.

  Lemma swap_perm (f : arr) i j l : NoDup l -> In i l -> In j l -> Permutation (map (swap f i j) l) (map f l).
  Proof.
    intros Hnd Hi Hj.
    set (tr := fun k => if Nat.eqb k i then j else if Nat.eqb k j then i else k).
    assert (Heq : map (swap f i j) l = map f (map tr l)).
    { rewrite map_map. apply map_ext. intros k. unfold swap, tr.
      destruct (Nat.eqb k i); [reflexivity|]. destruct (Nat.eqb k j); reflexivity. }
    rewrite Heq. apply Permutation_map.
    assert (Hinv : forall k, tr (tr k) = k).
    { intros k. unfold tr. destruct (Nat.eqb_spec k i) as [Hki|Hki].
      - subst k. destruct (Nat.eqb_spec j i) as [->|]; [reflexivity|]. rewrite Nat.eqb_refl. reflexivity.
      - destruct (Nat.eqb_spec k j) as [Hkj|Hkj].
        + subst k. rewrite Nat.eqb_refl. reflexivity.
        + destruct (Nat.eqb_spec k i); [lia|]. destruct (Nat.eqb_spec k j); [lia|]. reflexivity. }
    apply NoDup_Permutation.
    - apply FinFun.Injective_map_NoDup; [|assumption].
      intros x y H. rewrite <- (Hinv x), <- (Hinv y), H. reflexivity.
    - assumption.
    - assert (Htr : forall x, In x l -> In (tr x) l).
      { intros x Hx. unfold tr. destruct (Nat.eqb x i); [assumption|]. destruct (Nat.eqb x j); assumption. }
      intros x. rewrite in_map_iff. split.
      + intros (y & <- & Hy). apply Htr, Hy.
      + intros Hx. exists (tr x). auto.
  Qed.

  Lemma swaps_perm b f g : swaps 0 b f g -> Permutation (map g (seq 0 b)) (map f (seq 0 b)).
  Proof.
    intros H. induction H as [|g i j H IH Hi Hj]; [reflexivity|].
    rewrite swap_perm; [exact IH|apply seq_NoDup| |]; apply in_seq; lia.
  Qed.

  Lemma sorted_ext f g a b : (forall k, a <= k < b -> g k = f k) -> sorted f a b -> sorted g a b.
  Proof. intros H Hs i j Hi Hij Hj. rewrite !H by lia. apply Hs; assumption. Qed.

  Lemma sorted_one f a b : b <= S a -> sorted f a b.
  Proof. intros H i j Hi Hij Hj. replace j with i by lia. apply le_refl. Qed.

  (** ** Insertion sort *)

  Lemma insert_spec a i : forall j f, a <= j <= i ->
    (forall k l, a <= k -> k <= l -> l <= i -> k <> j -> l <> j -> le (f k) (f l)) ->
    (forall l, j <= l <= i -> le (f j) (f l)) ->
    sorted (insert_loop less j a f) a (S i) /\ swaps a (S i) f (insert_loop less j a f).
  Proof.
    induction j as [|j IH]; intros f Hj H1 H2; simpl.
    - split; [|constructor]. intros k l Hk Hkl Hl.
      destruct (Nat.eq_dec k 0) as [->|]; [apply H2; lia|].
      apply H1; lia.
    - destruct (Nat.ltb_spec a (S j)) as [Hlt|Hge]; simpl.
      + destruct (less (f (S j)) (f j)) eqn:Hless.
        * destruct (IH (swap f (S j) j)) as [Hs Hw].
          -- lia.
          -- intros k l Hk Hkl Hl Hkj Hlj.
             destruct (Nat.eq_dec k (S j)) as [->|Hk1].
             ++ rewrite swap_l. destruct (Nat.eq_dec l (S j)) as [->|Hl1].
                ** rewrite swap_l. apply le_refl.
                ** rewrite swap_o by lia. apply H1; lia.
             ++ rewrite swap_o by lia. destruct (Nat.eq_dec l (S j)) as [->|Hl1].
                ** rewrite swap_l. apply H1; lia.
                ** rewrite swap_o by lia. apply H1; lia.
          -- intros l Hl. rewrite swap_r.
             destruct (Nat.eq_dec l j) as [->|Hl0]; [rewrite swap_r; apply le_refl|].
             destruct (Nat.eq_dec l (S j)) as [->|Hl1].
             ++ rewrite swap_l. apply less_le, Hless.
             ++ rewrite swap_o by lia. apply H2. lia.
          -- split; [exact Hs|]. eapply swaps_trans; [|exact Hw].
             apply swaps_step; [constructor|lia|lia].
        * split; [|constructor]. apply notless_le in Hless.
          intros k l Hk Hkl Hl.
          destruct (Nat.eq_dec k (S j)) as [->|Hk1]; [apply H2; lia|].
          destruct (Nat.eq_dec l (S j)) as [->|Hl1]; [|apply H1; lia].
          eapply le_trans; [|exact Hless]. apply H1; lia.
      + split; [|constructor]. intros k l Hk Hkl Hl.
        destruct (Nat.eq_dec k (S j)) as [->|Hk1]; [apply H2; lia|].
        apply H1; lia.
  Qed.

  Lemma insertion_loop_spec a : forall k i f, a < i -> sorted f a i ->
    sorted (insertion_loop less k i a f) a (i + k) /\ swaps a (i + k) f (insertion_loop less k i a f).
  Proof.
    induction k as [|k IH]; intros i f Hi Hs; simpl.
    - rewrite Nat.add_0_r. split; [exact Hs|constructor].
    - destruct (insert_spec a i i f) as [Hs' Hw].
      + lia.
      + intros x y Hx Hxy Hy Hxi Hyi. apply Hs; lia.
      + intros l Hl. replace l with i by lia. apply le_refl.
      + destruct (IH (S i) (insert_loop less i a f)) as [Hs2 Hw2]; [lia|exact Hs'|].
        rewrite Nat.add_succ_r. split; [exact Hs2|].
        eapply swaps_trans; [|exact Hw2]. eapply swaps_wide; [exact Hw|lia|lia].
  Qed.

  Lemma insertionSort_spec a b f : a <= b ->
    sorted (insertionSort less a b f) a b /\ swaps a b f (insertionSort less a b f).
  Proof.
    intros Hab. unfold insertionSort.
    destruct (Nat.eq_dec a b) as [->|Hne].
    - replace (b - S b) with 0 by lia. split; [apply sorted_one; lia|constructor].
    - destruct (insertion_loop_spec a (b - S a) (S a) f) as [Hs Hw]; [lia|apply sorted_one; lia|].
      replace (S a + (b - S a)) with b in * by lia. auto.
  Qed.

  (** ** Rotation *)

  Lemma swapRange_spec : forall n a b f, a + n <= b ->
    swaps a (b + n) f (swapRange a b n f) /\
    forall k, swapRange a b n f k =
      if (Nat.leb a k && Nat.ltb k (a + n))%bool then f (b + (k - a))
      else if (Nat.leb b k && Nat.ltb k (b + n))%bool then f (a + (k - b)) else f k.
  Proof.
    induction n as [|n IH]; intros a b f Hab; simpl.
    - split; [constructor|]. intros k.
      destruct (Nat.leb_spec a k), (Nat.ltb_spec k (a + 0)); simpl; try lia;
        destruct (Nat.leb_spec b k), (Nat.ltb_spec k (b + 0)); simpl; try lia; reflexivity.
    - destruct (IH (S a) (S b) (swap f a b)) as [Hw Hk]; [lia|]. split.
      + eapply swaps_trans; [|eapply swaps_wide; [exact Hw|lia|lia]].
        apply swaps_step; [constructor|lia|lia].
      + intros k. rewrite Hk. clear Hk Hw IH.
        destruct (Nat.leb_spec (S a) k), (Nat.ltb_spec k (S a + n)), (Nat.leb_spec a k), (Nat.ltb_spec k (a + S n));
          cbv beta iota delta [andb]; try lia;
        destruct (Nat.leb_spec (S b) k), (Nat.ltb_spec k (S b + n)), (Nat.leb_spec b k), (Nat.ltb_spec k (b + S n));
          cbv beta iota delta [andb]; try lia;
          first [ rewrite swap_o by lia; f_equal; lia
                | replace k with a by lia; rewrite swap_l; f_equal; lia
                | replace k with b by lia; rewrite swap_r; f_equal; lia ].
  Qed.

  (** [g] is [f] with the blocks [a, m) and [m, b) exchanged. *)
  Definition rotated (a m b : nat) (f g : arr) : Prop :=
    (forall k, a <= k < a + (b - m) -> g k = f (m + (k - a))) /\
    (forall k, a + (b - m) <= k < b -> g k = f (a + (k - (a + (b - m))))) /\
    (forall k, k < a \/ b <= k -> g k = f k).

  Lemma rotate_loop_spec m : forall fuel i j f, i <= m -> 0 < i -> 0 < j -> i + j <= fuel ->
    swaps (m - i) (m + j) f (rotate_loop fuel m i j f) /\
    rotated (m - i) m (m + j) f (rotate_loop fuel m i j f).
  Proof.
    induction fuel as [|fuel IH]; intros i j f Him Hi Hj Hf; [lia|]. simpl.
    destruct (Nat.eqb_spec i j) as [->|Hne].
    - destruct (swapRange_spec j (m - j) m f) as [Hw Hk]; [lia|]. split; [exact Hw|].
      repeat split; intros k Hkk; rewrite Hk.
      + destruct (Nat.leb_spec (m - j) k), (Nat.ltb_spec k (m - j + j)); simpl; try lia. f_equal; lia.
      + destruct (Nat.leb_spec (m - j) k), (Nat.ltb_spec k (m - j + j)); simpl; try lia.
        destruct (Nat.leb_spec m k), (Nat.ltb_spec k (m + j)); simpl; try lia. f_equal; lia.
      + destruct (Nat.leb_spec (m - j) k), (Nat.ltb_spec k (m - j + j)); simpl; try lia;
          destruct (Nat.leb_spec m k), (Nat.ltb_spec k (m + j)); simpl; try lia; reflexivity.
    - destruct (Nat.ltb_spec j i) as [Hlt|Hge].
      + destruct (swapRange_spec j (m - i) m f) as [Hw Hk]; [lia|].
        set (f1 := swapRange (m - i) m j f) in *.
        destruct (IH (i - j) j f1) as (Hw2 & R1 & R2 & R3); [lia|lia|lia|lia|].
        set (g := rotate_loop fuel m (i - j) j f1) in *. split.
        { eapply swaps_trans; [eapply swaps_wide; [exact Hw|lia|lia]|eapply swaps_wide; [exact Hw2|lia|lia]]. }
        repeat split; intros k Hkk.
        * destruct (Nat.lt_ge_cases k (m - i + j)) as [H|H].
          -- rewrite R3 by lia. rewrite Hk.
             destruct (Nat.leb_spec (m - i) k), (Nat.ltb_spec k (m - i + j)); simpl; try lia. f_equal; lia.
          -- lia.
        * destruct (Nat.lt_ge_cases k (m - i + j + j)) as [H|H].
          -- rewrite R1 by lia. rewrite Hk.
             destruct (Nat.leb_spec (m - i) (m + (k - (m - (i - j))))), (Nat.ltb_spec (m + (k - (m - (i - j)))) (m - i + j)); simpl; try lia.
             destruct (Nat.leb_spec m (m + (k - (m - (i - j))))), (Nat.ltb_spec (m + (k - (m - (i - j)))) (m + j)); simpl; try lia.
             f_equal; lia.
          -- rewrite R2 by lia. rewrite Hk.
             match goal with |- context [Nat.leb (m - i) ?x] => set (y := x) end.
             assert (Hy : y = k - j) by (unfold y; lia).
             destruct (Nat.leb_spec (m - i) y), (Nat.ltb_spec y (m - i + j)); simpl; try lia.
             destruct (Nat.leb_spec m y), (Nat.ltb_spec y (m + j)); simpl; try lia.
             f_equal; lia.
        * rewrite R3 by lia. rewrite Hk.
          destruct (Nat.leb_spec (m - i) k), (Nat.ltb_spec k (m - i + j)); simpl; try lia;
            destruct (Nat.leb_spec m k), (Nat.ltb_spec k (m + j)); simpl; try lia; reflexivity.
      + destruct (swapRange_spec i (m - i) (m + j - i) f) as [Hw Hk]; [lia|].
        set (f1 := swapRange (m - i) (m + j - i) i f) in *.
        destruct (IH i (j - i) f1) as (Hw2 & R1 & R2 & R3); [lia|lia|lia|lia|].
        set (g := rotate_loop fuel m i (j - i) f1) in *. split.
        { eapply swaps_trans; [eapply swaps_wide; [exact Hw|lia|lia]|eapply swaps_wide; [exact Hw2|lia|lia]]. }
        repeat split; intros k Hkk.
        * destruct (Nat.lt_ge_cases k (m - i + (j - i))) as [H|H].
          -- rewrite R1 by lia. rewrite Hk.
             match goal with |- context [Nat.leb (m - i) ?x] => set (y := x) end.
             destruct (Nat.leb_spec (m - i) y), (Nat.ltb_spec y (m - i + i)); simpl; try lia.
             destruct (Nat.leb_spec (m + j - i) y), (Nat.ltb_spec y (m + j - i + i)); simpl; try lia.
             reflexivity.
          -- rewrite R2 by lia. rewrite Hk.
             match goal with |- context [Nat.leb (m - i) ?x] => set (y := x) end.
             assert (Hy : y = k - (j - i)) by (unfold y; lia).
             destruct (Nat.leb_spec (m - i) y), (Nat.ltb_spec y (m - i + i)); simpl; try lia.
             f_equal; lia.
        * rewrite R3 by lia. rewrite Hk.
          destruct (Nat.leb_spec (m - i) k), (Nat.ltb_spec k (m - i + i)); simpl; try lia.
          destruct (Nat.leb_spec (m + j - i) k), (Nat.ltb_spec k (m + j - i + i)); simpl; try lia.
          f_equal; lia.
        * rewrite R3 by lia. rewrite Hk.
          destruct (Nat.leb_spec (m - i) k), (Nat.ltb_spec k (m - i + i)); simpl; try lia;
            destruct (Nat.leb_spec (m + j - i) k), (Nat.ltb_spec k (m + j - i + i)); simpl; try lia; reflexivity.
  Qed.

  Lemma rotate_spec a m b f : a < m -> m < b ->
    swaps a b f (rotate a m b f) /\ rotated a m b f (rotate a m b f).
  Proof.
    intros Ham Hmb. unfold rotate.
    destruct (rotate_loop_spec m (b - a) (m - a) (b - m) f) as [Hw Hr]; [lia..|].
    replace (m - (m - a)) with a in * by lia. replace (m + (b - m)) with b in * by lia. auto.
  Qed.

  (** ** Searching *)

  Lemma bsearch_spec up : forall fuel i j, i <= j -> j - i <= fuel ->
    let r := bsearch fuel up i j in
    i <= r <= j /\ (r = i \/ up (r - 1) = true) /\ (r = j \/ up r = false).
  Proof.
    induction fuel as [|fuel IH]; intros i j Hij Hf; simpl; [lia|].
    destruct (Nat.ltb_spec i j) as [Hlt|Hge]; [|lia].
    pose proof (Nat.div2_odd (i + j)) as Hd.
    set (h := Nat.div2 (i + j)) in *.
    assert (Hb : Nat.b2n (Nat.odd (i + j)) <= 1) by (destruct (Nat.odd (i + j)); simpl; lia).
    destruct (up h) eqn:Hu.
    - destruct (IH (S h) j) as (H1 & H2 & H3); [lia|lia|].
      set (r := bsearch fuel up (S h) j) in *. split; [lia|]. split; [|exact H3].
      right. destruct H2 as [->|H2]; [|exact H2]. simpl. rewrite Nat.sub_0_r. exact Hu.
    - destruct (IH i h) as (H1 & H2 & H3); [lia|lia|].
      set (r := bsearch fuel up i h) in *. split; [lia|]. split; [exact H2|].
      right. destruct H3 as [->|H3]; [exact Hu|exact H3].
  Qed.

  Lemma bubble_up_spec : forall n k f,
    swaps k (S (k + n)) f (bubble_up n k f) /\
    bubble_up n k f (k + n) = f k /\
    (forall x, k <= x < k + n -> bubble_up n k f x = f (S x)) /\
    (forall x, x < k \/ k + n < x -> bubble_up n k f x = f x).
  Proof.
    induction n as [|n IH]; intros k f; simpl.
    - rewrite Nat.add_0_r. repeat split; [constructor|intros; lia].
    - destruct (IH (S k) (swap f k (S k))) as (Hw & H1 & H2 & H3). split.
      + eapply swaps_trans; [|eapply swaps_wide; [exact Hw|lia|lia]].
        apply swaps_step; [constructor|lia|lia].
      + replace (k + S n) with (S k + n) by lia. split; [rewrite H1, swap_r; reflexivity|]. split.
        * intros x Hx. destruct (Nat.eq_dec x k) as [->|Hne].
          -- rewrite H3 by lia. apply swap_l.
          -- rewrite H2 by lia. apply swap_o; lia.
        * intros x Hx. rewrite H3 by lia. apply swap_o; lia.
  Qed.

  Lemma bubble_down_spec : forall n k f, n <= k ->
    swaps (k - n) (S k) f (bubble_down n k f) /\
    bubble_down n k f (k - n) = f k /\
    (forall x, k - n < x <= k -> bubble_down n k f x = f (x - 1)) /\
    (forall x, x < k - n \/ k < x -> bubble_down n k f x = f x).
  Proof.
    induction n as [|n IH]; intros k f Hn; simpl.
    - rewrite Nat.sub_0_r. repeat split; [constructor|intros; lia].
    - destruct (IH (k - 1) (swap f k (k - 1))) as (Hw & H1 & H2 & H3); [lia|]. split.
      + eapply swaps_trans; [|eapply swaps_wide; [exact Hw|lia|lia]].
        apply swaps_step; [constructor|lia|lia].
      + replace (k - S n) with (k - 1 - n) by lia. split; [rewrite H1, swap_r; reflexivity|]. split.
        * intros x Hx. destruct (Nat.eq_dec x k) as [->|Hne].
          -- rewrite H3 by lia. apply swap_l.
          -- rewrite H2 by lia. rewrite swap_o by lia. reflexivity.
        * intros x Hx. rewrite H3 by lia. apply swap_o; lia.
  Qed.

  (** ** Merging *)

  Lemma symMerge_spec : forall fuel a m b f, a < m -> m < b -> b - a <= fuel ->
    sorted f a m -> sorted f m b ->
    sorted (symMerge less fuel a m b f) a b /\ swaps a b f (symMerge less fuel a m b f).
  Proof.
    induction fuel as [|fuel IH]; intros a m b f Ham Hmb Hf S1 S2; [lia|]. cbn [symMerge].
    destruct (Nat.eqb_spec (m - a) 1) as [H1|H1].
    { assert (m = S a) by lia. subst m. clear S1 H1 IH Hf.
      destruct (bsearch_spec (fun h => less (f h) (f a)) (b - S a) (S a) b) as (Hr & Hup & Hdn); [lia|lia|].
      set (i := bsearch (b - S a) (fun h => less (f h) (f a)) (S a) b) in *.
      destruct (bubble_up_spec (i - 1 - a) a f) as (Hw & B1 & B2 & B3).
      set (g := bubble_up (i - 1 - a) a f) in *.
      replace (a + (i - 1 - a)) with (i - 1) in * by lia.
      split; [|eapply swaps_wide; [exact Hw|lia|lia]].
      assert (L1 : forall x, a < x < i -> le (f x) (f a)).
      { intros x Hx. destruct Hup as [->|Hup]; [lia|]. apply less_le in Hup.
        eapply le_trans; [|exact Hup]. apply S2; lia. }
      assert (L2 : forall x, i <= x < b -> le (f a) (f x)).
      { intros x Hx. destruct Hdn as [->|Hdn]; [lia|]. apply notless_le in Hdn.
        eapply le_trans; [exact Hdn|]. apply S2; lia. }
      intros x y Hx Hxy Hy.
      destruct (lt_eq_lt_dec x (i - 1)) as [[Hlx|Hex]|Hgx].
      - rewrite (B2 x) by lia.
        destruct (lt_eq_lt_dec y (i - 1)) as [[Hly|Hey]|Hgy].
        + rewrite (B2 y) by lia. apply S2; lia.
        + rewrite Hey, B1. apply L1. lia.
        + rewrite (B3 y) by lia. apply S2; lia.
      - rewrite Hex, B1. destruct (Nat.eq_dec y (i - 1)) as [->|Hne].
        + rewrite B1. apply le_refl.
        + rewrite (B3 y) by lia. apply L2. lia.
      - rewrite (B3 x), (B3 y) by lia. apply S2; lia. }
    destruct (Nat.eqb_spec (b - m) 1) as [H2|H2].
    { assert (b = S m) by lia. subst b. clear S2 H2 IH Hf.
      destruct (bsearch_spec (fun h => negb (less (f m) (f h))) (m - a) a m) as (Hr & Hup & Hdn); [lia|lia|].
      set (i := bsearch (m - a) (fun h => negb (less (f m) (f h))) a m) in *.
      destruct (bubble_down_spec (m - i) m f) as (Hw & B1 & B2 & B3); [lia|].
      set (g := bubble_down (m - i) m f) in *.
      replace (m - (m - i)) with i in * by lia.
      split; [|eapply swaps_wide; [exact Hw|lia|lia]].
      assert (L1 : forall x, a <= x < i -> le (f x) (f m)).
      { intros x Hx. destruct Hup as [->|Hup]; [lia|]. apply negb_true_iff in Hup. apply notless_le in Hup.
        eapply le_trans; [|exact Hup]. apply S1; lia. }
      assert (L2 : forall x, i <= x < m -> le (f m) (f x)).
      { intros x Hx. destruct Hdn as [->|Hdn]; [lia|]. apply negb_false_iff in Hdn. apply less_le in Hdn.
        eapply le_trans; [exact Hdn|]. apply S1; lia. }
      intros x y Hx Hxy Hy.
      destruct (lt_eq_lt_dec x i) as [[Hlx|Hex]|Hgx].
      - rewrite (B3 x) by lia.
        destruct (lt_eq_lt_dec y i) as [[Hly|Hey]|Hgy].
        + rewrite (B3 y) by lia. apply S1; lia.
        + rewrite Hey, B1. apply L1. lia.
        + rewrite (B2 y) by lia. apply S1; lia.
      - rewrite Hex, B1. destruct (Nat.eq_dec y i) as [->|Hne].
        + rewrite B1. apply le_refl.
        + rewrite (B2 y) by lia. apply L2. lia.
      - rewrite (B2 x), (B2 y) by lia. apply S1; lia. }
    pose proof (Nat.div2_odd (a + b)) as Hd.
    assert (Hb2 : Nat.b2n (Nat.odd (a + b)) <= 1) by (destruct (Nat.odd (a + b)); simpl; lia).
    set (mid := Nat.div2 (a + b)) in *.
    set (sr := if Nat.ltb mid m then (mid + m - b, mid) else (a, m)).
    destruct sr as [start0 r0] eqn:Hsr. cbv zeta.
    assert (Hc : (mid < m /\ start0 = mid + m - b /\ r0 = mid) \/ (m <= mid /\ start0 = a /\ r0 = m)).
    { subst sr. destruct (Nat.ltb_spec mid m); injection Hsr as <- <-; auto. }
    clear sr Hsr.
    destruct (bsearch_spec (fun c => negb (less (f (mid + m - 1 - c)) (f c))) (r0 - start0) start0 r0)
      as (Hr & Hup & Hdn); [lia|lia|].
    set (start := bsearch (r0 - start0) (fun c => negb (less (f (mid + m - 1 - c)) (f c))) start0 r0) in *.
    set (e := mid + m - start) in *.
    assert (HA : a < start -> e < b -> le (f (start - 1)) (f e)).
    { intros Ha He. destruct Hup as [Heq|Hup]; [lia|].
      apply negb_true_iff in Hup. apply notless_le in Hup.
      replace (mid + m - 1 - (start - 1)) with e in Hup by lia. exact Hup. }
    assert (HB : start < m -> m < e -> le (f (e - 1)) (f start)).
    { intros Ha He. destruct Hdn as [Heq|Hdn]; [lia|].
      apply negb_false_iff in Hdn. apply less_le in Hdn.
      replace (mid + m - 1 - start) with (e - 1) in Hdn by lia. exact Hdn. }
    assert (Hrange : a <= start <= m /\ m <= e <= b /\ start <= mid <= e) by lia.
    clear Hup Hdn Hr. clearbody start.
    set (f1 := if (Nat.ltb start m && Nat.ltb m e)%bool then rotate start m e f else f).
    assert (HR : swaps a b f f1 /\ rotated start m e f f1).
    { subst f1. destruct (Nat.ltb_spec start m) as [Hl|Hl]; simpl.
      - destruct (Nat.ltb_spec m e) as [Hl2|Hl2].
        + destruct (rotate_spec start m e f) as [Hw Hrot]; [lia|lia|].
          split; [eapply swaps_wide; [exact Hw|lia|lia]|exact Hrot].
        + split; [constructor|]. repeat split; intros k Hk; try lia; f_equal; lia.
      - split; [constructor|]. repeat split; intros k Hk; try lia; f_equal; lia. }
    clearbody f1. destruct HR as (Hw1 & R1 & R2 & R3).
    replace (start + (e - m)) with mid in * by lia.
    assert (Hleft : forall x, a <= x < mid -> exists x', f1 x = f x' /\ ((a <= x' < start) \/ (m <= x' < e))).
    { intros x Hx. destruct (Nat.lt_ge_cases x start).
      - exists x. rewrite R3 by lia. split; [reflexivity|lia].
      - exists (m + (x - start)). rewrite R1 by lia. split; [reflexivity|lia]. }
    assert (Hright : forall y, mid <= y < b -> exists y', f1 y = f y' /\ ((start <= y' < m) \/ (e <= y' < b))).
    { intros y Hy. destruct (Nat.lt_ge_cases y e).
      - exists (start + (y - mid)). rewrite R2 by lia. split; [reflexivity|lia].
      - exists y. rewrite R3 by lia. split; [reflexivity|lia]. }
    assert (Hcross : forall x y, a <= x < mid -> mid <= y < b -> le (f1 x) (f1 y)).
    { intros x y Hx Hy.
      destruct (Hleft x Hx) as (x' & -> & Hx'). destruct (Hright y Hy) as (y' & -> & Hy').
      destruct Hx' as [Hx'|Hx'], Hy' as [Hy'|Hy'].
      - apply S1; lia.
      - eapply le_trans; [apply (S1 x' (start - 1)); lia|].
        eapply le_trans; [apply HA; lia|]. apply S2; lia.
      - eapply le_trans; [apply (S2 x' (e - 1)); lia|].
        eapply le_trans; [apply HB; lia|]. apply S1; lia.
      - apply S2; lia. }
    (* the left half *)
    assert (SL1 : sorted f1 a start).
    { eapply sorted_ext; [|intros i j Hi Hij Hj; apply (S1 i j); lia]. intros k Hk. apply R3. lia. }
    assert (SL2 : sorted f1 start mid).
    { intros i j Hi Hij Hj. rewrite (R1 i), (R1 j) by lia. apply S2; lia. }
    assert (SR1 : sorted f1 mid e).
    { intros i j Hi Hij Hj. rewrite (R2 i), (R2 j) by lia. apply S1; lia. }
    assert (SR2 : sorted f1 e b).
    { eapply sorted_ext; [|intros i j Hi Hij Hj; apply (S2 i j); lia]. intros k Hk. apply R3. lia. }
    clear HA HB R1 R2 R3 Hleft Hright S1 S2.
    set (f2 := if (Nat.ltb a start && Nat.ltb start mid)%bool then symMerge less fuel a start mid f1 else f1).
    assert (H2L : sorted f2 a mid /\ swaps a mid f1 f2).
    { subst f2. destruct (Nat.ltb_spec a start) as [Hl|Hl]; simpl.
      - destruct (Nat.ltb_spec start mid) as [Hl2|Hl2].
        + apply IH; try assumption; lia.
        + split; [|constructor]. replace mid with start by lia. exact SL1.
      - split; [|constructor]. replace a with start by lia. exact SL2. }
    clearbody f2. destruct H2L as [SL Hw2].
    assert (SR1' : sorted f2 mid e).
    { eapply sorted_ext; [|exact SR1]. intros k Hk. apply (swaps_out _ _ _ _ _ Hw2). lia. }
    assert (SR2' : sorted f2 e b).
    { eapply sorted_ext; [|exact SR2]. intros k Hk. apply (swaps_out _ _ _ _ _ Hw2). lia. }
    set (f3 := if (Nat.ltb mid e && Nat.ltb e b)%bool then symMerge less fuel mid e b f2 else f2).
    assert (H3R : sorted f3 mid b /\ swaps mid b f2 f3).
    { subst f3. destruct (Nat.ltb_spec mid e) as [Hl|Hl]; simpl.
      - destruct (Nat.ltb_spec e b) as [Hl2|Hl2].
        + apply IH; try assumption; lia.
        + split; [|constructor]. replace b with e by lia. exact SR1'.
      - split; [|constructor]. replace mid with e by lia. exact SR2'. }
    change (if (Nat.ltb mid e && Nat.ltb e b)%bool then symMerge less fuel mid e b f2 else f2) with f3.
    clearbody f3. destruct H3R as [SR Hw3]. split.
    - intros x y Hx Hxy Hy.
      destruct (Nat.lt_ge_cases y mid) as [Hym|Hym].
      + rewrite !(swaps_out _ _ _ _ _ Hw3) by lia. apply SL; lia.
      + destruct (Nat.lt_ge_cases x mid) as [Hxm|Hxm]; [|apply SR; lia].
        rewrite (swaps_out _ _ _ _ x Hw3) by lia.
        destruct (swaps_from _ _ _ _ x Hw2) as (x' & Hx' & ->); [lia|].
        destruct (swaps_from _ _ _ _ y Hw3) as (y' & Hy' & ->); [lia|].
        rewrite (swaps_out _ _ _ _ y' Hw2) by lia. apply Hcross; lia.
    - eapply swaps_trans; [exact Hw1|].
      eapply swaps_trans; [eapply swaps_wide; [exact Hw2|lia|lia]|eapply swaps_wide; [exact Hw3|lia|lia]].
  Qed.

  (** ** The whole sort *)

  (** Every block of [bs] is sorted; the last one may be shorter. *)
  Definition bsorted (bs n : nat) (f : arr) : Prop :=
    forall k, sorted f (k * bs) (Nat.min (k * bs + bs) n).

  Lemma blocks_spec bs n : 0 < bs -> forall fuel q f, n - q * bs <= fuel -> q * bs <= n ->
    (forall k, k < q -> sorted f (k * bs) (k * bs + bs)) ->
    let '(a, g) := blocks less fuel bs (q * bs) n f in
    exists q', a = q' * bs /\ a <= n /\ n < a + bs /\ swaps 0 n f g /\
      (forall k, k < q' -> sorted g (k * bs) (k * bs + bs)).
  Proof.
    intros Hbs. induction fuel as [|fuel IH]; intros q f Hf Hq Hs; simpl.
    - exists q. repeat split; auto; try lia. constructor.
    - destruct (Nat.leb_spec (q * bs + bs) n) as [Hle|Hgt].
      + destruct (insertionSort_spec (q * bs) (q * bs + bs) f) as [Hs' Hw]; [lia|].
        specialize (IH (S q) (insertionSort less (q * bs) (q * bs + bs) f)).
        replace (S q * bs) with (q * bs + bs) in IH by lia.
        destruct (blocks less fuel bs (q * bs + bs) n _) as [a g].
        destruct IH as (q' & ? & ? & ? & Hw' & ?); [lia|lia| |].
        { intros k Hk. destruct (Nat.eq_dec k q) as [->|Hne]; [exact Hs'|].
          eapply sorted_ext; [|apply Hs; lia].
          intros x Hx. apply (swaps_out _ _ _ _ _ Hw). nia. }
        exists q'. repeat split; auto.
        eapply swaps_trans; [eapply swaps_wide; [exact Hw|lia|lia]|exact Hw'].
      + exists q. repeat split; auto. constructor.
  Qed.

  Lemma merges_spec bs n : 0 < bs -> forall fuel q f, n - q * (2 * bs) <= fuel -> q * (2 * bs) <= n ->
    (forall k, k < q -> sorted f (k * (2 * bs)) (k * (2 * bs) + 2 * bs)) ->
    (forall k, 2 * q <= k -> sorted f (k * bs) (Nat.min (k * bs + bs) n)) ->
    let '(a, g) := merges less fuel bs (q * (2 * bs)) n f in
    exists q', a = q' * (2 * bs) /\ a <= n /\ n < a + 2 * bs /\ swaps 0 n f g /\
      (forall k, k < q' -> sorted g (k * (2 * bs)) (k * (2 * bs) + 2 * bs)) /\
      (forall k, 2 * q' <= k -> sorted g (k * bs) (Nat.min (k * bs + bs) n)).
  Proof.
    intros Hbs. induction fuel as [|fuel IH]; intros q f Hf Hq Hs Hr; cbn [merges].
    - exists q. repeat split; auto; try lia. constructor.
    - destruct (Nat.leb_spec (q * (2 * bs) + 2 * bs) n) as [Hle|Hgt].
      + set (a := q * (2 * bs)) in *.
        assert (Sa : sorted f a (a + bs)).
        { pose proof (Hr (2 * q) ltac:(lia)) as H. replace (2 * q * bs) with a in H by (unfold a; lia).
          rewrite Nat.min_l in H by lia. exact H. }
        assert (Sb : sorted f (a + bs) (a + 2 * bs)).
        { pose proof (Hr (2 * q + 1) ltac:(lia)) as H.
          replace ((2 * q + 1) * bs) with (a + bs) in H by (unfold a; lia).
          rewrite Nat.min_l in H by lia. replace (a + 2 * bs) with (a + bs + bs) by lia. exact H. }
        destruct (symMerge_spec (2 * bs) a (a + bs) (a + 2 * bs) f) as [Hs' Hw]; [lia|lia|lia|exact Sa|exact Sb|].
        specialize (IH (S q) (symMerge less (2 * bs) a (a + bs) (a + 2 * bs) f)).
        replace (S q * (2 * bs)) with (a + 2 * bs) in IH by (unfold a; lia).
        destruct (merges less fuel bs (a + 2 * bs) n _) as [a' g].
        destruct IH as (q' & ? & ? & ? & Hw' & ?); [lia|lia| | |].
        { intros k Hk. destruct (Nat.eq_dec k q) as [->|Hne]; [exact Hs'|].
          eapply sorted_ext; [|apply Hs; lia].
          intros x Hx. apply (swaps_out _ _ _ _ _ Hw). unfold a. nia. }
        { intros k Hk. eapply sorted_ext; [|apply Hr; lia].
          intros x Hx. apply (swaps_out _ _ _ _ _ Hw). unfold a. nia. }
        exists q'. repeat split; auto; try tauto.
        eapply swaps_trans; [eapply swaps_wide; [exact Hw|lia|lia]|exact Hw'].
      + exists q. repeat split; auto. constructor.
  Qed.

  Lemma pass_spec bs n f : 0 < bs -> bsorted bs n f ->
    let '(a, f1) := merges less n bs 0 n f in
    let f2 := if Nat.ltb (a + bs) n then symMerge less (n - a) a (a + bs) n f1 else f1 in
    bsorted (2 * bs) n f2 /\ swaps 0 n f f2.
  Proof.
    intros Hbs Hb.
    pose proof (merges_spec bs n Hbs n 0 f ltac:(lia) ltac:(lia) ltac:(intros; lia)) as H.
    simpl (0 * (2 * bs)) in H.
    destruct (merges less n bs 0 n f) as [a f1].
    destruct H as (q & Ha & Han & Hna & Hw & Hs & Hr); [intros k _; apply Hb|].
    destruct (Nat.ltb_spec (a + bs) n) as [Hlt|Hge]; cbv zeta.
    - destruct (symMerge_spec (n - a) a (a + bs) n f1) as [Hs' Hw']; [lia|lia|lia| | |].
      { pose proof (Hr (2 * q) ltac:(lia)) as H. replace (2 * q * bs) with a in H by lia.
        rewrite Nat.min_l in H by lia. exact H. }
      { pose proof (Hr (2 * q + 1) ltac:(lia)) as H. replace ((2 * q + 1) * bs) with (a + bs) in H by lia.
        rewrite Nat.min_r in H by lia. exact H. }
      split.
      + intros k. destruct (lt_eq_lt_dec k q) as [[Hk| ->]|Hk].
        * rewrite Nat.min_l by nia. eapply sorted_ext; [|apply Hs; lia].
          intros x Hx. apply (swaps_out _ _ _ _ _ Hw'). nia.
        * rewrite Nat.min_r by lia. rewrite <- Ha. exact Hs'.
        * apply sorted_one. nia.
      + eapply swaps_trans; [exact Hw|]. eapply swaps_wide; [exact Hw'|lia|lia].
    - split; [|exact Hw].
      intros k. destruct (lt_eq_lt_dec k q) as [[Hk| ->]|Hk].
      + rewrite Nat.min_l by nia. apply Hs. lia.
      + rewrite Nat.min_r by lia. rewrite <- Ha.
        pose proof (Hr (2 * q) ltac:(lia)) as H. replace (2 * q * bs) with a in H by lia.
        rewrite Nat.min_r in H by lia. exact H.
      + apply sorted_one. nia.
  Qed.

  Lemma passes_spec n : forall fuel bs f, 0 < bs -> n <= bs + fuel -> bsorted bs n f ->
    sorted (passes less fuel bs n f) 0 n /\ swaps 0 n f (passes less fuel bs n f).
  Proof.
    induction fuel as [|fuel IH]; intros bs f Hbs Hn Hb; cbn [passes].
    - split; [|constructor]. pose proof (Hb 0) as H. simpl in H. rewrite Nat.min_r in H by lia. exact H.
    - destruct (Nat.ltb_spec bs n) as [Hlt|Hge].
      + pose proof (pass_spec bs n f Hbs Hb) as H.
        destruct (merges less n bs 0 n f) as [a f1]. cbv zeta in H. destruct H as [Hb' Hw].
        destruct (IH (2 * bs) _ ltac:(lia) ltac:(lia) Hb') as [Hs Hw']. split; [exact Hs|].
        eapply swaps_trans; eassumption.
      + split; [|constructor]. pose proof (Hb 0) as H. simpl in H. rewrite Nat.min_r in H by lia. exact H.
  Qed.

  Lemma stable_spec n f : sorted (stable less n f) 0 n /\ swaps 0 n f (stable less n f).
  Proof.
    unfold stable.
    pose proof (blocks_spec 20 n ltac:(lia) n 0 f ltac:(lia) ltac:(lia) ltac:(intros; lia)) as H.
    simpl (0 * 20) in H. destruct (blocks less n 20 0 n f) as [a f1].
    destruct H as (q & Ha & Han & Hna & Hw & Hs).
    destruct (insertionSort_spec a n f1) as [Hs' Hw']; [lia|].
    destruct (passes_spec n n 20 (insertionSort less a n f1)) as [Hs2 Hw2]; [lia|lia| |].
    - intros k. destruct (lt_eq_lt_dec k q) as [[Hk| ->]|Hk].
      + rewrite Nat.min_l by nia. eapply sorted_ext; [|apply Hs; lia].
        intros x Hx. apply (swaps_out _ _ _ _ _ Hw'). nia.
      + rewrite Nat.min_r by lia. rewrite <- Ha. exact Hs'.
      + apply sorted_one. nia.
    - split; [exact Hs2|].
      eapply swaps_trans; [exact Hw|]. eapply swaps_trans; [|exact Hw2].
      eapply swaps_wide; [exact Hw'|lia|lia].
  Qed.

  Lemma map_nth_seq (l : list A) d : map (fun i => nth i l d) (seq 0 (length l)) = l.
  Proof.
    induction l as [|x l IH]; [reflexivity|]. simpl. f_equal.
    rewrite <- seq_shift, map_map. rewrite <- IH at 2. reflexivity.
  Qed.

  (** The result is a rearrangement of the slice in which no element comes before
      one it must not precede. *)
  Lemma SliceStable_spec (l : list A) :
    Permutation (SliceStable less l) l /\
    forall i j x y, i <= j -> nth_error (SliceStable less l) i = Some x ->
      nth_error (SliceStable less l) j = Some y -> le x y.
  Proof.
    unfold SliceStable. destruct l as [|d l']; [split; [reflexivity|]; intros [|i] j x y _ H; discriminate|].
    set (l := d :: l'). destruct (stable_spec (length l) (fun i => nth i l d)) as [Hs Hw]. split.
    - pose proof (swaps_perm _ _ _ Hw) as Hp. rewrite (map_nth_seq l d) in Hp. exact Hp.
    - intros i j x y Hij Hi Hj.
      assert (Hget : forall k z, nth_error (map (stable less (length l) (fun i => nth i l d)) (seq 0 (length l))) k = Some z ->
        k < length l /\ z = stable less (length l) (fun i => nth i l d) k).
      { intros k z Hk. assert (Hlt : k < length l).
        { assert (H : nth_error (map (stable less (length l) (fun i => nth i l d)) (seq 0 (length l))) k <> None) by congruence.
          apply nth_error_Some in H. rewrite map_length, seq_length in H. exact H. }
        split; [exact Hlt|].
        rewrite nth_error_map in Hk.
        rewrite (nth_error_nth' _ 0) in Hk by (rewrite seq_length; exact Hlt).
        rewrite seq_nth in Hk by exact Hlt. simpl in Hk. (injection Hk as Hk; symmetry; exact Hk). }
      apply Hget in Hi as [Hi ->]. apply Hget in Hj as [Hj ->]. apply Hs; lia.
  Qed.
End Sort.
