(** Lemmas about the Go primitives of [Base.v]. *)
From Coq Require Import ZArith NArith Ascii String List Lia.
From stdpp Require Import base list strings gmap sorting.
From Verif Require Import Base.

(** ** Strings and bytes *)
Lemma of_to_bytes s : of_bytes (to_bytes s) = s.
Proof. apply string_of_list_ascii_of_string. Qed.
Lemma to_of_bytes b : to_bytes (of_bytes b) = b.
Proof. apply list_ascii_of_string_of_list_ascii. Qed.
Lemma to_bytes_inj a b : to_bytes a = to_bytes b -> a = b.
Proof. intros H. rewrite <- (of_to_bytes a), <- (of_to_bytes b), H. done. Qed.
Lemma of_bytes_inj a b : of_bytes a = of_bytes b -> a = b.
Proof. intros H. rewrite <- (to_of_bytes a), <- (to_of_bytes b), H. done. Qed.
Lemma to_bytes_app a b : to_bytes (String.append a b) = to_bytes a ++ to_bytes b.
Proof.
  induction a as [|c a IH]; [done|].
  change (c :: to_bytes (String.append a b) = c :: (to_bytes a ++ to_bytes b)).
  by rewrite IH.
Qed.
Lemma of_bytes_app a b : of_bytes (a ++ b) = String.append (of_bytes a) (of_bytes b).
Proof. apply to_bytes_inj. rewrite to_bytes_app, !to_of_bytes. done. Qed.

Lemma byte_val_lt c : (byte_val c < 256)%N.
Proof. apply N_ascii_bounded. Qed.
Lemma byte_val_inj a b : byte_val a = byte_val b -> a = b.
Proof.
  intros H. rewrite <- (ascii_N_embedding a), <- (ascii_N_embedding b).
  unfold byte_val in H. by rewrite H.
Qed.

(** ** The order on strings is total *)
Lemma bytes_leb_refl a : bytes_leb a a = true.
Proof. induction a as [|x a IH]; [done|]. cbn. rewrite N.ltb_irrefl, N.eqb_refl. done. Qed.

Lemma bytes_leb_total a b : bytes_leb a b = true \/ bytes_leb b a = true.
Proof.
  revert b. induction a as [|x a IH]; intros [|y b]; cbn; auto.
  destruct (N.ltb_spec (byte_val x) (byte_val y)); [auto|].
  destruct (N.eqb_spec (byte_val x) (byte_val y)) as [E|E].
  - rewrite E, N.ltb_irrefl, N.eqb_refl. apply IH.
  - right. destruct (N.ltb_spec (byte_val y) (byte_val x)); [done|lia].
Qed.

Lemma bytes_leb_antisym a b : bytes_leb a b = true -> bytes_leb b a = true -> a = b.
Proof.
  revert b. induction a as [|x a IH]; intros [|y b]; cbn; try done.
  destruct (N.ltb_spec (byte_val x) (byte_val y)),
           (N.ltb_spec (byte_val y) (byte_val x)); try lia.
  - destruct (N.eqb_spec (byte_val y) (byte_val x)); [lia|done].
  - destruct (N.eqb_spec (byte_val x) (byte_val y)); [lia|done].
  - destruct (N.eqb_spec (byte_val x) (byte_val y)) as [E|E]; [|lia].
    rewrite E, N.eqb_refl. intros H1 H2.
    f_equal; [by apply byte_val_inj | by apply IH].
Qed.

Lemma bytes_leb_trans a b c :
  bytes_leb a b = true -> bytes_leb b c = true -> bytes_leb a c = true.
Proof.
  revert b c. induction a as [|x a IH]; intros [|y b] [|z c]; cbn; try done.
  destruct (N.ltb_spec (byte_val x) (byte_val y)),
           (N.ltb_spec (byte_val y) (byte_val z)),
           (N.ltb_spec (byte_val x) (byte_val z)); try done; try lia;
  destruct (N.eqb_spec (byte_val x) (byte_val y)),
           (N.eqb_spec (byte_val y) (byte_val z)),
           (N.eqb_spec (byte_val x) (byte_val z)); try done; try lia.
  apply IH.
Qed.

Global Instance str_le_total : Total str_le.
Proof. intros a b. apply bytes_leb_total. Qed.
Global Instance str_le_trans : Transitive str_le.
Proof. intros a b c. apply bytes_leb_trans. Qed.
Global Instance str_le_antisym : AntiSymm (=) str_le.
Proof. intros a b H1 H2. apply to_bytes_inj. by apply bytes_leb_antisym. Qed.
Lemma str_le_refl a : str_le a a.
Proof. apply bytes_leb_refl. Qed.

Lemma sort_strings_perm l : sort_strings l ≡ₚ l.
Proof. apply merge_sort_Permutation. Qed.
Lemma sort_strings_sorted l : StronglySorted str_le (sort_strings l).
Proof. apply StronglySorted_merge_sort; apply _. Qed.
(** The sorted permutation is unique, so sorting forgets the order. *)
Lemma sorted_unique (l1 l2 : list string) :
  StronglySorted str_le l1 -> StronglySorted str_le l2 -> l1 ≡ₚ l2 -> l1 = l2.
Proof. intros. by apply (StronglySorted_unique str_le). Qed.
Lemma sort_strings_eq l1 l2 : l1 ≡ₚ l2 -> sort_strings l1 = sort_strings l2.
Proof.
  intros H. apply sorted_unique; try apply sort_strings_sorted.
  by rewrite !sort_strings_perm.
Qed.
Lemma sort_strings_idemp l : sort_strings (sort_strings l) = sort_strings l.
Proof. apply sort_strings_eq, sort_strings_perm. Qed.
Lemma sort_strings_sorted_id l : StronglySorted str_le l -> sort_strings l = l.
Proof.
  intros H. apply sorted_unique; [apply sort_strings_sorted|done|apply sort_strings_perm].
Qed.

(** ** Big-endian value *)
Lemma be_val_acc_app acc a b : be_val_acc acc (a ++ b) = be_val_acc (be_val_acc acc a) b.
Proof. revert acc. induction a as [|x a IH]; intros acc; cbn; [done|apply IH]. Qed.
Lemma be_val_app a c : be_val (a ++ [c]) = (be_val a * 256 + byte_val c)%N.
Proof. unfold be_val. rewrite be_val_acc_app. done. Qed.
Lemma be_val_bound b : (be_val b < 256 ^ N.of_nat (length b))%N.
Proof.
  induction b as [|c b IH] using rev_ind; [cbn; lia|].
  rewrite be_val_app, app_length. cbn [length].
  replace (N.of_nat (length b + 1)) with (N.succ (N.of_nat (length b))) by lia.
  rewrite N.pow_succ_r by lia. pose proof (byte_val_lt c). nia.
Qed.

(** ** Map iteration orders *)
Lemma insert_at_perm {A} k (x : A) l : insert_at k x l ≡ₚ x :: l.
Proof.
  unfold insert_at. rewrite <- Permutation_middle. by rewrite take_drop.
Qed.
Lemma permute_perm {A} ks (l : list A) : permute ks l ≡ₚ l.
Proof.
  revert ks. induction l as [|x l IH]; intros ks; [done|].
  destruct ks as [|k ks]; [done|]. cbn. rewrite insert_at_perm. by rewrite IH.
Qed.
(** Every permutation is reached by some order. *)
Lemma permute_complete {A} (l l' : list A) : l' ≡ₚ l -> exists ks, permute ks l = l'.
Proof.
  revert l'. induction l as [|x l IH]; intros l' H.
  - apply Permutation_nil_r in H. subst. by exists (@nil nat).
  - assert (Hin : x ∈ l') by (rewrite H; left).
    apply elem_of_list_split in Hin as (l1 & l2 & ->).
    assert (l1 ++ l2 ≡ₚ l) as H'.
    { apply (Permutation_cons_inv (a := x)). by rewrite Permutation_middle. }
    destruct (IH _ H') as [ks Hks]. exists (length l1 :: ks). cbn. rewrite Hks.
    unfold insert_at. by rewrite take_app, drop_app.
Qed.
Lemma permute_length {A} ks (l : list A) : length (permute ks l) = length l.
Proof. by rewrite permute_perm. Qed.

(** ** [itoa] is injective *)
Definition atoi_acc (acc : N) (b : bytes) : N :=
  fold_left (fun a c => a * 10 + (byte_val c - 48))%N b acc.
Definition atoi (b : bytes) : N := atoi_acc 0 b.
Lemma digit_val d : (d < 10)%N -> (byte_val (digit d) - 48 = d)%N.
Proof.
  intros H. unfold byte_val, digit. rewrite N_ascii_embedding by lia. lia.
Qed.
Lemma itoa_fuel_val fuel n acc :
  (n < 10 ^ N.of_nat fuel)%N -> fuel <> O ->
  exists p, itoa_fuel fuel n acc = p ++ acc /\ atoi p = n.
Proof.
  revert n acc. induction fuel as [|f IH]; intros n acc Hn Hf; [done|].
  cbn [itoa_fuel]. destruct (N.ltb_spec n 10) as [Hlt|Hge].
  - exists [digit (n mod 10)]. split; [done|]. unfold atoi, atoi_acc. cbn [fold_left].
    rewrite digit_val by (apply N.mod_lt; lia). rewrite N.mod_small; lia.
  - destruct (IH (n / 10)%N (digit (n mod 10) :: acc)) as (p & Hp & Hv).
    + apply N.div_lt_upper_bound; [lia|].
      replace (N.of_nat (S f)) with (N.succ (N.of_nat f)) in Hn by lia.
      rewrite N.pow_succ_r in Hn by lia. lia.
    + intros ->. change (10 ^ N.of_nat 1)%N with 10%N in Hn. lia.
    + exists (p ++ [digit (n mod 10)]). split; [rewrite Hp; by rewrite <- app_assoc|].
      unfold atoi, atoi_acc in *. rewrite fold_left_app, Hv. cbn [fold_left].
      rewrite digit_val by (apply N.mod_lt; lia).
      pose proof (N.div_mod n 10). lia.
Qed.
Lemma size_nat_pos p : (N.pos p < 2 ^ N.of_nat (Pos.size_nat p))%N.
Proof.
  induction p as [p IH|p IH|]; cbn [Pos.size_nat]; [| |done].
  all: replace (N.of_nat (S (Pos.size_nat p))) with (N.succ (N.of_nat (Pos.size_nat p))) by lia.
  all: rewrite N.pow_succ_r by lia; lia.
Qed.
Lemma size_pow n : (n < 10 ^ N.of_nat (S (N.size_nat n)))%N.
Proof.
  assert (n < 2 ^ N.of_nat (N.size_nat n))%N as H.
  { destruct n as [|p]; [cbn; lia|]. apply size_nat_pos. }
  eapply N.lt_le_trans; [exact H|].
  transitivity (10 ^ N.of_nat (N.size_nat n))%N.
  - apply N.pow_le_mono_l. lia.
  - apply N.pow_le_mono_r; lia.
Qed.
Lemma atoi_itoa n : atoi (to_bytes (itoa n)) = n.
Proof.
  unfold itoa. rewrite to_of_bytes.
  destruct (itoa_fuel_val (S (N.size_nat n)) n []) as (p & Hp & Hv);
    [apply size_pow|done|].
  rewrite Hp, app_nil_r. done.
Qed.
Lemma itoa_inj a b : itoa a = itoa b -> a = b.
Proof. intros H. rewrite <- (atoi_itoa a), <- (atoi_itoa b), H. done. Qed.
