(** The checksum notices up to four changed characters in a text as long as a key's. *)
From Coq Require Import ZArith NArith Ascii String List Lia.
From stdpp Require Import base list strings.
From Verif Require Import Base L_Base M_Keys L_Bech32.

Local Open Scope N_scope.

(** The value of a list of differences, the last one first *)
Fixpoint val (r : list N) : N := match r with [] => 0 | x :: r => N.lxor (shift (val r)) x end.
Lemma run_val d : run 0 d = val (rev d).
Proof.
  induction d as [|x d IH] using rev_ind; [reflexivity|]. rewrite run_app, rev_app_distr. cbn [rev app val run fold_left].
  rewrite polystep_shift. fold (run 0 d). rewrite IH. reflexivity.
Qed.
Lemma val_lt r : Forall (fun v => v < 32) r -> val r < 2 ^ 30.
Proof. induction 1 as [|x r Hx _ IH]; [reflexivity|]. cbn [val]. apply lxor_lt; [apply shift_lt|apply small_lt, Hx]. Qed.

Lemma gen_low b : b < 32 -> N.land (gen_part b) 31 = 0 -> b = 0.
Proof.
  intros Hb. assert (H : forallb (fun k => implb (N.eqb (N.land (gen_part (N.of_nat k)) 31) 0) (Nat.eqb k 0)) (seq 0 32) = true) by (vm_compute; reflexivity).
  rewrite forallb_forall in H. specialize (H (N.to_nat b) ltac:(apply in_seq; lia)). rewrite N2Nat.id in H. intros E. rewrite E in H.
  cbn [N.eqb implb] in H. apply Nat.eqb_eq in H. lia.
Qed.
Lemma shift_zero x : x < 2 ^ 30 -> shift x = 0 -> x = 0.
Proof.
  intros Hx E. assert (Hb : N.shiftr x 25 < 32).
  { rewrite N.shiftr_div_pow2. apply N.div_lt_upper_bound; [discriminate|]. exact Hx. }
  assert (Hlow : N.land (gen_part (N.shiftr x 25)) 31 = 0).
  { apply (f_equal (fun v => N.land v 31)) in E. unfold shift in E. rewrite land_lxor in E.
    replace (N.land (N.shiftl (N.land x 0x1ffffff) 5) 31) with 0 in E; [rewrite N.lxor_0_l in E; exact E|].
    change 31 with (N.ones 5). rewrite N.land_ones, N.shiftl_mul_pow2, N.mod_mul by discriminate. reflexivity. }
  apply gen_low in Hlow; [|exact Hb]. rewrite N.shiftr_div_pow2 in Hlow. apply N.div_small_iff in Hlow; [|discriminate].
  rewrite shift_small, N.shiftl_mul_pow2 in E by exact Hlow. change (2 ^ 5) with 32 in E. lia.
Qed.

(** [a] steps from one difference, without its last five bits *)
Fixpoint steps (a : nat) (e : N) : N := match a with O => e | S a => shift (steps a e) end.
Definition high (a : nat) (e : N) : N := N.shiftr (steps a e) 5.
Lemma steps_lxor a x y : steps a (N.lxor x y) = N.lxor (steps a x) (steps a y).
Proof. induction a as [|a IH]; [reflexivity|]. cbn [steps]. rewrite IH. apply shift_lxor. Qed.
Lemma steps_shift a x : steps a (shift x) = steps (S a) x.
Proof. induction a as [|a IH]; [reflexivity|]. cbn [steps]. rewrite IH. reflexivity. Qed.
Lemma steps_0 a : steps a 0 = 0.
Proof. induction a as [|a IH]; [reflexivity|]. cbn [steps]. rewrite IH. reflexivity. Qed.
Fixpoint entries (a : nat) (r : list N) : list (nat * N) :=
  match r with [] => [] | x :: r => if N.eqb x 0 then entries (S a) r else (a, x) :: entries (S a) r end.
Lemma val_entries a r : steps a (val r) = fold_right (fun p v => N.lxor (steps (fst p) (snd p)) v) 0 (entries a r).
Proof.
  revert a. induction r as [|x r IH]; intros a; [apply steps_0|]. cbn [val entries]. rewrite steps_lxor, steps_shift, IH.
  destruct (N.eqb_spec x 0) as [->|]; [rewrite steps_0, N.lxor_0_r; reflexivity|]. cbn [fold_right fst snd]. apply N.lxor_comm.
Qed.
Fixpoint weight (r : list N) : nat := match r with [] => 0 | x :: r => if N.eqb x 0 then weight r else S (weight r) end.
Lemma weight_entries a r : length (entries a r) = weight r.
Proof. revert a. induction r as [|x r IH]; intros a; [reflexivity|]. cbn [entries weight]. destruct (N.eqb x 0); cbn [length]; rewrite IH; reflexivity. Qed.
Lemma weight_app a b : weight (a ++ b) = (weight a + weight b)%nat.
Proof. induction a as [|x a IH]; [reflexivity|]. cbn [app weight]. destruct (N.eqb x 0); rewrite IH; reflexivity. Qed.
Lemma weight_rev a : weight (rev a) = weight a.
Proof. induction a as [|x a IH]; [reflexivity|]. cbn [rev weight]. rewrite weight_app, IH. cbn [weight]. destruct (N.eqb x 0); lia. Qed.
Lemma entries_range a r : Forall (fun v => v < 32) r ->
  Forall (fun p => (a <= fst p < a + length r)%nat /\ 0 < snd p < 32) (entries a r).
Proof.
  intros Hr. revert a. induction Hr as [|x r Hx _ IH]; intros a; [constructor|]. cbn [entries length].
  assert (G : Forall (fun p => (a <= fst p < a + S (length r))%nat /\ 0 < snd p < 32) (entries (S a) r)).
  { eapply Forall_impl; [apply IH|]. cbn. intros p [H1 H2]. split; [lia|exact H2]. }
  destruct (N.eqb_spec x 0); [exact G|]. constructor; [cbn; lia|exact G].
Qed.
Lemma entries_later a r p l : entries a r = p :: l -> Forall (fun q => (fst p < fst q)%nat) l.
Proof.
  revert a. induction r as [|x r IH]; intros a; [discriminate|]. cbn [entries]. destruct (N.eqb x 0); [apply IH|].
  intros H. injection H as <- <-. cbn [fst]. clear IH. apply Forall_forall. intros q Hq.
  assert (G : forall b, q ∈ entries b r -> (b <= fst q)%nat).
  { clear. induction r as [|y r IH]; intros b Hq; [inversion Hq|]. cbn [entries] in Hq. destruct (N.eqb y 0).
    - apply IH in Hq. lia.
    - apply elem_of_cons in Hq as [->|Hq]; [cbn; lia|]. apply IH in Hq. lia. }
  apply G in Hq. lia.
Qed.

(** *** A table of all values of one difference, and the check of every two *)
Inductive trie := Leaf | Node (here : bool) (l r : trie).
Fixpoint insert (p : positive) (t : trie) : trie :=
  match t, p with
  | Leaf, xH => Node true Leaf Leaf
  | Leaf, xO p => Node false (insert p Leaf) Leaf
  | Leaf, xI p => Node false Leaf (insert p Leaf)
  | Node _ l r, xH => Node true l r
  | Node b l r, xO p => Node b (insert p l) r
  | Node b l r, xI p => Node b l (insert p r)
  end.
Fixpoint mem (p : positive) (t : trie) : bool :=
  match t, p with
  | Leaf, _ => false
  | Node b _ _, xH => b
  | Node _ l _, xO p => mem p l
  | Node _ _ r, xI p => mem p r
  end.
Lemma mem_same p t : mem p (insert p t) = true.
Proof. revert t. induction p as [p IH|p IH|]; intros [|b l r]; cbn [insert mem]; auto. Qed.
Lemma mem_keep p q t : mem p t = true -> mem p (insert q t) = true.
Proof. revert p t. induction q as [q IH|q IH|]; intros [p|p|] [|b l r]; cbn [insert mem]; intros H; try discriminate; auto. Qed.

Definition dist : nat := 66.
(** The rows of the table, made one from the other *)
Fixpoint rows (n : nat) (row : list N) : list (list N) :=
  match n with O => [] | S n => let row := map shift row in map (fun v => N.shiftr v 5) row :: rows n row end.
Definition errors : list N := map N.of_nat (seq 1 31).
Definition add (t : trie) (v : N) : trie := match v with N0 => t | Npos p => insert p t end.
Definition table (rs : list (list N)) : trie := fold_left (fun t row => fold_left add row t) rs Leaf.
Definition good (t : trie) (v : N) : bool := match v with N0 => false | Npos p => negb (mem p t) end.
Fixpoint check_pairs (t : trie) (rs : list (list N)) : bool :=
  match rs with
  | [] => true
  | row :: rest =>
      forallb (fun v => match v with N0 => false | Npos _ => forallb (forallb (fun w => good t (N.lxor v w))) rest end) row && check_pairs t rest
  end%bool.
Lemma table_checked : let rs := rows dist errors in check_pairs (table rs) rs = true.
Proof. vm_compute. reflexivity. Qed.

Lemma rows_nth n row a : (a < n)%nat -> nth a (rows n row) [] = map (fun e => N.shiftr (steps (S a) e) 5) row.
Proof.
  revert row a. induction n as [|n IH]; intros row a Ha; [lia|]. cbn [rows]. destruct a as [|a].
  - cbn [nth]. rewrite map_map. reflexivity.
  - cbn [nth]. rewrite IH by lia. rewrite map_map. apply map_ext. intros e. rewrite steps_shift. reflexivity.
Qed.
Lemma rows_length n row : length (rows n row) = n.
Proof. revert row. induction n as [|n IH]; intros row; [reflexivity|]. cbn [rows length]. rewrite IH. reflexivity. Qed.
Lemma errors_in e : 0 < e < 32 -> In e errors.
Proof. intros H. unfold errors. apply in_map_iff. exists (N.to_nat e). split; [apply N2Nat.id|]. apply in_seq. lia. Qed.
Lemma high_in a e : (1 <= a <= dist)%nat -> 0 < e < 32 -> In (high a e) (nth (a - 1) (rows dist errors) []).
Proof.
  intros Ha He. rewrite rows_nth by lia. apply in_map_iff. exists e. split; [|apply errors_in, He]. unfold high. do 2 f_equal. lia.
Qed.
Lemma fold_add_keep l t p : mem p t = true -> mem p (fold_left add l t) = true.
Proof. revert t. induction l as [|v l IH]; intros t H; [exact H|]. cbn [fold_left]. apply IH. destruct v; [exact H|apply mem_keep, H]. Qed.
Lemma fold_add l t p : In (Npos p) l -> mem p (fold_left add l t) = true.
Proof.
  revert t. induction l as [|v l IH]; intros t; [intros []|]. intros [->|H]; [cbn [fold_left add]; apply fold_add_keep, mem_same|apply IH, H].
Qed.
Lemma table_in rs row p : In row rs -> In (Npos p) row -> mem p (table rs) = true.
Proof.
  unfold table. generalize Leaf as t. induction rs as [|r rs IH]; intros t; [intros []|]. cbn [fold_left]. intros [->|H] Hp; [|apply IH; assumption].
  assert (K : forall l t, mem p t = true -> mem p (fold_left (fun t row => fold_left add row t) l t) = true).
  { intros l. induction l as [|x l IHl]; intros t' Ht; [exact Ht|]. cbn [fold_left]. apply IHl, fold_add_keep, Ht. }
  apply K, fold_add, Hp.
Qed.
Lemma check_pairs_nth t rs i j v w : check_pairs t rs = true -> (i < j < length rs)%nat -> In v (nth i rs []) -> In w (nth j rs []) ->
  v <> 0 /\ good t (N.lxor v w) = true.
Proof.
  revert i j. induction rs as [|row rs IH]; intros i j H Hij Hv Hw; [cbn in Hij; lia|]. cbn [check_pairs] in H. apply andb_prop in H as [H1 H2].
  destruct j as [|j]; [lia|]. cbn [nth] in Hw. destruct i as [|i].
  - cbn [nth] in Hv. rewrite forallb_forall in H1. apply H1 in Hv. destruct v as [|p]; [discriminate|]. split; [discriminate|].
    rewrite forallb_forall in Hv. cbn [length] in Hij. specialize (Hv _ (nth_In rs [] (n := j) ltac:(lia))). rewrite forallb_forall in Hv. apply Hv, Hw.
  - cbn [nth] in Hv. apply (IH i j H2); [cbn [length] in Hij; lia|exact Hv|exact Hw].
Qed.
Lemma check_pairs_last t rs i v : check_pairs t rs = true -> (i < length rs)%nat -> In v (nth i rs []) -> v <> 0.
Proof.
  revert i. induction rs as [|row rs IH]; intros i H Hi Hv; [cbn in Hi; lia|]. cbn [check_pairs] in H. apply andb_prop in H as [H1 H2].
  destruct i as [|i]; cbn [nth] in Hv.
  - rewrite forallb_forall in H1. apply H1 in Hv. destruct v; [discriminate|discriminate].
  - apply (IH i H2); [cbn in Hi; lia|exact Hv].
Qed.
Lemma high_one a e : (1 <= a <= dist)%nat -> 0 < e < 32 -> high a e <> 0.
Proof. intros Ha He. eapply (check_pairs_last _ (rows dist errors)); [apply table_checked| |apply high_in; assumption]. rewrite rows_length. lia. Qed.
Lemma high_two a e b f : (1 <= a < b)%nat -> (b <= dist)%nat -> 0 < e < 32 -> 0 < f < 32 -> good (table (rows dist errors)) (N.lxor (high a e) (high b f)) = true.
Proof.
  intros Hab Hb He Hf. eapply (check_pairs_nth _ (rows dist errors)); [apply table_checked| |apply high_in; [lia|exact He]|apply high_in; [lia|exact Hf]].
  rewrite rows_length. lia.
Qed.

Lemma lxor_zero a b : N.lxor a b = 0 -> a = b. Proof. apply N.lxor_eq. Qed.
Lemma four_errors r : Forall (fun v => v < 32) r -> (length r <= S dist)%nat -> (1 <= weight r <= 4)%nat -> val r <> 0.
Proof.
  induction 1 as [|x r Hx Hr IH]; intros Hl Hw E; [cbn in Hw; lia|]. cbn [val weight length] in *.
  destruct (N.eqb_spec x 0) as [->|Hx0].
  - rewrite N.lxor_0_r in E. apply shift_zero in E; [|apply val_lt, Hr]. revert E. apply IH; lia.
  - apply lxor_zero in E. assert (Hz : N.shiftr (steps 1 (val r)) 5 = 0).
    { cbn [steps]. rewrite E, N.shiftr_div_pow2. apply N.div_small. exact Hx. }
    rewrite val_entries in Hz. pose proof (entries_range 1 r Hr) as Hrange. pose proof (weight_entries 1 r) as Hlen.
    pose proof (fun p l => entries_later 1 r p l) as Hlater.
    destruct (entries 1 r) as [|[a e] [|[b f] [|[c g] [|q l]]]] eqn:Ee; [..|cbn [length] in Hlen; lia].
    + pose proof (val_entries 1 r) as Hv. rewrite Ee in Hv. cbn [steps fold_right] in Hv. congruence.
    + cbn [fold_right fst snd] in Hz. rewrite N.lxor_0_r in Hz. apply Forall_cons in Hrange as [[R1 R2] _]. cbn [fst snd] in R1, R2.
      apply (high_one a e); [lia|exact R2|exact Hz].
    + cbn [fold_right fst snd] in Hz. rewrite N.lxor_0_r, N.shiftr_lxor in Hz.
      apply Forall_cons in Hrange as [[R1 R2] Hrange]. apply Forall_cons in Hrange as [[R3 R4] _]. cbn [fst snd] in R1, R2, R3, R4.
      specialize (Hlater _ _ eq_refl). apply Forall_cons in Hlater as [Hab _]. cbn [fst] in Hab.
      pose proof (high_two a e b f ltac:(lia) ltac:(lia) R2 R4) as G. unfold high in G. rewrite Hz in G. discriminate.
    + cbn [fold_right fst snd] in Hz. rewrite N.lxor_0_r, <- N.lxor_assoc, !N.shiftr_lxor in Hz.
      apply Forall_cons in Hrange as [[R1 R2] Hrange]. apply Forall_cons in Hrange as [[R3 R4] Hrange]. apply Forall_cons in Hrange as [[R5 R6] _].
      cbn [fst snd] in R1, R2, R3, R4, R5, R6.
      specialize (Hlater _ _ eq_refl). apply Forall_cons in Hlater as [Hab _]. cbn [fst] in Hab.
      pose proof (high_two a e b f ltac:(lia) ltac:(lia) R2 R4) as G. unfold high at 1 2 in G. apply lxor_zero in Hz. rewrite Hz in G.
      fold (high c g) in G. unfold good in G. destruct (high c g) as [|p] eqn:Hp; [discriminate|].
      rewrite (table_in _ (nth (c - 1) (rows dist errors) []) p) in G; [discriminate| |].
      * apply nth_In. rewrite rows_length. lia.
      * rewrite <- Hp. apply high_in; [lia|exact R6].
Qed.
