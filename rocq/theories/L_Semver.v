(** Lemmas about versions. *)
From Coq Require Import NArith Ascii String List Lia ZifyN.
From stdpp Require Import base list strings.
From Verif Require Import Base L_Base M_Semver S_Semver.

(** ** Characters *)

Lemma digit_char c : is_digit c = bool_decide (c ∈ digits).
Proof. destruct c as [[] [] [] [] [] [] [] []]; vm_compute; reflexivity. Qed.
Lemma id_char c : is_alphanum c = bool_decide (c ∈ id_chars).
Proof. destruct c as [[] [] [] [] [] [] [] []]; vm_compute; reflexivity. Qed.
Lemma digit_alphanum c : is_digit c = true -> is_alphanum c = true.
Proof. unfold is_alphanum. intros ->. apply orb_true_r. Qed.
Lemma digit_not c x : is_digit c = true -> is_digit x = false -> c <> x.
Proof. congruence. Qed.

Lemma forallb_id s : forallb is_alphanum s = true <-> forall c, c ∈ s -> c ∈ id_chars.
Proof.
  rewrite forallb_forall. split; intros H c Hc.
  - apply elem_of_list_In in Hc. specialize (H c Hc). rewrite id_char in H. apply bool_decide_eq_true in H. exact H.
  - apply elem_of_list_In in Hc. rewrite id_char. apply bool_decide_eq_true, H, Hc.
Qed.
Lemma forallb_digit_false s : forallb is_digit s = false <-> exists c, c ∈ s /\ c ∉ digits.
Proof.
  induction s as [|x s IH]; simpl.
  - split; [discriminate|]. intros (c & H & _). inversion H.
  - rewrite andb_false_iff, IH, digit_char, bool_decide_eq_false. split.
    + intros [H|(c & H1 & H2)]; [exists x; split; [left|exact H]|exists c; split; [right; exact H1|exact H2]].
    + intros (c & H1 & H2). apply elem_of_cons in H1 as [->|H1]; [auto|]. right. eauto.
Qed.

(** ** Numbers *)

Lemma dec_val_atoi s : dec_val s = atoi s.
Proof. reflexivity. Qed.
Lemma dec_val_snoc s c : dec_val (s ++ [c]) = (dec_val s * 10 + (byte_val c - 48))%N.
Proof. unfold dec_val. rewrite fold_left_app. reflexivity. Qed.

Lemma is_digit_digit d : (d < 10)%N -> is_digit (digit d) = true.
Proof.
  intros H. unfold is_digit, digit, byte_val. rewrite N_ascii_embedding by lia.
  apply andb_true_intro. split; apply N.leb_le; lia.
Qed.
Lemma digit_of c : is_digit c = true -> exists d, (d < 10)%N /\ c = digit d /\ d = (byte_val c - 48)%N.
Proof.
  unfold is_digit. intros H. apply andb_true_iff in H as [H1 H2]. apply N.leb_le in H1, H2.
  exists (byte_val c - 48)%N. split; [lia|]. split; [|reflexivity].
  unfold digit. replace (48 + (byte_val c - 48))%N with (byte_val c) by lia.
  symmetry. apply ascii_N_embedding.
Qed.

Lemma itoa_fuel_acc : forall f n acc, itoa_fuel f n acc = itoa_fuel f n [] ++ acc.
Proof.
  induction f as [|f IH]; intros n acc; [reflexivity|]. cbn [itoa_fuel].
  destruct (N.ltb n 10); [reflexivity|].
  rewrite (IH _ (digit (n mod 10) :: acc)), (IH _ [digit (n mod 10)]), <- app_assoc. reflexivity.
Qed.
Lemma pow10_S f : (10 ^ N.of_nat (S f) = 10 * 10 ^ N.of_nat f)%N.
Proof. replace (N.of_nat (S f)) with (N.succ (N.of_nat f)) by lia. apply N.pow_succ_r'. Qed.
Lemma itoa_fuel_irrel : forall f g n, f <> O -> g <> O -> (n < 10 ^ N.of_nat f)%N -> (n < 10 ^ N.of_nat g)%N ->
  itoa_fuel f n [] = itoa_fuel g n [].
Proof.
  induction f as [|f IH]; intros [|g] n Hf Hg Hnf Hng; [lia..|]. cbn [itoa_fuel].
  destruct (N.ltb_spec n 10) as [|Hge]; [reflexivity|].
  rewrite (itoa_fuel_acc f), (itoa_fuel_acc g). f_equal.
  rewrite pow10_S in Hnf, Hng.
  apply IH.
  - intros ->. change (10 ^ N.of_nat 0)%N with 1%N in Hnf. lia.
  - intros ->. change (10 ^ N.of_nat 0)%N with 1%N in Hng. lia.
  - apply N.div_lt_upper_bound; lia.
  - apply N.div_lt_upper_bound; lia.
Qed.
Lemma itoa_small d : (d < 10)%N -> to_bytes (itoa d) = [digit d].
Proof.
  intros H. unfold itoa. rewrite to_of_bytes. cbn [itoa_fuel].
  destruct (N.ltb_spec d 10); [|lia]. rewrite N.mod_small by lia. reflexivity.
Qed.
Lemma itoa_step n d : (d < 10)%N -> (0 < n)%N -> to_bytes (itoa (n * 10 + d)) = to_bytes (itoa n) ++ [digit d].
Proof.
  intros Hd Hn. unfold itoa. rewrite !to_of_bytes.
  pose proof (size_pow (n * 10 + d)) as Hs. pose proof (size_pow n) as Hs'.
  assert (Hg : S (N.size_nat n) <> O) by lia.
  generalize dependent (S (N.size_nat n)). intros g Hs' Hg.
  generalize dependent (S (N.size_nat (n * 10 + d))). intros [|f'] Hs.
  { change (10 ^ N.of_nat 0)%N with 1%N in Hs. lia. }
  cbn [itoa_fuel].
  destruct (N.ltb_spec (n * 10 + d) 10) as [|_]; [lia|].
  replace ((n * 10 + d) mod 10)%N with d; [|rewrite N.add_comm, N.mod_add, N.mod_small; lia].
  replace ((n * 10 + d) / 10)%N with n; [|rewrite N.add_comm, N.div_add, N.div_small; lia].
  rewrite itoa_fuel_acc. f_equal. rewrite pow10_S in Hs.
  apply itoa_fuel_irrel; [|exact Hg| |exact Hs'].
  - intros ->. change (10 ^ N.of_nat 0)%N with 1%N in Hs. lia.
  - lia.
Qed.

(** The last digit taken off. *)
Lemma itoa_cases n : (n < 10)%N /\ to_bytes (itoa n) = [digit n] \/
  (10 <= n)%N /\ to_bytes (itoa n) = to_bytes (itoa (n / 10)) ++ [digit (n mod 10)].
Proof.
  destruct (N.lt_ge_cases n 10) as [H|H]; [left; split; [exact H|apply itoa_small, H]|right].
  split; [exact H|]. rewrite <- itoa_step.
  - f_equal. f_equal. pose proof (N.div_mod n 10). lia.
  - apply N.mod_lt. lia.
  - apply N.div_str_pos. lia.
Qed.

Lemma itoa_shape n : forallb is_digit (to_bytes (itoa n)) = true /\ to_bytes (itoa n) <> [] /\
  ((0 < n)%N -> exists c r, to_bytes (itoa n) = c :: r /\ byte_val c <> 48%N).
Proof.
  induction n as [n IH] using (well_founded_induction N.lt_wf_0).
  destruct (itoa_cases n) as [[H ->]|[H ->]].
  - split; [simpl; rewrite is_digit_digit by exact H; reflexivity|]. split; [discriminate|].
    intros Hp. exists (digit n), []. split; [reflexivity|].
    unfold digit, byte_val. rewrite N_ascii_embedding by lia. lia.
  - destruct (IH (n / 10)%N) as (H1 & H2 & H3); [apply N.div_lt; lia|].
    split; [|split].
    + rewrite forallb_app, H1. simpl. rewrite is_digit_digit by (apply N.mod_lt; lia). reflexivity.
    + destruct (to_bytes (itoa (n / 10))); discriminate.
    + intros _. destruct H3 as (c & r & -> & Hc); [apply N.div_str_pos; lia|]. simpl. eauto.
Qed.

Lemma itoa_no_leading n : hasLeadingZeroes (to_bytes (itoa n)) = false.
Proof.
  destruct (itoa_cases n) as [[H ->]|[H _]]; [reflexivity|].
  destruct (itoa_shape n) as (_ & _ & H3). destruct H3 as (c & r & -> & Hc); [lia|].
  unfold hasLeadingZeroes. apply N.eqb_neq in Hc. rewrite Hc. apply andb_false_r.
Qed.

Lemma dec_val_itoa n : dec_val (to_bytes (itoa n)) = n.
Proof. apply atoi_itoa. Qed.

Lemma number_canonical s : forallb is_digit s = true -> s <> [] -> hasLeadingZeroes s = false ->
  s = to_bytes (itoa (dec_val s)).
Proof.
  induction s as [|c p IH] using rev_ind; intros Hd Hne Hz; [congruence|].
  rewrite forallb_app in Hd. apply andb_true_iff in Hd as [Hp Hc]. simpl in Hc. rewrite andb_true_r in Hc.
  destruct (digit_of c Hc) as (d & Hlt & -> & Hdv). rewrite dec_val_snoc, <- Hdv.
  destruct p as [|x p].
  - change (dec_val []) with 0%N. rewrite N.mul_0_l, N.add_0_l, itoa_small by exact Hlt. reflexivity.
  - assert (Hx : byte_val x <> 48%N).
    { intros Hx. unfold hasLeadingZeroes in Hz. simpl in Hz. rewrite Hx in Hz.
      rewrite app_length in Hz. simpl in Hz. rewrite Nat.add_1_r in Hz. simpl in Hz. discriminate Hz. }
    assert (IH' : x :: p = to_bytes (itoa (dec_val (x :: p)))).
    { apply IH; [exact Hp|discriminate|]. unfold hasLeadingZeroes. apply N.eqb_neq in Hx. rewrite Hx. apply andb_false_r. }
    rewrite itoa_step; [congruence|exact Hlt|].
    destruct (N.eq_dec (dec_val (x :: p)) 0) as [H0|H0]; [|lia]. exfalso.
    rewrite H0 in IH'. change (to_bytes (itoa 0)) with ["0"%char] in IH'.
    injection IH' as -> _. apply Hx. reflexivity.
Qed.

Lemma parse_number_spec s n : parse_number s = Some n <-> number n /\ s = to_bytes (itoa n).
Proof.
  unfold parse_number, number. split.
  - destruct (forallb is_digit s) eqn:Hd; [|discriminate].
    destruct (hasLeadingZeroes s) eqn:Hz; [discriminate|].
    unfold ParseUint. destruct s as [|c r]; [discriminate|].
    destruct (N.ltb_spec (dec_val (c :: r)) (2 ^ 64)) as [Hl|_]; [|discriminate].
    intros [= <-]. split; [exact Hl|]. apply number_canonical; [exact Hd|discriminate|exact Hz].
  - intros [Hn ->]. destruct (itoa_shape n) as (-> & Hne & _). rewrite itoa_no_leading.
    unfold ParseUint. destruct (to_bytes (itoa n)) as [|c r] eqn:He; [congruence|]. rewrite <- He, dec_val_itoa.
    apply N.ltb_lt in Hn. rewrite Hn. reflexivity.
Qed.

(** ** Identifiers *)

Lemma NewPRVersion_spec s p : NewPRVersion s = Some p <-> pre_ok p /\ s = to_bytes (write_pre p).
Proof.
  unfold NewPRVersion. split.
  - destruct s as [|c r]; [discriminate|]. set (s := c :: r) in *.
    destruct (forallb is_digit s) eqn:Hd.
    + destruct (hasLeadingZeroes s) eqn:Hz; [discriminate|].
      destruct (ParseUint s) as [n|] eqn:Hn; [|discriminate]. intros [= <-]. simpl.
      apply parse_number_spec. unfold parse_number. rewrite Hd, Hz. exact Hn.
    + destruct (forallb is_alphanum s) eqn:Ha; [|discriminate]. intros [= <-]. simpl. unfold write_pre.
      rewrite to_of_bytes. split; [|reflexivity]. split.
      * split; [discriminate|]. apply forallb_id, Ha.
      * apply forallb_digit_false, Hd.
  - destruct p as [n|x]; simpl; intros [Hok ->].
    + assert (H : parse_number (to_bytes (itoa n)) = Some n) by (apply parse_number_spec; auto).
      unfold parse_number in H. destruct (itoa_shape n) as (_ & Hne & _).
      destruct (to_bytes (itoa n)) as [|c r]; [congruence|].
      destruct (forallb is_digit (c :: r)); [|discriminate].
      destruct (hasLeadingZeroes (c :: r)); [discriminate|]. rewrite H. reflexivity.
    + destruct Hok as [[Hne Hid] Hd]. rewrite to_of_bytes.
      apply forallb_digit_false in Hd. apply forallb_id in Hid.
      destruct x as [|c r]; [congruence|]. rewrite Hd, Hid. reflexivity.
Qed.

Lemma build_id_spec s b : build_id s = Some b <-> identifier b /\ s = b.
Proof.
  unfold build_id, identifier. destruct s as [|c r].
  - split; [discriminate|]. intros [[H _] <-]. congruence.
  - destruct (forallb is_alphanum (c :: r)) eqn:Ha.
    + split; [intros [= <-]|intros [_ ->]; reflexivity]. split; [|reflexivity]. split; [discriminate|]. apply forallb_id, Ha.
    + split; [discriminate|]. intros [[_ H] <-]. apply forallb_id in H. congruence.
Qed.

Lemma all_some_spec {A B} (f : A -> option B) (ok : B -> Prop) (w : B -> A) :
  (forall x y, f x = Some y <-> ok y /\ x = w y) ->
  forall l r, all_some f l = Some r <-> Forall ok r /\ l = map w r.
Proof.
  intros Hf. induction l as [|x l IH]; intros r; simpl.
  - split; [intros [= <-]; split; constructor|]. intros [_ H]. destruct r; [reflexivity|discriminate].
  - split.
    + destruct (f x) as [y|] eqn:Hx; [|discriminate]. destruct (all_some f l) as [r'|] eqn:Hl; [|discriminate].
      intros [= <-]. apply Hf in Hx as [Hy ->]. destruct (proj1 (IH r') eq_refl) as [Hr ->]. split; [constructor; assumption|reflexivity].
    + intros [Hok He]. destruct r as [|y r]; [discriminate|]. injection He as -> ->.
      inversion Hok; subst. destruct (Hf (w y) y) as [_ H]. rewrite H by auto.
      destruct (IH r) as [_ H']. rewrite H' by auto. reflexivity.
Qed.

(** ** Cutting and joining *)

Lemma cut_app c a b : c ∉ a -> cut c (a ++ c :: b) = Some (a, b).
Proof.
  induction a as [|x a IH]; intros Hn; simpl.
  - rewrite Ascii.eqb_refl. reflexivity.
  - apply not_elem_of_cons in Hn as [Hx Ha]. destruct (Ascii.eqb_spec x c); [congruence|]. rewrite IH by exact Ha. reflexivity.
Qed.
Lemma cut_none c a : c ∉ a -> cut c a = None.
Proof.
  induction a as [|x a IH]; intros Hn; simpl; [reflexivity|].
  apply not_elem_of_cons in Hn as [Hx Ha]. destruct (Ascii.eqb_spec x c); [congruence|]. rewrite IH by exact Ha. reflexivity.
Qed.
Lemma cut_inv c s a b : cut c s = Some (a, b) -> s = a ++ c :: b /\ c ∉ a.
Proof.
  revert a b. induction s as [|x s IH]; intros a b; simpl; [discriminate|].
  destruct (Ascii.eqb_spec x c) as [->|Hne].
  - intros [= <- <-]. split; [reflexivity|]. intros H; inversion H.
  - destruct (cut c s) as [[a' b']|]; [|discriminate]. intros [= <- <-].
    destruct (IH a' b' eq_refl) as [-> Hn]. split; [reflexivity|]. apply not_elem_of_cons. auto.
Qed.

Fixpoint joinb (c : ascii) (l : list bytes) : bytes :=
  match l with [] => [] | [x] => x | x :: r => x ++ c :: joinb c r end.
Lemma split_nonempty c s : split c s <> [].
Proof.
  destruct s as [|x s]; simpl; [discriminate|]. destruct (Ascii.eqb x c); [discriminate|]. destruct (split c s); discriminate.
Qed.
Lemma joinb_split c s : joinb c (split c s) = s.
Proof.
  induction s as [|x s IH]; [reflexivity|]. simpl.
  pose proof (split_nonempty c s) as Hne.
  destruct (Ascii.eqb_spec x c) as [->|Hx].
  - destruct (split c s) as [|a l]; [congruence|]. simpl in *. rewrite <- IH. reflexivity.
  - destruct (split c s) as [|a l]; [congruence|]. destruct l as [|a' l']; simpl in *; rewrite <- IH; reflexivity.
Qed.
Lemma split_single c a : c ∉ a -> split c a = [a].
Proof.
  induction a as [|x a IH]; intros Hn; simpl; [reflexivity|].
  apply not_elem_of_cons in Hn as [Hx Ha]. destruct (Ascii.eqb_spec x c); [congruence|]. rewrite IH by exact Ha. reflexivity.
Qed.
Lemma split_app c a b : c ∉ a -> split c (a ++ c :: b) = a :: split c b.
Proof.
  induction a as [|x a IH]; intros Hn; simpl.
  - rewrite Ascii.eqb_refl. reflexivity.
  - apply not_elem_of_cons in Hn as [Hx Ha]. destruct (Ascii.eqb_spec x c); [congruence|]. rewrite IH by exact Ha. reflexivity.
Qed.
Lemma split_joinb c l : l <> [] -> (forall x, x ∈ l -> c ∉ x) -> split c (joinb c l) = l.
Proof.
  induction l as [|x l IH]; intros Hne Hn; [congruence|]. destruct l as [|y l].
  - apply split_single, Hn. left.
  - change (joinb c (x :: y :: l)) with (x ++ c :: joinb c (y :: l)).
    rewrite split_app by (apply Hn; left). rewrite IH; [reflexivity|discriminate|]. intros z Hz. apply Hn. right. exact Hz.
Qed.
Lemma join_strings_bytes l : to_bytes (join_strings "." l) = joinb "." (map to_bytes l).
Proof.
  induction l as [|x l IH]; [reflexivity|]. destruct l as [|y l]; [reflexivity|].
  change (join_strings "." (x :: y :: l)) with (String.append x (String.append "." (join_strings "." (y :: l)))).
  rewrite !to_bytes_app, IH. reflexivity.
Qed.

(** ** Parsing *)

Lemma not_in_digits c s : forallb is_digit s = true -> is_digit c = false -> c ∉ s.
Proof.
  intros H Hc Hin. rewrite forallb_forall in H. apply elem_of_list_In in Hin. specialize (H _ Hin). congruence.
Qed.
Lemma not_in_ids c s : forallb is_alphanum s = true -> is_alphanum c = false -> c ∉ s.
Proof.
  intros H Hc Hin. rewrite forallb_forall in H. apply elem_of_list_In in Hin. specialize (H _ Hin). congruence.
Qed.
Lemma itoa_not c n : is_digit c = false -> c ∉ to_bytes (itoa n).
Proof. intros H. apply not_in_digits; [apply itoa_shape|exact H]. Qed.
Lemma pre_not c p : pre_ok p -> is_alphanum c = false -> c ∉ to_bytes (write_pre p).
Proof.
  destruct p as [n|s]; simpl; intros Hok Hc.
  - apply itoa_not. destruct (is_digit c) eqn:Hd; [|reflexivity]. apply digit_alphanum in Hd. congruence.
  - rewrite to_of_bytes. destruct Hok as [[_ Hid] _]. apply forallb_id in Hid. apply (not_in_ids _ _ Hid Hc).
Qed.
Lemma joinb_not c l : c <> "."%char -> (forall x, x ∈ l -> c ∉ x) -> c ∉ joinb "." l.
Proof.
  intros Hc. induction l as [|x l IH]; intros Hn; [intros H; inversion H|].
  destruct l as [|y l]; [apply Hn; left|].
  change (joinb "." (x :: y :: l)) with (x ++ "."%char :: joinb "." (y :: l)).
  rewrite not_elem_of_app, not_elem_of_cons. split; [apply Hn; left|]. split; [exact Hc|].
  apply IH. intros z Hz. apply Hn. right. exact Hz.
Qed.

Definition pre_part (l : list prver) : bytes :=
  match l with [] => [] | _ => "-"%char :: joinb "." (map (fun p => to_bytes (write_pre p)) l) end.
Definition build_part (l : list bytes) : bytes :=
  match l with [] => [] | _ => "+"%char :: joinb "." l end.
Lemma write_version_bytes v : to_bytes (write_version v) =
  to_bytes (itoa (v_major v)) ++ "."%char :: to_bytes (itoa (v_minor v)) ++ "."%char ::
  to_bytes (itoa (v_patch v)) ++ pre_part (v_pre v) ++ build_part (v_build v).
Proof.
  unfold write_version. cbn [concat_strings].
  assert (Hp : to_bytes (match v_pre v with [] => EmptyString
      | _ => String.append "-" (join_strings "." (map write_pre (v_pre v))) end) = pre_part (v_pre v)).
  { unfold pre_part. destruct (v_pre v) as [|p l]; [reflexivity|].
    rewrite to_bytes_app, join_strings_bytes, map_map. reflexivity. }
  assert (Hb : to_bytes (match v_build v with [] => EmptyString
      | _ => String.append "+" (join_strings "." (map of_bytes (v_build v))) end) = build_part (v_build v)).
  { unfold build_part. destruct (v_build v) as [|p l]; [reflexivity|].
    rewrite to_bytes_app, join_strings_bytes, map_map.
    rewrite (map_ext (fun x => to_bytes (of_bytes x)) (fun x => x)) by apply to_of_bytes.
    rewrite map_id. reflexivity. }
  rewrite !to_bytes_app, <- Hp, <- Hb. change (to_bytes EmptyString) with (@nil ascii). rewrite app_nil_r.
  destruct (v_pre v), (v_build v); reflexivity.
Qed.

Lemma prver_parse_build s : 
  let '(x, build) := match cut "+" s with Some (a, b) => (a, split "." b) | None => (s, []) end in
  s = x ++ build_part build /\ "+"%char ∉ x.
Proof.
  destruct (cut "+" s) as [[a b]|] eqn:Hc.
  - apply cut_inv in Hc as [-> Hn]. split; [|exact Hn]. unfold build_part.
    pose proof (split_nonempty "." b). destruct (split "." b) eqn:Hs; [congruence|]. rewrite <- Hs, joinb_split. reflexivity.
  - simpl. rewrite app_nil_r. split; [reflexivity|]. intros Hin.
    apply elem_of_list_split in Hin as (l1 & l2 & ->).
    assert (H : forall l, cut "+" (l ++ "+"%char :: l2) <> None).
    { induction l as [|y l IH]; simpl; [discriminate|]. destruct (Ascii.eqb y "+"); [discriminate|].
      destruct (cut "+" (l ++ "+"%char :: l2)) as [[? ?]|]; [discriminate|congruence]. }
    exact (H l1 Hc).
Qed.

Lemma Parse_write v : version_ok v -> Parse (to_bytes (write_version v)) = Some v.
Proof.
  intros (H1 & H2 & H3 & H4 & H5). rewrite write_version_bytes. unfold Parse.
  rewrite cut_app by (apply itoa_not; reflexivity).
  rewrite cut_app by (apply itoa_not; reflexivity).
  rewrite (proj2 (parse_number_spec _ (v_major v))) by auto.
  rewrite (proj2 (parse_number_spec _ (v_minor v))) by auto.
  assert (Hpre : forall x, x ∈ map (fun p => to_bytes (write_pre p)) (v_pre v) ->
    forall c, is_alphanum c = false -> c ∉ x).
  { intros x Hx c Hc. apply elem_of_list_In, in_map_iff in Hx as (p & <- & Hp).
    rewrite List.Forall_forall in H4. apply pre_not; [apply H4, Hp|exact Hc]. }
  assert (Hbld : forall x, x ∈ v_build v -> forall c, is_alphanum c = false -> c ∉ x).
  { intros x Hx c Hc. rewrite List.Forall_forall in H5. apply elem_of_list_In in Hx.
    destruct (H5 x Hx) as [_ Hid]. apply forallb_id in Hid. apply (not_in_ids _ _ Hid Hc). }
  assert (Hplus : "+"%char ∉ to_bytes (itoa (v_patch v)) ++ pre_part (v_pre v)).
  { rewrite not_elem_of_app. split; [apply itoa_not; reflexivity|]. unfold pre_part.
    destruct (v_pre v) as [|p l] eqn:Hl; [intros H; inversion H|].
    rewrite not_elem_of_cons. split; [discriminate|]. apply joinb_not; [discriminate|].
    intros x Hx. apply Hpre; [exact Hx|reflexivity]. }
  rewrite app_assoc.
  assert (Hcut : (match cut "+" ((to_bytes (itoa (v_patch v)) ++ pre_part (v_pre v)) ++ build_part (v_build v))
      with Some (a, b) => (a, split "." b)
      | None => ((to_bytes (itoa (v_patch v)) ++ pre_part (v_pre v)) ++ build_part (v_build v), []) end)
    = (to_bytes (itoa (v_patch v)) ++ pre_part (v_pre v), v_build v)).
  { unfold build_part. destruct (v_build v) as [|b k] eqn:Hb.
    - rewrite app_nil_r, cut_none by exact Hplus. reflexivity.
    - rewrite cut_app by exact Hplus. f_equal. apply split_joinb; [discriminate|].
      intros x Hx. apply Hbld; [exact Hx|reflexivity]. }
  rewrite Hcut.
  assert (Hcut2 : (match cut "-" (to_bytes (itoa (v_patch v)) ++ pre_part (v_pre v))
      with Some (a, b) => (a, split "." b)
      | None => (to_bytes (itoa (v_patch v)) ++ pre_part (v_pre v), []) end)
    = (to_bytes (itoa (v_patch v)), map (fun p => to_bytes (write_pre p)) (v_pre v))).
  { unfold pre_part. destruct (v_pre v) as [|b k] eqn:Hb.
    - rewrite app_nil_r, cut_none by (apply itoa_not; reflexivity). reflexivity.
    - rewrite cut_app by (apply itoa_not; reflexivity). f_equal. apply split_joinb; [discriminate|].
      intros x Hx. apply Hpre; [exact Hx|reflexivity]. }
  rewrite Hcut2.
  rewrite (proj2 (parse_number_spec _ (v_patch v))) by auto.
  rewrite (proj2 (all_some_spec _ _ _ NewPRVersion_spec _ (v_pre v))) by auto.
  rewrite (proj2 (all_some_spec _ _ (fun x => x) build_id_spec _ (v_build v))) by (rewrite map_id; auto).
  destruct v; reflexivity.
Qed.

Lemma Parse_inv s v : Parse s = Some v -> version_ok v /\ s = to_bytes (write_version v).
Proof.
  unfold Parse. destruct (cut "." s) as [[p0 rest]|] eqn:Hc0; [|discriminate].
  destruct (cut "." rest) as [[p1 p2]|] eqn:Hc1; [|discriminate].
  destruct (parse_number p0) as [major|] eqn:H0; [|discriminate].
  destruct (parse_number p1) as [minor|] eqn:H1; [|discriminate].
  pose proof (prver_parse_build p2) as Hb.
  destruct (match cut "+" p2 with Some (a, b) => (a, split "." b) | None => (p2, []) end) as [x build].
  destruct Hb as [-> _].
  assert (Hp : let '(y, pre) := match cut "-" x with Some (a, b) => (a, split "." b) | None => (x, []) end in
    x = y ++ match pre with [] => [] | _ => "-"%char :: joinb "." pre end).
  { destruct (cut "-" x) as [[a b]|] eqn:Hc.
    - apply cut_inv in Hc as [-> _]. pose proof (split_nonempty "." b).
      destruct (split "." b) eqn:Hs; [congruence|]. rewrite <- Hs, joinb_split. reflexivity.
    - rewrite app_nil_r. reflexivity. }
  destruct (match cut "-" x with Some (a, b) => (a, split "." b) | None => (x, []) end) as [y pre].
  subst x.
  destruct (parse_number y) as [patch|] eqn:H2; [|discriminate].
  destruct (all_some NewPRVersion pre) as [pr|] eqn:H3; [|discriminate].
  destruct (all_some build_id build) as [b|] eqn:H4; [|discriminate].
  intros [= <-].
  apply cut_inv in Hc0 as [-> _]. apply cut_inv in Hc1 as [-> _].
  apply parse_number_spec in H0 as [? ->]. apply parse_number_spec in H1 as [? ->].
  apply parse_number_spec in H2 as [? ->].
  apply (all_some_spec _ _ _ NewPRVersion_spec) in H3 as [? ->].
  apply (all_some_spec _ _ (fun x => x) build_id_spec) in H4 as [? ->].
  split; [repeat split; assumption|]. rewrite write_version_bytes. simpl.
  rewrite map_id, <- app_assoc. f_equal. f_equal. f_equal. f_equal. f_equal. f_equal.
  unfold pre_part. destruct pr; reflexivity.
Qed.

Lemma Parse_spec s v : Parse (to_bytes s) = Some v <-> is_version s v.
Proof.
  unfold is_version. split.
  - intros H. apply Parse_inv in H as [Hok Hs]. split; [exact Hok|]. apply to_bytes_inj, Hs.
  - intros [Hok ->]. apply Parse_write, Hok.
Qed.

(** ** Comparing *)

Lemma bytes_cmp_eq a b : (if bytes_leb a b then if bytes_leb b a then Eq else Lt else Gt) = Eq <-> a = b.
Proof.
  split.
  - destruct (bytes_leb a b) eqn:H1; [|discriminate]. destruct (bytes_leb b a) eqn:H2; [|discriminate].
    intros _. apply bytes_leb_antisym; assumption.
  - intros ->. rewrite bytes_leb_refl. reflexivity.
Qed.

Lemma pr_compare_eq a b : pr_compare a b = Eq <-> a = b.
Proof.
  destruct a as [m|x], b as [n|y]; simpl; try (split; [discriminate|congruence]).
  - rewrite N.compare_eq_iff. split; congruence.
  - rewrite bytes_cmp_eq. split; congruence.
Qed.
Lemma pr_compare_antisym a b : pr_compare b a = CompOpp (pr_compare a b).
Proof.
  destruct a as [m|x], b as [n|y]; simpl; try reflexivity.
  - apply N.compare_antisym.
  - destruct (bytes_leb x y) eqn:H1, (bytes_leb y x) eqn:H2; try reflexivity.
    destruct (bytes_leb_total x y); congruence.
Qed.
Lemma pr_compare_trans a b c : pr_compare a b = Lt -> pr_compare b c = Lt -> pr_compare a c = Lt.
Proof.
  destruct a as [m|x], b as [n|y], c as [k|z]; simpl; try discriminate; try reflexivity.
  - rewrite !N.compare_lt_iff. lia.
  - destruct (bytes_leb x y) eqn:H1; [|discriminate]. destruct (bytes_leb y x) eqn:H2; [discriminate|].
    destruct (bytes_leb y z) eqn:H3; [|discriminate]. destruct (bytes_leb z y) eqn:H4; [discriminate|]. intros _ _.
    rewrite (bytes_leb_trans x y z H1 H3). destruct (bytes_leb z x) eqn:H5; [|reflexivity].
    rewrite (bytes_leb_trans z x y H5 H1) in H4. discriminate.
Qed.

Lemma pre_compare_eq a : forall b, pre_compare a b = Eq <-> a = b.
Proof.
  induction a as [|x a IH]; intros [|y b]; simpl; try (split; [discriminate|congruence]); [tauto|].
  destruct (pr_compare x y) eqn:H.
  - apply pr_compare_eq in H as ->. rewrite IH. split; congruence.
  - split; [discriminate|]. intros [= -> ->]. rewrite (proj2 (pr_compare_eq y y) eq_refl) in H. discriminate.
  - split; [discriminate|]. intros [= -> ->]. rewrite (proj2 (pr_compare_eq y y) eq_refl) in H. discriminate.
Qed.
Lemma pre_compare_antisym a : forall b, pre_compare b a = CompOpp (pre_compare a b).
Proof.
  induction a as [|x a IH]; intros [|y b]; simpl; try reflexivity.
  rewrite (pr_compare_antisym x y). destruct (pr_compare x y); simpl; auto.
Qed.
Lemma pre_compare_trans a : forall b c, pre_compare a b = Lt -> pre_compare b c = Lt -> pre_compare a c = Lt.
Proof.
  induction a as [|x a IH]; intros [|y b] [|z c]; simpl; try discriminate; try reflexivity.
  destruct (pr_compare x y) eqn:H1; [|..|discriminate].
  - apply pr_compare_eq in H1 as ->. destruct (pr_compare y z); [apply IH|auto|discriminate].
  - intros _. destruct (pr_compare y z) eqn:H2; [..|discriminate].
    + apply pr_compare_eq in H2 as ->. rewrite H1. reflexivity.
    + rewrite (pr_compare_trans _ _ _ H1 H2). reflexivity.
Qed.

(** The last step of Compare. *)
Definition pre_rank (p q : list prver) : comparison :=
  match p, q with [], [] => Eq | [], _ :: _ => Gt | _ :: _, [] => Lt | p, q => pre_compare p q end.
Lemma Compare_alt v o : Compare v o =
  match N.compare (v_major v) (v_major o) with
  | Eq => match N.compare (v_minor v) (v_minor o) with
    | Eq => match N.compare (v_patch v) (v_patch o) with Eq => pre_rank (v_pre v) (v_pre o) | c => c end
    | c => c end
  | c => c end.
Proof.
  unfold Compare. destruct (N.compare _ _); [|reflexivity..]. destruct (N.compare _ _); [|reflexivity..].
  destruct (N.compare _ _); [|reflexivity..]. destruct (v_pre v), (v_pre o); reflexivity.
Qed.
Lemma pre_rank_eq p q : pre_rank p q = Eq <-> p = q.
Proof.
  destruct p as [|a p], q as [|b q]; unfold pre_rank; try (split; [discriminate|congruence]); [tauto|]. apply pre_compare_eq.
Qed.
Lemma pre_rank_antisym p q : pre_rank q p = CompOpp (pre_rank p q).
Proof. destruct p as [|a p], q as [|b q]; unfold pre_rank; try reflexivity. apply pre_compare_antisym. Qed.
Lemma pre_rank_trans p q r : pre_rank p q = Lt -> pre_rank q r = Lt -> pre_rank p r = Lt.
Proof.
  destruct p as [|a p], q as [|b q], r as [|c r]; unfold pre_rank; try discriminate; try reflexivity. apply pre_compare_trans.
Qed.

Lemma Compare_antisym v o : Compare o v = CompOpp (Compare v o).
Proof.
  rewrite !Compare_alt, (N.compare_antisym (v_major v)), (N.compare_antisym (v_minor v)), (N.compare_antisym (v_patch v)),
    (pre_rank_antisym (v_pre v)).
  destruct (N.compare (v_major v) (v_major o)), (N.compare (v_minor v) (v_minor o)), (N.compare (v_patch v) (v_patch o)); reflexivity.
Qed.
Lemma Compare_eq v o : Compare v o = Eq <->
  v_major v = v_major o /\ v_minor v = v_minor o /\ v_patch v = v_patch o /\ v_pre v = v_pre o.
Proof.
  rewrite Compare_alt.
  destruct (N.compare_spec (v_major v) (v_major o)); [|split; [discriminate|lia]..].
  destruct (N.compare_spec (v_minor v) (v_minor o)); [|split; [discriminate|lia]..].
  destruct (N.compare_spec (v_patch v) (v_patch o)); [|split; [discriminate|lia]..].
  rewrite pre_rank_eq. tauto.
Qed.
Lemma Compare_trans a b c : Compare a b = Lt -> Compare b c = Lt -> Compare a c = Lt.
Proof.
  rewrite !Compare_alt.
  destruct (N.compare_spec (v_major a) (v_major b)) as [E1|E1|E1]; [..|discriminate];
  destruct (N.compare_spec (v_major b) (v_major c)) as [E2|E2|E2]; try discriminate;
    (destruct (N.compare_spec (v_major a) (v_major c)) as [E3|E3|E3]; try lia; try reflexivity).
  destruct (N.compare_spec (v_minor a) (v_minor b)) as [F1|F1|F1]; [..|discriminate];
  destruct (N.compare_spec (v_minor b) (v_minor c)) as [F2|F2|F2]; try discriminate;
    (destruct (N.compare_spec (v_minor a) (v_minor c)) as [F3|F3|F3]; try lia; try reflexivity).
  destruct (N.compare_spec (v_patch a) (v_patch b)) as [G1|G1|G1]; [..|discriminate];
  destruct (N.compare_spec (v_patch b) (v_patch c)) as [G2|G2|G2]; try discriminate;
    (destruct (N.compare_spec (v_patch a) (v_patch c)) as [G3|G3|G3]; try lia; try reflexivity).
  apply pre_rank_trans.
Qed.

Definition v0_14_0 : version := Ver 0 14 0 [] [].
Lemma LT_0_14_0 v : LT v v0_14_0 = true <-> before_0_14_0 v.
Proof.
  unfold LT, before_0_14_0. rewrite Compare_alt. simpl.
  destruct (N.compare_spec (v_major v) 0) as [E1|E1|E1]; [|lia|split; [discriminate|lia]].
  destruct (N.compare_spec (v_minor v) 14) as [E2|E2|E2].
  - destruct (N.compare_spec (v_patch v) 0) as [E3|E3|E3]; [|lia|split; [discriminate|lia]].
    destruct (v_pre v); simpl; split; try discriminate; try (intros; right; split; [exact E2|split; [exact E3|discriminate]]); try reflexivity.
    + intros (_ & [H|(_ & _ & H)]); [lia|congruence].
    + intros _. split; [exact E1|]. right. split; [exact E2|split; [exact E3|discriminate]].
  - split; [intros _|reflexivity]. split; [exact E1|left; exact E2].
  - split; [discriminate|]. lia.
Qed.

(** ** The order of semver.org *)

Lemma lex_nil {A} (R : A -> A -> Prop) b : lex R [] b <-> b <> [].
Proof.
  split.
  - intros (p & [(x & r & Hp & ->)|(x & y & r & r' & H & _)]) ?; [destruct p; discriminate|destruct p; discriminate].
  - destruct b as [|x r]; [congruence|]. intros _. exists []. left. exists x, r. auto.
Qed.
Lemma lex_to_nil {A} (R : A -> A -> Prop) a : ~ lex R a [].
Proof. intros (p & [(x & r & _ & H)|(x & y & r & r' & _ & H & _)]); destruct p; discriminate. Qed.
Lemma lex_cons {A} (R : A -> A -> Prop) x a y b : lex R (x :: a) (y :: b) <-> R x y \/ x = y /\ lex R a b.
Proof.
  split.
  - intros (p & [(z & r & <- & H)|(z & w & r & r' & H1 & H2 & Hr)]).
    + injection H as -> ->. right. split; [reflexivity|]. exists a. left. exists z, r. auto.
    + destruct p as [|k p]; simpl in *.
      * injection H1 as -> ->. injection H2 as -> ->. left. exact Hr.
      * injection H1 as -> ->. injection H2 as -> ->. right. split; [reflexivity|].
        exists p. right. exists z, w, r, r'. auto.
  - intros [Hr|[-> (p & [(z & r & -> & ->)|(z & w & r & r' & -> & -> & Hr)])]].
    + exists []. right. exists x, y, a, b. auto.
    + exists (y :: p). left. exists z, r. auto.
    + exists (y :: p). right. exists z, w, r, r'. auto.
Qed.

Lemma bytes_lex a : forall b, lex byte_lt a b <-> bytes_leb a b = true /\ bytes_leb b a = false.
Proof.
  induction a as [|x a IH]; intros [|y b].
  - rewrite lex_nil. simpl. split; [congruence|]. intros [_ H]. discriminate.
  - rewrite lex_nil. simpl. split; [auto|discriminate].
  - split; [intros H; destruct (lex_to_nil _ _ H)|]. simpl. intros [H _]. discriminate.
  - rewrite lex_cons, IH. unfold byte_lt. simpl.
    destruct (N.ltb_spec (byte_val x) (byte_val y)) as [H|H].
    + destruct (N.ltb_spec (byte_val y) (byte_val x)); [lia|].
      destruct (N.eqb_spec (byte_val y) (byte_val x)) as [E|E]; [lia|].
      split; [auto|]. intros _. left. exact H.
    + destruct (N.eqb_spec (byte_val x) (byte_val y)) as [E|E].
      * apply byte_val_inj in E as ->. rewrite N.ltb_irrefl, N.eqb_refl.
        split; [intros [?|[_ ?]]; [lia|assumption]|]. auto.
      * split; [intros [?|[-> _]]; [lia|congruence]|]. intros [? _]. discriminate.
Qed.
Lemma pr_compare_lt a b : pr_compare a b = Lt <-> id_lt a b.
Proof.
  split.
  - destruct a as [m|x], b as [n|y]; simpl; intros H; try discriminate.
    + constructor. apply N.compare_lt_iff, H.
    + constructor.
    + constructor. apply bytes_lex. destruct (bytes_leb x y); [|discriminate]. destruct (bytes_leb y x); [discriminate|auto].
  - intros [m n H|x y H|m y]; simpl; [apply N.compare_lt_iff, H| |reflexivity].
    apply bytes_lex in H as [-> ->]. reflexivity.
Qed.
Lemma pre_compare_lt a : forall b, pre_compare a b = Lt <-> lex id_lt a b.
Proof.
  induction a as [|x a IH]; intros [|y b]; simpl.
  - rewrite lex_nil. split; [discriminate|congruence].
  - rewrite lex_nil. split; [discriminate|reflexivity].
  - split; [discriminate|]. intros H. destruct (lex_to_nil _ _ H).
  - rewrite lex_cons, <- IH, <- pr_compare_lt. destruct (pr_compare x y) eqn:H.
    + apply pr_compare_eq in H as ->. split; [auto|]. intros [?|[_ ?]]; [discriminate|assumption].
    + tauto.
    + split; [discriminate|]. intros [?|[-> _]]; [discriminate|].
      rewrite (proj2 (pr_compare_eq y y) eq_refl) in H. discriminate.
Qed.
Lemma Compare_lt v w : Compare v w = Lt <-> precedes v w.
Proof.
  rewrite Compare_alt. unfold precedes.
  destruct (N.compare_spec (v_major v) (v_major w)); [|split; auto|split; [discriminate|lia]].
  destruct (N.compare_spec (v_minor v) (v_minor w)); [|split; auto|split; [discriminate|lia]].
  destruct (N.compare_spec (v_patch v) (v_patch w)); [|split; auto 6|split; [discriminate|lia]].
  unfold pre_rank. destruct (v_pre v) as [|a p] eqn:Hv, (v_pre w) as [|b q] eqn:Hw.
  - split; [discriminate|]. intros [?|[_ [?|[_ [?|[_ [? _]]]]]]]; [lia..|congruence].
  - split; [discriminate|]. intros [?|[_ [?|[_ [?|[_ [? _]]]]]]]; [lia..|congruence].
  - split; [|reflexivity]. intros _. right. split; [assumption|]. right. split; [assumption|]. right.
    split; [assumption|]. split; [discriminate|]. auto.
  - rewrite pre_compare_lt. split.
    + intros Hl. right. split; [assumption|]. right. split; [assumption|]. right.
      split; [assumption|]. split; [discriminate|]. auto.
    + intros [?|[_ [?|[_ [?|[_ [_ [?|Hl]]]]]]]]; [lia..|discriminate|exact Hl].
Qed.
