(** Lemmas for Bech32: the checksum is linear, the groups of bits and the text read back. *)
From Coq Require Import ZArith NArith Ascii String List Lia.
From stdpp Require Import base list strings.
From Verif Require Import Base L_Base M_Keys.

Local Open Scope N_scope.

(** *** The checksum *)

Definition gen_part (b : N) : N :=
  N.lxor (if N.testbit b 0 then 0x3b6a57b2 else 0)
    (N.lxor (if N.testbit b 1 then 0x26508e6d else 0)
      (N.lxor (if N.testbit b 2 then 0x1ea119fa else 0)
        (N.lxor (if N.testbit b 3 then 0x3d4233dd else 0) (if N.testbit b 4 then 0x2a1462b3 else 0)))).
(** One step with the value zero *)
Definition shift (c : N) : N := N.lxor (N.shiftl (N.land c 0x1ffffff) 5) (gen_part (N.shiftr c 25)).
Lemma if_lxor (t : bool) c g : (if t then N.lxor c g else c) = N.lxor c (if t then g else 0).
Proof. destruct t; [reflexivity|rewrite N.lxor_0_r; reflexivity]. Qed.
Lemma polystep_shift c v : polystep c v = N.lxor (shift c) v.
Proof.
  unfold polystep, shift, gen_part. rewrite !if_lxor.
  set (a := N.shiftl _ _). set (g0 := if N.testbit _ 0 then _ else _). set (g1 := if N.testbit _ 1 then _ else _).
  set (g2 := if N.testbit _ 2 then _ else _). set (g3 := if N.testbit _ 3 then _ else _). set (g4 := if N.testbit _ 4 then _ else _).
  rewrite !N.lxor_assoc. f_equal. rewrite (N.lxor_comm v), !N.lxor_assoc. reflexivity.
Qed.
Lemma land_lxor a b m : N.land (N.lxor a b) m = N.lxor (N.land a m) (N.land b m).
Proof. apply N.bits_inj. intros i. rewrite N.land_spec, !N.lxor_spec, !N.land_spec. destruct (N.testbit a i), (N.testbit b i), (N.testbit m i); reflexivity. Qed.
Lemma if_xorb (s t : bool) (g : N) : (if xorb s t then g else 0) = N.lxor (if s then g else 0) (if t then g else 0).
Proof. destruct s, t; cbn [xorb]; rewrite ?N.lxor_nilpotent, ?N.lxor_0_l, ?N.lxor_0_r; reflexivity. Qed.
Lemma lxor_swap a b c d : N.lxor (N.lxor a b) (N.lxor c d) = N.lxor (N.lxor a c) (N.lxor b d).
Proof. rewrite !N.lxor_assoc. f_equal. rewrite <- !N.lxor_assoc. f_equal. apply N.lxor_comm. Qed.
Lemma gen_part_lxor a b : gen_part (N.lxor a b) = N.lxor (gen_part a) (gen_part b).
Proof. unfold gen_part. rewrite !N.lxor_spec, !if_xorb. do 4 (etransitivity; [|apply lxor_swap]; f_equal). Qed.
Lemma shift_lxor a b : shift (N.lxor a b) = N.lxor (shift a) (shift b).
Proof. unfold shift. rewrite land_lxor, N.shiftl_lxor, N.shiftr_lxor, gen_part_lxor. apply lxor_swap. Qed.
Lemma shift_0 : shift 0 = 0. Proof. reflexivity. Qed.

Definition run (s : N) (l : list N) : N := fold_left polystep l s.
Lemma run_app s a b : run s (a ++ b) = run (run s a) b.
Proof. apply fold_left_app. Qed.
(** The difference of two inputs runs by itself. *)
Lemma run_lxor s d a e : length a = length e ->
  run (N.lxor s d) (zip_with N.lxor a e) = N.lxor (run s a) (run d e).
Proof.
  revert s d e. induction a as [|x a IH]; intros s d [|y e] Hl; try discriminate; [reflexivity|].
  cbn [zip_with run fold_left]. fold (run (polystep (N.lxor s d) (N.lxor x y)) (zip_with N.lxor a e)).
  fold (run (polystep s x) a) (run (polystep d y) e). rewrite <- IH by (injection Hl; auto). f_equal.
  rewrite !polystep_shift, shift_lxor. apply lxor_swap.
Qed.
Lemma run_zeros_l d e : run d (zip_with N.lxor (repeat 0 (length e)) e) = run d e.
Proof. f_equal. induction e as [|x e IH]; [reflexivity|]. cbn [length repeat zip_with]. rewrite N.lxor_0_l, IH. reflexivity. Qed.
Lemma run_split s e : run s e = N.lxor (run s (repeat 0 (length e))) (run 0 e).
Proof.
  rewrite <- (run_zeros_l s e) at 1. rewrite <- (N.lxor_0_r s) at 1. apply run_lxor. apply repeat_length.
Qed.

Lemma lxor_lt a b n : a < 2 ^ n -> b < 2 ^ n -> N.lxor a b < 2 ^ n.
Proof.
  intros Ha Hb. destruct (N.eq_dec (N.lxor a b) 0) as [->|Hn]; [lia|].
  apply N.log2_lt_pow2; [lia|]. eapply N.le_lt_trans; [apply N.log2_lxor|].
  destruct (N.eq_dec a 0) as [->|Na], (N.eq_dec b 0) as [->|Nb]; try (rewrite N.lxor_0_r in Hn; congruence).
  - apply N.max_lub_lt; [|apply N.log2_lt_pow2; lia]. change (N.log2 0) with 0.
    destruct n; [cbn in Hb; lia|lia].
  - apply N.max_lub_lt; [apply N.log2_lt_pow2; lia|]. change (N.log2 0) with 0.
    destruct n; [cbn in Ha; lia|lia].
  - apply N.max_lub_lt; apply N.log2_lt_pow2; lia.
Qed.
Lemma gen_part_lt b : gen_part b < 2 ^ 30.
Proof. unfold gen_part. repeat apply lxor_lt; match goal with |- (if ?t then _ else _) < _ => destruct t; reflexivity end. Qed.
Lemma shift_lt c : shift c < 2 ^ 30.
Proof.
  unfold shift. apply lxor_lt; [|apply gen_part_lt]. change 0x1ffffff with (N.ones 25). rewrite N.land_ones, N.shiftl_mul_pow2.
  pose proof (N.mod_lt c (2 ^ 25) ltac:(discriminate)). change (2 ^ 30) with (2 ^ 25 * 2 ^ 5). apply N.mul_lt_mono_pos_r; [reflexivity|exact H].
Qed.
Lemma small_lt v : v < 32 -> v < 2 ^ 30. Proof. intros H. eapply N.lt_trans; [exact H|reflexivity]. Qed.
Lemma polystep_lt c v : v < 32 -> polystep c v < 2 ^ 30.
Proof. intros H. rewrite polystep_shift. apply lxor_lt; [apply shift_lt|apply small_lt, H]. Qed.
Lemma run_lt s l : s < 2 ^ 30 -> Forall (fun v => v < 32) l -> run s l < 2 ^ 30.
Proof.
  revert s. induction l as [|v l IH]; intros s Hs Hl; [exact Hs|]. apply Forall_cons in Hl as [Hv Hl].
  cbn [run fold_left]. apply IH; [apply polystep_lt, Hv|exact Hl].
Qed.

(** Six values put together *)
Definition pack (l : list N) : N := fold_left (fun a v => a * 32 + v) l 0.
Lemma lxor_add a v : v < 32 -> N.lxor (N.shiftl a 5) v = a * 32 + v.
Proof.
  intros Hv. rewrite N.shiftl_mul_pow2. change (2 ^ 5) with 32. symmetry.
  rewrite <- N.add_nocarry_lxor; [reflexivity|].
  apply N.bits_inj_0. intros i. rewrite N.land_spec. change 32 with (2 ^ 5).
  destruct (N.lt_ge_cases i 5) as [Hi|Hi].
  - rewrite N.mul_pow2_bits_low by exact Hi. reflexivity.
  - destruct (N.eq_dec v 0) as [->|Hn]; [rewrite N.bits_0, Bool.andb_false_r; reflexivity|].
    rewrite (N.bits_above_log2 v), Bool.andb_false_r; [reflexivity|].
    apply (N.lt_le_trans _ 5); [|exact Hi]. apply N.log2_lt_pow2; [lia|exact Hv].
Qed.
Lemma shift_small c : c < 2 ^ 25 -> shift c = N.shiftl c 5.
Proof.
  intros Hc. unfold shift. change 0x1ffffff with (N.ones 25). rewrite N.land_ones, N.mod_small by exact Hc.
  rewrite N.shiftr_div_pow2, N.div_small by exact Hc. change (gen_part 0) with 0. apply N.lxor_0_r.
Qed.
Lemma polystep_small c v : c < 2 ^ 25 -> v < 32 -> polystep c v = c * 32 + v.
Proof. intros Hc Hv. rewrite polystep_shift, shift_small by exact Hc. apply lxor_add, Hv. Qed.
Lemma run_six a b c d e f : Forall (fun v => v < 32) [a; b; c; d; e; f] -> run 0 [a; b; c; d; e; f] = pack [a; b; c; d; e; f].
Proof.
  rewrite !Forall_cons. intros (Ha & Hb & Hc & Hd & He & Hf & _). unfold run, pack. cbn [fold_left].
  assert (P25 : 2 ^ 25 = 33554432) by reflexivity.
  rewrite (polystep_small 0 a) by (assumption || lia). rewrite (polystep_small _ b) by (assumption || lia).
  rewrite (polystep_small _ c) by (assumption || lia). rewrite (polystep_small _ d) by (assumption || lia).
  rewrite (polystep_small _ e) by (assumption || lia). rewrite (polystep_small _ f) by (assumption || lia). reflexivity.
Qed.
Lemma pack_inj a b : length a = length b -> Forall (fun v => v < 32) a -> Forall (fun v => v < 32) b -> pack a = pack b -> a = b.
Proof.
  revert b. induction a as [|x a IH] using rev_ind; intros b Hl Ha Hb Hp; [destruct b; [reflexivity|discriminate]|].
  destruct b as [|y b _] using rev_ind; [rewrite app_length in Hl; cbn in Hl; lia|].
  rewrite !app_length in Hl. cbn in Hl. apply Forall_app in Ha as [Ha Hx]. apply Forall_app in Hb as [Hb Hy].
  apply Forall_cons in Hx as [Hx _]. apply Forall_cons in Hy as [Hy _]. unfold pack in Hp. rewrite !fold_left_app in Hp. cbn [fold_left] in Hp.
  fold (pack a) (pack b) in Hp. assert (pack a = pack b) by lia. f_equal; [apply IH; [lia|assumption..]|f_equal; lia].
Qed.
Definition six (p : N) : list N := map (fun s => N.land (N.shiftr p s) 31) [25; 20; 15; 10; 5; 0].
Lemma six_small p : Forall (fun v => v < 32) (six p).
Proof.
  unfold six. apply Forall_forall. intros v Hv. apply elem_of_list_fmap in Hv as (s & -> & _).
  change 31 with (N.ones 5). rewrite N.land_ones. apply N.mod_lt. discriminate.
Qed.
Lemma pack_six p : p < 2 ^ 30 -> pack (six p) = p.
Proof.
  intros Hp. unfold six, pack. cbn [map fold_left]. change 31 with (N.ones 5). rewrite !N.land_ones, !N.shiftr_div_pow2.
  change (2 ^ 5) with 32. change (2 ^ 0) with 1. rewrite N.div_1_r.
  change (2 ^ 10) with (32 * 32). change (2 ^ 15) with (32 * 32 * 32). change (2 ^ 20) with (32 * 32 * 32 * 32). change (2 ^ 25) with (32 * 32 * 32 * 32 * 32).
  rewrite <- !N.div_div by discriminate. change (2 ^ 30) with 1073741824 in Hp.
  set (p1 := p / 32). set (p2 := p1 / 32). set (p3 := p2 / 32). set (p4 := p3 / 32). set (p5 := p4 / 32).
  assert (E0 : p = 32 * p1 + p mod 32) by (apply N.div_mod; discriminate).
  assert (E1 : p1 = 32 * p2 + p1 mod 32) by (apply N.div_mod; discriminate).
  assert (E2 : p2 = 32 * p3 + p2 mod 32) by (apply N.div_mod; discriminate).
  assert (E3 : p3 = 32 * p4 + p3 mod 32) by (apply N.div_mod; discriminate).
  assert (E4 : p4 = 32 * p5 + p4 mod 32) by (apply N.div_mod; discriminate).
  clearbody p5. clearbody p4. clearbody p3. clearbody p2. clearbody p1.
  generalize dependent (p mod 32). generalize dependent (p1 mod 32). generalize dependent (p2 mod 32). generalize dependent (p3 mod 32). generalize dependent (p4 mod 32).
  intros. assert (p5 < 32) by lia. rewrite (N.mod_small p5) by assumption. lia.
Qed.

Lemma lxor_cancel a b c : N.lxor a b = N.lxor a c -> b = c.
Proof.
  intros H. rewrite <- (N.lxor_0_l b), <- (N.lxor_0_l c), <- (N.lxor_nilpotent a), !N.lxor_assoc. congruence.
Qed.
(** The checksum is the only one that is accepted. *)
Lemma hrp_small hrp : Forall (fun v => v < 32) (hrpExpand hrp).
Proof.
  unfold hrpExpand. apply Forall_app. split; [|apply Forall_app; split].
  - apply Forall_forall. intros v Hv. apply elem_of_list_fmap in Hv as (c & -> & _). rewrite N.shiftr_div_pow2.
    apply N.div_lt_upper_bound; [discriminate|]. eapply N.lt_trans; [apply byte_val_lt|reflexivity].
  - repeat constructor.
  - apply Forall_forall. intros v Hv. apply elem_of_list_fmap in Hv as (c & -> & _).
    change 31 with (N.ones 5). rewrite N.land_ones. apply N.mod_lt. discriminate.
Qed.
Lemma checksum_six hrp data : checksum hrp data = six (N.lxor (run (run 1 (hrpExpand hrp ++ data)) (repeat 0 6)) 1).
Proof. unfold checksum, six, polymod. fold (run 1 (hrpExpand hrp ++ data ++ repeat 0 6)). rewrite app_assoc, run_app. reflexivity. Qed.
Lemma checksum_small hrp data : Forall (fun v => v < 32) (checksum hrp data).
Proof. rewrite checksum_six. apply six_small. Qed.
Lemma checksum_length hrp data : length (checksum hrp data) = 6%nat.
Proof. reflexivity. Qed.
Lemma verify_iff hrp data cs : Forall (fun v => v < 32) data -> Forall (fun v => v < 32) cs -> length cs = 6%nat ->
  (verifyChecksum hrp (data ++ cs) = true <-> cs = checksum hrp data).
Proof.
  intros Hd Hc Hl. unfold verifyChecksum, polymod. rewrite app_assoc. fold (run 1 ((hrpExpand hrp ++ data) ++ cs)).
  rewrite run_app, N.eqb_eq, checksum_six. set (s := run 1 (hrpExpand hrp ++ data)).
  assert (Hs : s < 2 ^ 30) by (apply run_lt; [reflexivity|]; apply Forall_app; split; [apply hrp_small|exact Hd]).
  rewrite run_split, Hl. set (X := run s (repeat 0 6)).
  assert (HX : X < 2 ^ 30) by (apply run_lt; [exact Hs|]; repeat constructor).
  assert (H1 : N.lxor X 1 < 2 ^ 30) by (apply lxor_lt; [exact HX|reflexivity]).
  destruct cs as [|a [|b [|c [|d [|e [|f [|g cs]]]]]]]; try discriminate Hl. rewrite run_six by exact Hc.
  split.
  - intros H. apply pack_inj; [reflexivity|exact Hc|apply six_small|]. rewrite pack_six by exact H1.
    apply (lxor_cancel X). rewrite H, <- N.lxor_assoc, N.lxor_nilpotent, N.lxor_0_l. reflexivity.
  - intros ->. rewrite pack_six by exact H1. rewrite <- N.lxor_assoc, N.lxor_nilpotent, N.lxor_0_l. reflexivity.
Qed.

(** *** Characters *)

Lemma charset_index n : n < 32 -> index_of (char_of charset n) charset = Some n.
Proof.
  intros H. assert (Hall : forallb (fun k => match index_of (char_of charset (N.of_nat k)) charset with Some m => N.eqb m (N.of_nat k) | None => false end) (seq 0 32) = true) by (vm_compute; reflexivity).
  rewrite forallb_forall in Hall. specialize (Hall (N.to_nat n)). rewrite N2Nat.id in Hall.
  destruct (index_of (char_of charset n) charset) as [m|].
  - f_equal. apply N.eqb_eq. apply Hall. apply in_seq. lia.
  - discriminate Hall. apply in_seq. lia.
Qed.
Lemma index_of_spec c l n : index_of c l = Some n -> (N.to_nat n < length l)%nat /\ char_of l n = c.
Proof.
  revert n. induction l as [|d l IH]; intros n; [discriminate|]. cbn [index_of]. destruct (Ascii.eqb_spec d c) as [->|Hne].
  - intros H. apply Some_inj in H. subst n. split; [cbn; lia|reflexivity].
  - destruct (index_of c l) as [m|]; [|discriminate]. intros H. apply Some_inj in H. subst n.
    destruct (IH m eq_refl) as [Hl Hc]. split; [cbn; lia|]. unfold char_of in *. rewrite N2Nat.inj_add, Nat.add_1_r. exact Hc.
Qed.
Lemma all_some_map {A B} (f : A -> option B) l r : all_some (map f l) = Some r <-> Forall2 (fun x y => f x = Some y) l r.
Proof.
  revert r. induction l as [|x l IH]; intros r; cbn [map all_some].
  - split; [intros H; apply Some_inj in H; subst; constructor|intros H; inversion H; reflexivity].
  - destruct (f x) as [y|] eqn:E.
    + destruct (all_some (map f l)) as [t|].
      * split; [intros H; apply Some_inj in H; subst r; constructor; [exact E|apply IH; reflexivity]|].
        intros H. inversion H as [|? y' ? r' Hy Hr]; subst. apply IH in Hr. congruence.
      * split; [discriminate|]. intros H. inversion H as [|? y' ? r' Hy Hr]; subst. apply IH in Hr. discriminate.
    + split; [discriminate|]. intros H. inversion H as [|? y' ? r' Hy Hr]; subst. congruence.
Qed.
Lemma charset_values s l : chars_values charset s = Some l <-> s = values_chars charset l /\ Forall (fun v => v < 32) l.
Proof.
  unfold chars_values, values_chars. rewrite all_some_map. split.
  - intros H. induction H as [|c v s l Hc _ [IH1 IH2]]; [split; constructor|].
    apply index_of_spec in Hc as [Hl Hc]. change (length charset) with 32%nat in Hl. split; [cbn [map]; congruence|].
    constructor; [lia|exact IH2].
  - intros [-> Hl]. induction Hl as [|v l Hv _ IH]; constructor; [apply charset_index, Hv|exact IH].
Qed.

(** *** Groups of bits *)

Lemma to_bits_length n v : length (to_bits n v) = n.
Proof. induction n as [|n IH]; [reflexivity|]. cbn. rewrite IH. reflexivity. Qed.
Lemma of_bits_acc_app acc a b : of_bits_acc acc (a ++ [b]) = 2 * of_bits_acc acc a + (if b then 1 else 0).
Proof. revert acc. induction a as [|x a IH]; intros acc; [reflexivity|]. cbn [app of_bits_acc]. apply IH. Qed.
Lemma of_bits_app a b : of_bits (a ++ [b]) = 2 * of_bits a + (if b then 1 else 0).
Proof. apply of_bits_acc_app. Qed.
Lemma to_bits_snoc n v : to_bits (S n) v = to_bits n (v / 2) ++ [N.odd v].
Proof.
  revert v. induction n as [|n IH]; intros v.
  - cbn [to_bits app]. f_equal. apply N.bit0_odd.
  - change (to_bits (S (S n)) v) with (N.testbit v (N.of_nat (S n)) :: to_bits (S n) v). rewrite IH.
    change (to_bits (S n) (v / 2)) with (N.testbit (v / 2) (N.of_nat n) :: to_bits n (v / 2)). cbn [app]. f_equal.
    rewrite Nat2N.inj_succ. symmetry. apply N.div2_bits.
Qed.
Lemma of_to_bits n v : v < 2 ^ N.of_nat n -> of_bits (to_bits n v) = v.
Proof.
  revert v. induction n as [|n IH]; intros v Hv; [cbn in Hv; unfold of_bits; cbn; lia|].
  rewrite to_bits_snoc, of_bits_app, IH.
  - pose proof (N.div2_odd v) as H. rewrite N.div2_div in H. unfold N.b2n in H. lia.
  - rewrite Nat2N.inj_succ, N.pow_succ_r in Hv by lia. apply N.div_lt_upper_bound; lia.
Qed.
Lemma of_bits_lt l : of_bits l < 2 ^ N.of_nat (length l).
Proof.
  induction l as [|b l IH] using rev_ind; [cbn; lia|]. rewrite of_bits_app, app_length. cbn [length].
  rewrite Nat.add_1_r, Nat2N.inj_succ, N.pow_succ_r by lia. destruct b; lia.
Qed.
Lemma to_of_bits l : to_bits (length l) (of_bits l) = l.
Proof.
  induction l as [|b l IH] using rev_ind; [reflexivity|]. rewrite app_length, Nat.add_1_r, to_bits_snoc, of_bits_app.
  assert (E : (2 * of_bits l + (if b then 1 else 0)) / 2 = of_bits l).
  { symmetry. apply (N.div_unique _ 2 _ (if b then 1 else 0)); [destruct b; lia|reflexivity]. }
  rewrite E, IH. f_equal. f_equal. destruct b; rewrite N.odd_add, N.odd_mul; reflexivity.
Qed.

Lemma groups_spec fuel n l : (0 < n)%nat -> (length l <= fuel)%nat ->
  exists gs rest, groups fuel n l = (gs, rest) /\ l = concat gs ++ rest /\ Forall (fun g => length g = n) gs /\ (length rest < n)%nat.
Proof.
  intros Hn. revert l. induction fuel as [|fuel IH]; intros l Hl; cbn [groups].
  - destruct l; [|cbn in Hl; lia]. exists [], []. repeat split; [constructor|exact Hn].
  - destruct (Nat.ltb_spec (length l) n) as [Hlt|Hge].
    + exists [], l. repeat split; [constructor|exact Hlt].
    + destruct (IH (drop n l)) as (gs & rest & -> & E & Hg & Hr); [rewrite drop_length; lia|].
      exists (take n l :: gs), rest. repeat split; [|constructor; [rewrite take_length; lia|exact Hg]|exact Hr].
      cbn [concat]. rewrite <- app_assoc, <- E. symmetry. apply take_drop.
Qed.
Lemma groups_unique n gs gs' rest rest' : Forall (fun g : list bool => length g = n) gs -> Forall (fun g => length g = n) gs' ->
  (length rest < n)%nat -> (length rest' < n)%nat -> concat gs ++ rest = concat gs' ++ rest' -> gs = gs' /\ rest = rest'.
Proof.
  intros Hg. revert gs'. induction Hg as [|g gs Hgl Hg IH]; intros gs' Hg' Hr Hr' E.
  - destruct Hg' as [|g' gs' Hgl' Hg']; [split; [reflexivity|exact E]|]. exfalso. cbn in E.
    apply (f_equal length) in E. rewrite !app_length in E. lia.
  - destruct Hg' as [|g' gs' Hgl' Hg'].
    + exfalso. cbn in E. apply (f_equal length) in E. rewrite !app_length in E. lia.
    + cbn [concat] in E. rewrite <- !app_assoc in E. apply app_inj_1 in E as [-> E]; [|congruence].
      destruct (IH gs' Hg' Hr Hr' E) as [-> ->]. auto.
Qed.
Lemma map_of_to n gs : Forall (fun g => length g = n) gs -> concat (map (to_bits n) (map of_bits gs)) = concat gs.
Proof.
  induction 1 as [|g gs Hg _ IH]; [reflexivity|]. cbn [map concat]. rewrite IH. f_equal. rewrite <- Hg. apply to_of_bits.
Qed.
Lemma map_to_of n vs : Forall (fun v => v < 2 ^ N.of_nat n) vs -> map of_bits (map (to_bits n) vs) = vs.
Proof. induction 1 as [|v vs Hv _ IH]; [reflexivity|]. cbn [map]. rewrite IH, of_to_bits by exact Hv. reflexivity. Qed.
Lemma to_bits_groups n vs : Forall (fun g => length g = n) (map (to_bits n) vs).
Proof. apply Forall_forall. intros g Hg. apply elem_of_list_fmap in Hg as (v & -> & _). apply to_bits_length. Qed.
Lemma all_false l : forallb negb l = true <-> l = repeat false (length l).
Proof.
  induction l as [|b l IH]; [split; reflexivity|]. cbn [forallb length repeat]. rewrite Bool.andb_true_iff, IH.
  destruct b; cbn [negb]; split; [intros [? ?]; discriminate|discriminate|intros [_ H]; congruence|intros H; injection H; auto].
Qed.
Lemma concat_length n (gs : list (list bool)) : Forall (fun g => length g = n) gs -> length (concat gs) = (n * length gs)%nat.
Proof. induction 1 as [|g gs Hg _ IH]; [cbn; lia|]. cbn [concat length]. rewrite app_length, IH, Hg. lia. Qed.

(** Bytes to groups of five and back *)
Lemma convert_8_5 vs : Forall (fun v => v < 256) vs ->
  exists data, ConvertBits vs 8 5 true = Some data /\ Forall (fun v => v < 32) data /\ ConvertBits data 5 8 false = Some vs /\
    (5 * length data <= 8 * length vs + 4)%nat.
Proof.
  intros Hv. unfold ConvertBits at 1. set (bits := concat (map (to_bits 8) vs)).
  destruct (groups_spec (length bits) 5 bits ltac:(lia) ltac:(lia)) as (gs & rest & -> & E & Hg & Hr).
  assert (Hback : forall k gs', (k <= 4)%nat -> Forall (fun g => length g = 5%nat) gs' -> concat gs' = bits ++ repeat false k ->
    ConvertBits (map of_bits gs') 5 8 false = Some vs).
  { intros k gs' Hk Hg' E'. unfold ConvertBits. rewrite map_of_to by exact Hg'. rewrite E'.
    destruct (groups_spec (length (bits ++ repeat false k)) 8 (bits ++ repeat false k) ltac:(lia) ltac:(lia)) as (hs & rest' & -> & E8 & Hh & Hr').
    destruct (groups_unique 8 hs (map (to_bits 8) vs) rest' (repeat false k)) as [-> ->]; [exact Hh|apply to_bits_groups|exact Hr'|rewrite repeat_length; lia|symmetry; exact E8|].
    rewrite (map_to_of 8 vs Hv). destruct (repeat false k) eqn:Ek; [reflexivity|]. rewrite <- Ek, repeat_length.
    destruct (Nat.leb_spec k 4); [|lia]. cbn [andb].
    replace (forallb negb (repeat false k)) with true; [reflexivity|]. symmetry. apply all_false. rewrite repeat_length. reflexivity. }
  assert (Hbl : length bits = (8 * length vs)%nat).
  { unfold bits. rewrite (concat_length 8) by apply to_bits_groups. rewrite map_length. reflexivity. }
  assert (Hglen : (5 * length gs + length rest = 8 * length vs)%nat).
  { rewrite <- Hbl, E, app_length, (concat_length 5) by exact Hg. reflexivity. }
  destruct rest as [|b rest].
  - exists (map of_bits gs). split; [reflexivity|]. split; [|split].
    + apply Forall_forall. intros v Hin. apply elem_of_list_fmap in Hin as (g & -> & Hin). rewrite Forall_forall in Hg.
      pose proof (of_bits_lt g) as L. rewrite (Hg g Hin) in L. exact L.
    + apply (Hback 0%nat); [lia|exact Hg|]. rewrite E, !app_nil_r. reflexivity.
    + rewrite map_length. cbn in Hglen. lia.
  - set (last := (b :: rest) ++ repeat false (5 - length (b :: rest))).
    assert (Hlast : length last = 5%nat) by (unfold last; rewrite app_length, repeat_length; lia).
    exists (map of_bits gs ++ [of_bits last]). split; [reflexivity|]. split; [|split].
    + apply Forall_app. split.
      * apply Forall_forall. intros v Hin. apply elem_of_list_fmap in Hin as (g & -> & Hin). rewrite Forall_forall in Hg.
        pose proof (of_bits_lt g) as L. rewrite (Hg g Hin) in L. exact L.
      * constructor; [|constructor]. pose proof (of_bits_lt last) as L. rewrite Hlast in L. exact L.
    + change (map of_bits gs ++ [of_bits last]) with (map of_bits gs ++ map of_bits [last]). rewrite <- map_app.
      apply (Hback (5 - length (b :: rest))%nat); [cbn [length]; lia|apply Forall_app; split; [exact Hg|constructor; [exact Hlast|constructor]]|].
      rewrite concat_app. cbn [concat]. rewrite app_nil_r. unfold last. rewrite app_assoc, <- E. reflexivity.
    + rewrite app_length, map_length. cbn [length] in Hglen |- *. lia.
Qed.
(** Groups of five that are bytes are the ones those bytes give. *)
Lemma convert_5_8 data vs : Forall (fun v => v < 32) data -> ConvertBits data 5 8 false = Some vs ->
  Forall (fun v => v < 256) vs /\ ConvertBits vs 8 5 true = Some data.
Proof.
  intros Hd. unfold ConvertBits at 1. set (bits := concat (map (to_bits 5) data)).
  destruct (groups_spec (length bits) 8 bits ltac:(lia) ltac:(lia)) as (gs & rest & -> & E & Hg & Hr).
  assert (Hbl : length bits = (5 * length data)%nat).
  { unfold bits. rewrite (concat_length 5) by apply to_bits_groups. rewrite map_length. reflexivity. }
  assert (Hmain : (length rest <= 4)%nat -> rest = repeat false (length rest) -> ConvertBits (map of_bits gs) 8 5 true = Some data).
  { intros Hl Hz. unfold ConvertBits. rewrite map_of_to by exact Hg.
    destruct (groups_spec (length (concat gs)) 5 (concat gs) ltac:(lia) ltac:(lia)) as (hs & rest' & -> & E5 & Hh & Hr').
    assert (Hlen : (5 * length hs + length rest' + length rest = 5 * length data)%nat).
    { rewrite <- Hbl, E, app_length, E5, app_length, (concat_length 5) by exact Hh. reflexivity. }
    destruct rest' as [|b rest'].
    - cbn [length] in Hlen. assert (length rest = 0%nat) by lia. apply nil_length_inv in H. subst rest. rewrite app_nil_r in *.
      f_equal. assert (hs = map (to_bits 5) data).
      { apply (groups_unique 5 hs (map (to_bits 5) data) [] []); [exact Hh|apply to_bits_groups|cbn; lia|cbn; lia|]. rewrite !app_nil_r, <- E5. symmetry. exact E. }
      subst hs. apply (map_to_of 5), Hd.
    - assert (Hk : length rest = (5 - length (b :: rest'))%nat) by (cbn [length] in *; lia).
      f_equal. rewrite <- Hk. rewrite <- Hz.
      assert (Heq : hs ++ [(b :: rest') ++ rest] = map (to_bits 5) data).
      { apply (groups_unique 5 _ (map (to_bits 5) data) [] []); [|apply to_bits_groups|cbn; lia|cbn; lia|].
        - apply Forall_app. split; [exact Hh|]. constructor; [|constructor]. rewrite app_length, Hk. cbn [length] in *. lia.
        - rewrite !app_nil_r, concat_app. cbn [concat]. rewrite app_nil_r, app_assoc, <- E5. symmetry. exact E. }
      transitivity (map of_bits (hs ++ [(b :: rest') ++ rest])); [rewrite map_app; reflexivity|]. rewrite Heq. apply (map_to_of 5), Hd. }
  assert (Hsmall : Forall (fun v => v < 256) (map of_bits gs)).
  { apply Forall_forall. intros v Hin. apply elem_of_list_fmap in Hin as (g & -> & Hin). rewrite Forall_forall in Hg.
    pose proof (of_bits_lt g) as L. rewrite (Hg g Hin) in L. exact L. }
  destruct rest as [|b rest].
  - intros H. apply Some_inj in H. subst vs. split; [exact Hsmall|]. apply Hmain; [cbn; lia|reflexivity].
  - destruct (_ && _)%bool eqn:C; [|discriminate]. intros H. apply Some_inj in H. subst vs. split; [exact Hsmall|].
    apply Bool.andb_true_iff in C as [C1 C2]. apply Nat.leb_le in C1. apply Hmain; [exact C1|]. apply all_false, C2.
Qed.
