(** Lemmas about base64: which strings are decoded, and to what. *)
From Coq Require Import NArith ZArith Ascii String List Lia ZifyNat ZifyN.
From stdpp Require Import base list strings.
From Verif Require Import Base L_Base M_Base64 S_Base64 L_Base64.

Lemma bits_length k n : length (bits k n) = k.
Proof. revert n. induction k as [|k IH]; intros n; cbn; [reflexivity|]. rewrite app_length, IH. cbn. lia. Qed.
Lemma bits_inj k a b : a < 2 ^ k -> b < 2 ^ k -> bits k a = bits k b -> a = b.
Proof.
  revert a b. induction k as [|k IH]; intros a b Ha Hb H.
  - cbn in Ha, Hb. lia.
  - rewrite Nat.pow_succ_r' in Ha, Hb. cbn [bits] in H. apply app_inj_2 in H as [H1 H2]; [|reflexivity].
    injection H2 as H2.
    assert (Hd : a / 2 = b / 2).
    { apply IH; [| |exact H1]; apply Nat.div_lt_upper_bound; lia. }
    rewrite (Nat.div_mod_eq a 2), (Nat.div_mod_eq b 2), Hd. f_equal.
    rewrite <- !Nat.bit0_mod, !Nat.bit0_odd, H2. reflexivity.
Qed.
Lemma bits_app m k n : bits (m + k) n = bits m (n / 2 ^ k) ++ bits k n.
Proof.
  revert n. induction k as [|k IH]; intros n.
  - rewrite Nat.add_0_r, Nat.pow_0_r, Nat.div_1_r. cbn. rewrite app_nil_r. reflexivity.
  - rewrite Nat.add_succ_r. cbn [bits]. rewrite IH, <- app_assoc, Nat.pow_succ_r', Nat.div_div by lia. reflexivity.
Qed.
Lemma bits_mod k n : bits k n = bits k (n mod 2 ^ k).
Proof.
  revert n. induction k as [|k IH]; intros n; [reflexivity|]. cbn [bits]. f_equal.
  - rewrite IH, (IH ((n mod 2 ^ S k) / 2)). f_equal. rewrite Nat.pow_succ_r'.
    rewrite (Nat.mod_mul_r n 2 (2 ^ k)) by lia.
    rewrite Nat.mul_comm, Nat.div_add by lia. rewrite (Nat.div_small (n mod 2) 2) by (apply Nat.mod_upper_bound; lia).
    cbn [Nat.add]. rewrite Nat.mod_mod by lia. reflexivity.
  - f_equal. rewrite Nat.pow_succ_r', (Nat.mod_mul_r n 2 (2 ^ k)) by lia.
    rewrite Nat.odd_add, Nat.odd_mul. cbn [Nat.odd Nat.even negb andb]. rewrite xorb_false_r.
    rewrite <- Nat.bit0_odd, <- Nat.bit0_odd, !Nat.bit0_odd.
    rewrite (Nat.div_mod_eq n 2) at 1. rewrite Nat.odd_add, Nat.odd_mul. cbn [Nat.odd Nat.even negb andb].
    rewrite xorb_false_l. reflexivity.
Qed.
(** A byte of [m] high and [k] low bits. *)
Lemma bits_two m k a b n : n = a * 2 ^ k + b -> b < 2 ^ k -> bits (m + k) n = bits m a ++ bits k b.
Proof.
  intros -> Hb. rewrite bits_app, (bits_mod k (a * 2 ^ k + b)). f_equal.
  - rewrite Nat.add_comm, Nat.div_add, (Nat.div_small b) by lia. reflexivity.
  - rewrite Nat.add_comm, Nat.mod_add, Nat.mod_small by lia. reflexivity.
Qed.

Lemma byte_nat n : (n < 256)%N -> nat_of_ascii (ascii_of_N n) = N.to_nat n.
Proof. intros H. unfold nat_of_ascii. rewrite N_ascii_embedding by exact H. reflexivity. Qed.

Definition v6 (v : N) : list bool := bits 6 (N.to_nat v).
Definition v8 (x : ascii) : list bool := bits 8 (nat_of_ascii x).
Lemma v8_length x : length (v8 x) = 8.
Proof. apply bits_length. Qed.
Lemma first_byte va vb : (va < 64)%N -> (vb < 64)%N ->
  v8 (ascii_of_N (va * 4 + vb / 16)) = v6 va ++ bits 2 (N.to_nat (vb / 16)).
Proof.
  intros Ha Hb. unfold v8, v6. rewrite byte_nat by nsolve.
  apply (bits_two 6 2); cbn [Nat.pow Nat.mul Nat.add]; nsolve.
Qed.
Lemma second_byte vb vc : (vb < 64)%N -> (vc < 64)%N ->
  v8 (ascii_of_N (vb mod 16 * 16 + vc / 4)) = bits 4 (N.to_nat (vb mod 16)) ++ bits 4 (N.to_nat (vc / 4)).
Proof.
  intros Ha Hb. unfold v8, v6. rewrite byte_nat by nsolve.
  apply (bits_two 4 4); cbn [Nat.pow Nat.mul Nat.add]; nsolve.
Qed.
Lemma third_byte vc vd : (vc < 64)%N -> (vd < 64)%N ->
  v8 (ascii_of_N (vc mod 4 * 64 + vd)) = bits 2 (N.to_nat (vc mod 4)) ++ v6 vd.
Proof.
  intros Ha Hb. unfold v8, v6. rewrite byte_nat by nsolve.
  apply (bits_two 2 6); cbn [Nat.pow Nat.mul Nat.add]; nsolve.
Qed.
Lemma v6_2_4 vb : (vb < 64)%N -> v6 vb = bits 2 (N.to_nat (vb / 16)) ++ bits 4 (N.to_nat (vb mod 16)).
Proof. intros H. apply (bits_two 2 4); cbn [Nat.pow Nat.mul Nat.add]; nsolve. Qed.
Lemma v6_4_2 vc : (vc < 64)%N -> v6 vc = bits 4 (N.to_nat (vc / 4)) ++ bits 2 (N.to_nat (vc mod 4)).
Proof. intros H. apply (bits_two 4 2); cbn [Nat.pow Nat.mul Nat.add]; nsolve. Qed.

(** Characters and padding, without line ends. *)
Definition shape (s b : bytes) : Prop :=
  exists cs values pads unused,
    s = cs ++ replicate pads "="%char /\ Forall2 stands_for cs values /\
    pads < 3 /\ (length cs + pads) `mod` 4 = 0 /\
    concat (map (bits 6) values) = concat (map v8 b) ++ unused /\ length unused < 8.

Lemma val_stands c v : b64_val c = Some v -> stands_for c (N.to_nat v).
Proof. intros H. apply stands_val. rewrite N2Nat.id. exact H. Qed.

Lemma quanta_shape s : forall b, b64_quanta s = Some b -> shape s b.
Proof.
  induction s as [|x|x y|x y z|x y z t r IH] using list_ind4; intros b H; try discriminate H.
  { injection H as <-. exists [], [], 0, []. repeat split; try reflexivity; try constructor; cbn; lia. }
  cbn [b64_quanta] in H.
  destruct (b64_val x) as [va|] eqn:Hx; [|discriminate].
  destruct (b64_val y) as [vb|] eqn:Hy; [|discriminate].
  pose proof (val_lt _ _ Hx) as La. pose proof (val_lt _ _ Hy) as Lb.
  apply val_stands in Hx, Hy.
  destruct (b64_val z) as [vc|] eqn:Hz.
  - pose proof (val_lt _ _ Hz) as Lc. apply val_stands in Hz.
    destruct (b64_val t) as [vd|] eqn:Ht.
    + pose proof (val_lt _ _ Ht) as Ld. apply val_stands in Ht.
      destruct (b64_quanta r) as [w|] eqn:Hr; [|discriminate]. injection H as <-.
      destruct (IH _ eq_refl) as (cs & vs & p & u & -> & Hf & Hp & Hm & Hc & Hu).
      exists (x :: y :: z :: t :: cs), (N.to_nat va :: N.to_nat vb :: N.to_nat vc :: N.to_nat vd :: vs), p, u.
      split; [reflexivity|]. split; [repeat constructor; assumption|]. split; [exact Hp|].
      split. { cbn [length]. change (S (S (S (S (length cs)))) + p) with (4 + (length cs + p)).
        rewrite <- Nat.add_mod_idemp_r, Hm by lia. reflexivity. }
      split; [|exact Hu]. cbn [map concat]. fold (v6 va) (v6 vb) (v6 vc) (v6 vd).
      rewrite Hc, first_byte, second_byte, third_byte, (v6_2_4 vb), (v6_4_2 vc) by assumption.
      rewrite <- !app_assoc. reflexivity.
    + destruct (Ascii.eqb_spec t b64_pad) as [->|]; [|discriminate]. destruct r; [|discriminate].
      injection H as <-.
      exists [x; y; z], [N.to_nat va; N.to_nat vb; N.to_nat vc], 1, (bits 2 (N.to_nat (vc mod 4))).
      split; [reflexivity|]. split; [repeat constructor; assumption|]. split; [lia|]. split; [reflexivity|].
      split; [|rewrite bits_length; lia]. cbn [map concat]. fold (v6 va) (v6 vb) (v6 vc).
      rewrite first_byte, second_byte, (v6_2_4 vb), (v6_4_2 vc) by assumption.
      rewrite <- !app_assoc. reflexivity.
  - destruct (Ascii.eqb_spec z b64_pad) as [->|]; [|discriminate].
    destruct (Ascii.eqb_spec t b64_pad) as [->|]; [|discriminate]. destruct r; [|discriminate].
    injection H as <-.
    exists [x; y], [N.to_nat va; N.to_nat vb], 2, (bits 4 (N.to_nat (vb mod 16))).
    split; [reflexivity|]. split; [repeat constructor; assumption|]. split; [lia|]. split; [reflexivity|].
    split; [|rewrite bits_length; lia]. cbn [map concat]. fold (v6 va) (v6 vb).
    rewrite first_byte, (v6_2_4 vb) by assumption. rewrite <- !app_assoc. reflexivity.
Qed.

Lemma pad_no_value : b64_val "="%char = None.
Proof. reflexivity. Qed.
Lemma stands_value c n : stands_for c n -> exists v, b64_val c = Some v.
Proof. intros H. apply stands_val in H. eauto. Qed.

Lemma shape_quanta p : forall cs values, Forall2 stands_for cs values -> p < 3 ->
  (length cs + p) `mod` 4 = 0 -> exists b, b64_quanta (cs ++ replicate p "="%char) = Some b.
Proof.
  induction cs as [|x|x y|x y z|x y z t r IH] using list_ind4; intros values Hf Hp Hm.
  - destruct p as [|[|[|p]]]; try discriminate Hm; [|lia]. exists []. reflexivity.
  - destruct p as [|[|[|p]]]; try discriminate Hm; lia.
  - destruct p as [|[|[|p]]]; try discriminate Hm; [|lia].
    inversion Hf as [|? ? ? ? Hx Hf']; subst. inversion Hf' as [|? ? ? ? Hy _]; subst.
    destruct (stands_value _ _ Hx) as [va Ha], (stands_value _ _ Hy) as [vb Hb].
    cbn [app replicate b64_quanta]. rewrite Ha, Hb, pad_no_value. cbn [Ascii.eqb Bool.eqb b64_pad andb]. eauto.
  - destruct p as [|[|[|p]]]; try discriminate Hm; [|lia].
    inversion Hf as [|? ? ? ? Hx Hf']; subst. inversion Hf' as [|? ? ? ? Hy Hf'']; subst.
    inversion Hf'' as [|? ? ? ? Hz _]; subst.
    destruct (stands_value _ _ Hx) as [va Ha], (stands_value _ _ Hy) as [vb Hb], (stands_value _ _ Hz) as [vc Hc].
    cbn [app replicate b64_quanta]. rewrite Ha, Hb, Hc, pad_no_value. cbn [Ascii.eqb Bool.eqb b64_pad andb]. eauto.
  - inversion Hf as [|? ? ? ? Hx Hf1]; subst. inversion Hf1 as [|? ? ? ? Hy Hf2]; subst.
    inversion Hf2 as [|? ? ? ? Hz Hf3]; subst. inversion Hf3 as [|? ? ? ? Ht Hf4]; subst.
    destruct (IH _ Hf4 Hp) as [w Hw].
    { cbn [length] in Hm. change (S (S (S (S (length r)))) + p) with (4 + (length r + p)) in Hm.
      rewrite <- Nat.add_mod_idemp_l in Hm by lia. exact Hm. }
    destruct (stands_value _ _ Hx) as [va Ha], (stands_value _ _ Hy) as [vb Hb], (stands_value _ _ Hz) as [vc Hc],
      (stands_value _ _ Ht) as [vd Hd].
    cbn [app b64_quanta]. rewrite Ha, Hb, Hc, Hd, Hw. eauto.
Qed.

(** A text stands for one payload. *)
Lemma stands_fun cs : forall v1 v2, Forall2 stands_for cs v1 -> Forall2 stands_for cs v2 -> v1 = v2.
Proof.
  induction cs as [|c cs IH]; intros v1 v2 H1 H2; inversion H1; inversion H2; subst; [reflexivity|].
  f_equal; [|auto]. apply Nat2N.inj.
  match goal with A : stands_for c ?a, B : stands_for c ?b |- _ => apply stands_val in A, B; congruence end.
Qed.
Lemma stands_not_pad cs vs : Forall2 stands_for cs vs -> Forall (fun c => c <> "="%char) cs.
Proof.
  induction 1 as [|c v cs vs Hc _ IH]; constructor; [|exact IH]. intros ->. apply stands_val in Hc.
  rewrite pad_no_value in Hc. discriminate.
Qed.
Lemma pads_split cs1 : forall cs2 p1 p2,
  Forall (fun c => c <> "="%char) cs1 -> Forall (fun c => c <> "="%char) cs2 ->
  cs1 ++ replicate p1 "="%char = cs2 ++ replicate p2 "="%char -> cs1 = cs2.
Proof.
  induction cs1 as [|c cs1 IH]; intros [|d cs2] p1 p2 H1 H2 H.
  - reflexivity.
  - destruct p1; [discriminate|]. injection H as <- _. inversion H2; congruence.
  - destruct p2; [discriminate|]. injection H as -> _. inversion H1; congruence.
  - injection H as -> H. f_equal. inversion H1; inversion H2; subst. eapply IH; eauto.
Qed.
Lemma bytes_bits_fun b1 : forall b2 u1 u2, length u1 < 8 -> length u2 < 8 ->
  concat (map v8 b1) ++ u1 = concat (map v8 b2) ++ u2 -> b1 = b2.
Proof.
  induction b1 as [|x b1 IH]; intros [|y b2] u1 u2 L1 L2 H.
  - reflexivity.
  - apply (f_equal length) in H. cbn [map concat] in H. rewrite !app_length, v8_length in H. cbn in H. lia.
  - apply (f_equal length) in H. cbn [map concat] in H. rewrite !app_length, v8_length in H. cbn in H. lia.
  - cbn [map concat] in H. rewrite <- !app_assoc in H.
    apply app_inj_1 in H as [Hx H]; [|unfold v8; rewrite !bits_length; reflexivity].
    assert (Hn : nat_of_ascii x = nat_of_ascii y).
    { apply (bits_inj 8); [exact (nat_ascii_bounded x)|exact (nat_ascii_bounded y)|exact Hx]. }
    rewrite <- (ascii_nat_embedding x), <- (ascii_nat_embedding y), Hn. f_equal. exact (IH _ _ _ L1 L2 H).
Qed.
Lemma shape_fun s b1 b2 : shape s b1 -> shape s b2 -> b1 = b2.
Proof.
  intros (c1 & v1 & p1 & u1 & E1 & F1 & _ & _ & B1 & L1) (c2 & v2 & p2 & u2 & E2 & F2 & _ & _ & B2 & L2).
  assert (c1 = c2) as ->.
  { eapply pads_split; [eapply stands_not_pad, F1|eapply stands_not_pad, F2|transitivity s; [symmetry; exact E1|exact E2]]. }
  assert (v1 = v2) as -> by (eapply stands_fun; eauto).
  eapply bytes_bits_fun; [exact L1|exact L2|congruence].
Qed.
Lemma quanta_iff s b : b64_quanta s = Some b <-> shape s b.
Proof.
  split; [apply quanta_shape|]. intros Hs. pose proof Hs as (cs & vs & p & u & -> & Hf & Hp & Hm & _).
  destruct (shape_quanta p cs vs Hf Hp Hm) as [b' Hb']. rewrite Hb'. f_equal.
  eapply shape_fun; [apply quanta_shape, Hb'|exact Hs].
Qed.

Lemma newline_iff c : is_newline c = true <-> c = "010"%char \/ c = "013"%char.
Proof.
  split.
  - destruct c as [[] [] [] [] [] [] [] []]; vm_compute; intros H; try discriminate H; auto.
  - intros [->| ->]; reflexivity.
Qed.
Lemma line_ends_filter s t : line_ends_out s t <-> List.filter (fun c => negb (is_newline c)) s = t.
Proof.
  split.
  - induction 1 as [|c s t Hc _ IH|c s t H1 H2 _ IH]; [reflexivity| |]; cbn [List.filter].
    + rewrite (proj2 (newline_iff c) Hc). exact IH.
    + destruct (is_newline c) eqn:E; [apply newline_iff in E as [|]; congruence|]. cbn. f_equal. exact IH.
  - intros <-. induction s as [|c s IH]; [constructor|]. cbn [List.filter].
    destruct (is_newline c) eqn:E; cbn [negb].
    + constructor; [apply newline_iff, E|exact IH].
    + constructor; [intros ->; discriminate E|intros ->; discriminate E|exact IH].
Qed.
Lemma decode_iff s b : b64_decode s = Some b <-> decodes_to s b.
Proof.
  unfold b64_decode. rewrite quanta_iff. unfold shape, decodes_to. split.
  - intros (cs & vs & p & u & E & H). exists cs, vs, p, u. split; [|exact H]. apply line_ends_filter, E.
  - intros (cs & vs & p & u & E & H). exists cs, vs, p, u. split; [|exact H]. apply line_ends_filter, E.
Qed.
