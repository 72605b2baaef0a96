(** The float64 computation of the threshold is exact. *)
From Coq Require Import ZArith Reals Lia Lra Psatz.
From Flocq Require Import Core IEEE754.BinarySingleNaN.
From Verif Require Import M_Threshold S_Threshold.
Local Open Scope R_scope.

Local Notation fexp := (SpecFloat.fexp prec emax).
Local Notation rnd := (round radix2 fexp ZnearestE).

Local Instance valid_fexp : Valid_exp fexp.
Proof. apply (fexp_correct prec emax). exact prec_gt_0. Qed.

(** Numbers m * 2^e with a mantissa below 2^53 are representable. *)
Lemma repr (m e : Z) :
  (Z.abs m < 2 ^ 53)%Z -> (-1000 <= e)%Z ->
  generic_format radix2 fexp (F2R (Float radix2 m e)).
Proof.
  intros Hm He. apply (generic_format_FLT radix2 (3 - emax - prec) prec).
  exists (Float radix2 m e); [reflexivity|exact Hm|cbn; unfold emax, prec; lia].
Qed.
Lemma repr_rnd m e :
  (Z.abs m < 2 ^ 53)%Z -> (-1000 <= e)%Z ->
  rnd (F2R (Float radix2 m e)) = F2R (Float radix2 m e).
Proof. intros. apply round_generic; [apply valid_rnd_N|]. now apply repr. Qed.
Lemma repr_int m : (Z.abs m < 2 ^ 53)%Z -> rnd (IZR m) = IZR m.
Proof.
  intros H. rewrite <- (Rmult_1_r (IZR m)). change 1 with (bpow radix2 0).
  apply (repr_rnd m 0); [assumption|lia].
Qed.

Lemma small_lt_emax x : Rabs x <= IZR (2 ^ 53) -> Rlt_bool (Rabs x) (bpow radix2 emax) = true.
Proof.
  intros H. apply Rlt_bool_true. eapply Rle_lt_trans; [exact H|].
  change (IZR (2 ^ 53)) with (bpow radix2 53). apply bpow_lt. unfold emax. lia.
Qed.

Lemma f64_of_int_R z : (Z.abs z < 2 ^ 53)%Z ->
  B2R (f64_of_int z) = IZR z /\ is_finite (f64_of_int z) = true.
Proof.
  intros Hz. unfold f64_of_int.
  pose proof (binary_normalize_correct prec emax prec_gt_0 prec_lt_emax mode_NE z 0 false) as H.
  cbv zeta in H. cbn [round_mode] in H.
  assert (F2R (Float radix2 z 0) = IZR z) as E by (unfold F2R; cbn; lra).
  rewrite E, repr_int in H by assumption.
  rewrite small_lt_emax in H by (rewrite <- abs_IZR; apply IZR_le; lia).
  tauto.
Qed.

Lemma rnd_mono x y : x <= y -> rnd x <= rnd y.
Proof. intros H. apply round_le; [apply valid_fexp|apply valid_rnd_N|exact H]. Qed.

(** Rounding 2n/3 does not cross an integer and does not fall on one. *)
Lemma rnd_ceil n : (0 <= n <= 2 ^ 50)%Z ->
  IZR ((2 * n + 2) / 3 - 1) < rnd (IZR (2 * n) / 3) <= IZR ((2 * n + 2) / 3).
Proof.
  intros Hn.
  set (c := ((2 * n + 2) / 3)%Z).
  assert (Hc : (3 * (c - 1) + 1 <= 2 * n <= 3 * c)%Z).
  { unfold c. pose proof (Z.div_mod (2 * n + 2) 3). pose proof (Z.mod_pos_bound (2 * n + 2) 3). lia. }
  split.
  - (* (c-1) + 1/4 is representable and not above 2n/3 *)
    assert (F2R (Float radix2 (4 * (c - 1) + 1) (-2)) = IZR (c - 1) + / 4) as E.
    { unfold F2R. cbn [Fnum Fexp]. rewrite plus_IZR, mult_IZR.
      change (bpow radix2 (-2)) with (/ IZR (Z.pow_pos 2 2)). change (IZR (Z.pow_pos 2 2)) with 4. lra. }
    apply Rlt_le_trans with (rnd (IZR (c - 1) + / 4)).
    + rewrite <- E, repr_rnd by lia. rewrite E. lra.
    + apply rnd_mono.
      assert (IZR (3 * (c - 1) + 1) <= IZR (2 * n)) as H by (apply IZR_le; lia).
      rewrite plus_IZR, mult_IZR in H. lra.
  - rewrite <- (repr_int c) by lia. apply rnd_mono.
    assert (IZR (2 * n) <= IZR (3 * c)) as H by (apply IZR_le; lia).
    rewrite (mult_IZR 3) in H. lra.
Qed.

Lemma GetThreshold_spec n : (0 <= n <= 2 ^ 50)%Z ->
  GetThreshold n = Some (threshold_of n).
Proof.
  intros Hn. unfold GetThreshold.
  destruct (Z.ltb_spec n 0) as [?|_]; [lia|]. f_equal.
  destruct (f64_of_int_R n) as [Rn Fn]; [lia|].
  destruct (f64_of_int_R 2) as [R2 F2]; [lia|].
  destruct (f64_of_int_R 3) as [R3 F3]; [lia|].
  (* the product is exact *)
  assert (B2R (f64_mul (f64_of_int n) (f64_of_int 2)) = IZR (2 * n) /\
          is_finite (f64_mul (f64_of_int n) (f64_of_int 2)) = true) as [Rm Fm].
  { pose proof (Bmult_correct prec emax prec_gt_0 prec_lt_emax mode_NE
                  (f64_of_int n) (f64_of_int 2)) as H.
    cbn [round_mode] in H. fold (f64_mul (f64_of_int n) (f64_of_int 2)) in H.
    rewrite Rn, R2, Fn, F2 in H.
    rewrite <- mult_IZR, (Z.mul_comm n 2) in H.
    rewrite repr_int in H by lia.
    rewrite small_lt_emax in H by (rewrite <- abs_IZR; apply IZR_le; lia).
    cbn in H. tauto. }
  (* the quotient is rounded once *)
  set (q := f64_div _ _).
  pose proof (rnd_ceil n Hn) as Hq.
  set (c := ((2 * n + 2) / 3)%Z) in *.
  assert (Hc : (0 <= c <= 2 ^ 50)%Z).
  { unfold c. split; [apply Z.div_pos; lia|]. apply Z.div_le_upper_bound; lia. }
  assert (B2R q = rnd (IZR (2 * n) / 3) /\ is_finite q = true) as [Rq Fq].
  { pose proof (Bdiv_correct prec emax prec_gt_0 prec_lt_emax mode_NE
                  (f64_mul (f64_of_int n) (f64_of_int 2)) (f64_of_int 3)) as H.
    cbn [round_mode] in H. fold q in H. unfold f64_div in q. fold q in H.
    rewrite Rm, R3, Fm in H.
    rewrite small_lt_emax in H.
    - destruct H as (H1 & H2 & _); [apply IZR_neq; lia|]. tauto.
    - apply Rabs_le. split.
      + apply Rle_trans with (IZR (c - 1)); [|lra].
        rewrite <- opp_IZR. apply IZR_le. lia.
      + apply Rle_trans with (IZR c); [lra|]. apply IZR_le. lia. }
  (* ceiling and truncation *)
  assert (B2R (f64_ceil q) = IZR c) as Rc.
  { destruct (Bnearbyint_correct prec emax prec_lt_emax mode_UP q) as [H _].
    unfold f64_ceil. rewrite H, Rq. cbn [round_mode].
    clearbody q. generalize dependent (rnd (IZR (2 * n) / 3)). intros r Hq Rq.
    
    unfold round, F2R, scaled_mantissa, cexp, FIX_exp. cbn [Fnum Fexp bpow Z.opp].
    rewrite !Rmult_1_r. f_equal. apply Zceil_imp.
    rewrite minus_IZR in Hq |- *. lra. }
  unfold threshold_of. fold c.
  assert (int_of_f64 (f64_ceil q) = c) as ->; [|reflexivity].
  apply eq_IZR. unfold int_of_f64. rewrite Btrunc_correct; [|exact prec_lt_emax].
  rewrite Rc. unfold round, F2R, scaled_mantissa, cexp, FIX_exp.
  cbn [Fnum Fexp bpow Z.opp]. rewrite !Rmult_1_r, Ztrunc_IZR. reflexivity.
Qed.

Lemma threshold_of_is n : threshold_is n (threshold_of n).
Proof.
  unfold threshold_is, threshold_of.
  pose proof (Z.div_mod (2 * n + 2) 3). pose proof (Z.mod_pos_bound (2 * n + 2) 3). lia.
Qed.

Lemma threshold_is_unique n t t' : threshold_is n t -> threshold_is n t' -> t = t'.
Proof. unfold threshold_is. lia. Qed.
