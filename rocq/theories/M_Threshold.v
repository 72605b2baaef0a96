(** Model of [GetThreshold], conversion/conversion.go:179-185.

      func GetThreshold(value int) (int, error) {
        if value < 0 { return 0, errors.New("negative input") }
        threshold := int(math.Ceil(float64(value)*2.0/3.0)) - 1
        return threshold, nil
      }

    The floating point operations are IEEE-754 binary64 operations rounding to
    nearest even, as Go prescribes; they are Flocq's. *)
From Coq Require Import ZArith.
From Flocq Require Import Core.FLX IEEE754.BinarySingleNaN.

Definition prec : Z := 53.
Definition emax : Z := 1024.
Definition f64 := binary_float prec emax.
Definition prec_gt_0 : Prec_gt_0 prec := eq_refl.
Definition prec_lt_emax : Prec_lt_emax prec emax := eq_refl.

(** [float64(z)]: conversion of an integer, rounding to nearest even. *)
Definition f64_of_int (z : Z) : f64 :=
  @binary_normalize prec emax prec_gt_0 prec_lt_emax mode_NE z 0 false.
Definition f64_mul (x y : f64) : f64 := @Bmult prec emax prec_gt_0 prec_lt_emax mode_NE x y.
Definition f64_div (x y : f64) : f64 := @Bdiv prec emax prec_gt_0 prec_lt_emax mode_NE x y.
(** [math.Ceil] *)
Definition f64_ceil (x : f64) : f64 := @Bnearbyint prec emax prec_lt_emax mode_UP x.
(** [int(x)]: truncation towards zero. For the values met here (finite, below
    2^63 in magnitude) the Go conversion is exact; beyond, Go's result is
    implementation-defined and no theorem is stated. *)
Definition int_of_f64 (x : f64) : Z := Btrunc x.

(** conversion/conversion.go:179-185; [None] is the error return. *)
Definition GetThreshold (value : Z) : option Z :=
  if (value <? 0)%Z then None
  else Some (int_of_f64 (f64_ceil
         (f64_div (f64_mul (f64_of_int value) (f64_of_int 2)) (f64_of_int 3))) - 1)%Z.
