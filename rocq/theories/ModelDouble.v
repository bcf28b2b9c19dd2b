(** IEEE 754 double precision as a sample type, with its infinities, its NaN, signed zeros, rounding to
    nearest even and overflow: the accumulators of the other files are instantiated with it unchanged.
    The operations are those of Flocq (BinarySingleNaN: one NaN, payloads are not represented), which
    are the operations of the C++ type double on a platform with IEEE arithmetic that evaluates every
    operation in double precision (no x87 excess precision, no contraction to fma, no -ffast-math).

    Counts are converted by [ofnat], n-fold addition of 1.  Up to 2^53 this is the conversion of a
    size_t to double, and exact (ProofDouble.ofnat_exact); theorems about longer histories say so. *)

From Coq Require Import ZArith List.
From Flocq Require Import Core.FLX IEEE754.BinarySingleNaN.
From Verif Require Import Num ModelBasic ModelMinMax ModelRolling.
Import ListNotations.
Local Open Scope Z_scope.

(** binary64: 53 digits, exponents up to 2^1024. *)
#[export] Instance prec_pos : Prec_gt_0 53 := eq_refl.
#[export] Instance prec_max : Prec_lt_emax 53 1024 := eq_refl.
Definition double : Type := binary_float 53 1024.

Definition d_zero : double := B754_zero false.
Definition d_one : double := Bone.
Definition d_inf : double := B754_infinity false.
Definition d_nan : double := B754_nan.
Definition d_add (x y : double) : double := Bplus mode_NE x y.
Definition d_sub (x y : double) : double := Bminus mode_NE x y.
Definition d_mul (x y : double) : double := Bmult mode_NE x y.
Definition d_div (x y : double) : double := Bdiv mode_NE x y.
Definition d_opp (x : double) : double := Bopp x.
Definition d_sqrt (x : double) : double := Bsqrt mode_NE x.
Definition d_lt (x y : double) : bool := Bltb x y.

Definition DoubleN : Num := {|
  car := double; zero := d_zero; one := d_one; add := d_add; sub := d_sub; mul := d_mul; div := d_div;
  opp := d_opp; inv := fun x => d_div d_one x; ltb := d_lt
|}.

(** numeric_limits<double>::max(), and what numeric::as_min, as_max use. *)
Definition d_max : double := Bmax_float.
Definition DoubleL : Limits := {| lcar := double; lltb := d_lt; lowest := d_opp d_max; highest := d_max |}.

(** The double nearest to m * 2^e (for examples). *)
Definition dbl (m e : Z) : double := binary_normalize 53 1024 prec_pos prec_max mode_NE m e false.
(** A double as a sign, an integer and a power of two, or one of the special values. *)
Definition shown_double (x : double) : option (Z * Z) :=
  match x with
  | B754_zero _ => Some (0%Z, 0%Z)
  | B754_finite s m e _ => Some ((if s then Zneg m else Zpos m), e)
  | _ => None
  end.

(** The accumulators with double samples, each default constructed: an accumulator_set of double with
    the one feature, after the samples [xs]. *)
(** mean.hpp 33-46, lazy_mean on count and sum. *)
Definition lazy_mean (xs : list double) : double := mean_set_mean DoubleN (mean_set_run DoubleN d_zero xs).
(** mean.hpp 50-86. *)
Definition immediate_mean (xs : list double) : double := im_mean DoubleN (imean_set_run DoubleN d_zero xs).
(** variance.hpp 87-129. *)
Definition immediate_variance (xs : list double) : double := vs_var DoubleN (var_set_run DoubleN d_zero xs).
(** weighted_variance.hpp 70-115; samples with their weights. *)
Definition weighted_variance (h : list (double * double)) : double := wv_var DoubleN (wvar_set_run DoubleN d_zero d_zero h).
(** error_of_mean.hpp 30-48 with immediate_mean. *)
Definition error_of_immediate_mean (xs : list double) : double := error_of_immediate_mean_run DoubleN d_sqrt xs.
(** min.hpp 27-60, max.hpp 27-60. *)
Definition minimum (xs : list double) : double := min_run DoubleL xs.
Definition maximum (xs : list double) : double := max_run DoubleL xs.
(** The state of the rolling accumulators for windows of [N] samples (and moments of order [M]). *)
Definition rolling (N M : nat) (xs : list double) (s : roll DoubleN) : Prop := roll_run DoubleN N M d_zero xs = Some s.
(** rolling_sum.hpp 27-63; rolling_mean.hpp 56-105; rolling_variance.hpp 107-168. *)
Definition r_sum (s : roll DoubleN) : double := ro_sum DoubleN s.
Definition r_mean (s : roll DoubleN) : double := ro_mean DoubleN s.
Definition r_variance (N : nat) (s : roll DoubleN) : double := ro_variance DoubleN N s.
