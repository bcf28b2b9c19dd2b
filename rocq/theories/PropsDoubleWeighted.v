(** Property theorems C64: how accurate weighted sums and weighted means of IEEE doubles are. *)
From Coq Require Import ZArith List Reals Permutation.
From Verif Require Import Num ModelBasic ModelDouble SpecStats SpecDouble SpecDoubleVariance SpecDoubleWeighted ProofDoubleEx ProofDoubleWeighted ProofDoubleWeighted2 ProofDoubleWeighted3.
Import ListNotations.
Local Open Scope R_scope.

(** The weighted sum, for weights of any sign: the bound of a plain sum plus one rounding (and at most one
    underflow) per product. *)
Theorem C64_weighted_sum : forall h : list (double * double), finite (wm_sum DoubleN (wmean_set_run DoubleN d_zero d_zero h)) ->
  Rabs (val (wm_sum DoubleN (wmean_set_run DoubleN d_zero d_zero h)) - ExactWeightedSum h)
    <= ((1 + roundoff) ^ length h - 1) * WeightedMagnitude h + (1 + roundoff) ^ length h * INR (length h) * tiny.
Proof. exact weighted_sum_error. Qed.
Print Assumptions C64_weighted_sum.

(** The sum of weights that are not negative has a small relative error. *)
Theorem C64_sum_of_weights : forall h : list (double * double), Forall (fun p => 0 <= val (snd p)) h ->
  finite (wm_W DoubleN (wmean_set_run DoubleN d_zero d_zero h)) ->
  Rabs (val (wm_W DoubleN (wmean_set_run DoubleN d_zero d_zero h)) - ExactWeight h) <= ((1 + roundoff) ^ (length h - 1) - 1) * ExactWeight h.
Proof. exact weight_sum_error. Qed.
Print Assumptions C64_sum_of_weights.

(** The weighted mean of up to 2^40 samples of at most [b] in magnitude and weights from 0 to [c] is finite and
    off by at most [8 n u b], however small some of the weights are. *)
Theorem C64_weighted_mean : forall (b c : R) (h : list (double * double)), Few h -> Moderate b -> Moderate c -> h <> [] ->
  Within b (map fst h) -> Weights c h -> / 2 ^ 450 <= ExactWeight h ->
  finite (wmean_set_mean DoubleN (wmean_set_run DoubleN d_zero d_zero h)) /\
  Rabs (val (wmean_set_mean DoubleN (wmean_set_run DoubleN d_zero d_zero h)) - ExactWeightedMean h) <= 8 * INR (length h) * roundoff * b.
Proof. exact weighted_mean_accurate. Qed.
Print Assumptions C64_weighted_mean.

(** The immediate weighted mean needs a first weight that is not tiny. *)
Theorem C64_immediate_weighted_mean : forall (b c : R) (x w : double) (h : list (double * double)), Few ((x, w) :: h) -> Moderate b -> Moderate c ->
  Within b (map fst ((x, w) :: h)) -> Weights c ((x, w) :: h) -> / 2 ^ 450 <= val w ->
  finite (wv_mean DoubleN (wvar_set_run DoubleN d_zero d_zero ((x, w) :: h))) /\
  Rabs (val (wv_mean DoubleN (wvar_set_run DoubleN d_zero d_zero ((x, w) :: h))) - ExactWeightedMean ((x, w) :: h))
    <= 24 * INR (length ((x, w) :: h)) * roundoff * b.
Proof. exact immediate_mean_accurate. Qed.
Print Assumptions C64_immediate_weighted_mean.

(** Reordering the history, or choosing the other implementation, changes the weighted mean by no more than the
    two bounds together. *)
Theorem C64_order : forall (b c : R) (g h : list (double * double)) (x w : double), Permutation g ((x, w) :: h) -> Few g -> Moderate b -> Moderate c ->
  Within b (map fst g) -> Weights c g -> / 2 ^ 450 <= val w ->
  Rabs (val (wmean_set_mean DoubleN (wmean_set_run DoubleN d_zero d_zero g)) - val (wmean_set_mean DoubleN (wmean_set_run DoubleN d_zero d_zero ((x, w) :: h))))
    <= 16 * INR (length g) * roundoff * b /\
  Rabs (val (wmean_set_mean DoubleN (wmean_set_run DoubleN d_zero d_zero g)) - val (wv_mean DoubleN (wvar_set_run DoubleN d_zero d_zero ((x, w) :: h))))
    <= 32 * INR (length g) * roundoff * b.
Proof. exact weighted_orders. Qed.
Print Assumptions C64_order.
Example C64_order_ex : let h := [(big1, tenth); (big2, d_zero); (tenth, d_one)] in
  Few h /\ Moderate (2 ^ 28) /\ Moderate 1 /\ Within (2 ^ 28) (map fst h) /\ Weights 1 h /\ / 2 ^ 450 <= val tenth.
Proof. exact weighted_ok. Qed.

(** Finding: a first sample of weight zero leaves the immediate weighted mean not-a-number for good, whatever
    follows; the lazy weighted mean of the same history recovers. *)
Theorem C64_leading_zero_refuted : forall (x : double) (h : list (double * double)), finite x ->
  nan (wv_mean DoubleN (wvar_set_run DoubleN d_zero d_zero ((x, d_zero) :: h))).
Proof. exact leading_zero. Qed.
Print Assumptions C64_leading_zero_refuted.
Example C64_leading_zero_ex : shown_double (wmean_set_mean DoubleN (wmean_set_run DoubleN d_zero d_zero [(dbl 5 0, d_zero); (d_one, d_one)])) = shown_double d_one.
Proof. exact leading_zero_lazy. Qed.
