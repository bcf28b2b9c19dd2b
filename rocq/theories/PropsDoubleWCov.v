(** Property theorems C92: how accurate weighted covariances of IEEE doubles are. *)
From Coq Require Import ZArith List Reals Permutation.
From Verif Require Import Num ModelBasic ModelDouble SpecStats SpecDouble SpecDoubleVariance SpecDoubleWeighted SpecDoubleWVariance SpecDoubleWCov ProofDoubleEx ProofDoubleWCov3.
Import ListNotations.
Local Open Scope R_scope.

(** The weighted covariance of up to 2^40 samples and variates of at most [b] in magnitude with weights from 0 to [c],
    the first not tiny and none of the others more than [r] times the total before it: finite, and off by at most
    [400 n u b^2]. *)
Theorem C92_weighted_covariance : forall (b c r : R) (x v w : double) (h : list (double * double * double)), let g := (x, v, w) :: h in Few g -> Mild b -> Moderate c ->
  Within b (map fst (weighted_samples g)) -> Within b (map fst (weighted_variates g)) -> Weights c (weighted_samples g) -> / 2 ^ 450 <= val w ->
  1 <= r -> r * INR (length g) * roundoff <= / 1000 -> Balanced r (weighted_samples g) ->
  finite (wc_cov DoubleN (wcov_set_run DoubleN d_zero d_zero d_zero g)) /\
  Rabs (val (wc_cov DoubleN (wcov_set_run DoubleN d_zero d_zero d_zero g)) - ExactWeightedCovariance g) <= 400 * INR (length g) * roundoff * (b * b).
Proof. exact wcovariance_accurate. Qed.
Print Assumptions C92_weighted_covariance.

(** Reordering the history changes it by no more than twice that. *)
Theorem C92_order : forall (b c r : R) (x v w : double) (h : list (double * double * double)) (x' v' w' : double) (h' : list (double * double * double)),
  let g := (x, v, w) :: h in let g' := (x', v', w') :: h' in Permutation g g' -> Few g -> Mild b -> Moderate c ->
  Within b (map fst (weighted_samples g)) -> Within b (map fst (weighted_variates g)) -> Weights c (weighted_samples g) -> / 2 ^ 450 <= val w -> / 2 ^ 450 <= val w' ->
  1 <= r -> r * INR (length g) * roundoff <= / 1000 -> Balanced r (weighted_samples g) -> Balanced r (weighted_samples g') ->
  Rabs (val (wc_cov DoubleN (wcov_set_run DoubleN d_zero d_zero d_zero g)) - val (wc_cov DoubleN (wcov_set_run DoubleN d_zero d_zero d_zero g'))) <= 800 * INR (length g) * roundoff * (b * b).
Proof. exact wcovariance_orders. Qed.
Print Assumptions C92_order.
Example C92_ex : let g := [(big1, big2, tenth); (big2, tenth, d_zero); (tenth, big1, d_one)] in
  Few g /\ Mild (2 ^ 28) /\ Moderate 1 /\ Within (2 ^ 28) (map fst (weighted_samples g)) /\ Within (2 ^ 28) (map fst (weighted_variates g)) /\ Weights 1 (weighted_samples g) /\ / 2 ^ 450 <= val tenth /\
  1 <= 16 /\ 16 * INR (length g) * roundoff <= / 1000 /\ Balanced 16 (weighted_samples g).
Proof. exact wcovariance_ok. Qed.

(** Finding: without the limit on uneven weights no bound holds.  Any weight of 2^55 times the total before it or more
    leaves the weighted covariance infinite or not a number for good, whatever the samples and whatever follows. *)
Theorem C92_unbalanced_refuted : forall (c : R) (g : list (double * double * double)) (x v w : double) (k : list (double * double * double)), Few g -> Moderate c -> Weights c (weighted_samples g) -> g <> [] ->
  finite w -> / 2 ^ 450 <= val w -> 2 ^ 55 * ExactWeight (weighted_samples g) <= val w ->
  ~ finite (wc_cov DoubleN (wcov_set_run DoubleN d_zero d_zero d_zero (g ++ (x, v, w) :: k))).
Proof. exact wcov_dominated. Qed.
Print Assumptions C92_unbalanced_refuted.
Example C92_unbalanced_ex : let g := [(d_one, tenth, dbl 1 (-60))] in
  Few g /\ Moderate 1 /\ Weights 1 (weighted_samples g) /\ g <> [] /\ finite d_one /\ / 2 ^ 450 <= val d_one /\ 2 ^ 55 * ExactWeight (weighted_samples g) <= val d_one.
Proof. exact wcov_absorbing_ok. Qed.
