(** Property theorems C79: how accurate weighted variances of IEEE doubles are. *)
From Coq Require Import ZArith List Reals Permutation.
From Verif Require Import Num ModelBasic ModelDouble SpecStats SpecDouble SpecDoubleVariance SpecDoubleWeighted SpecDoubleWVariance ProofDoubleEx ProofDoubleWVariance4.
Import ListNotations.
Local Open Scope R_scope.

(** The lazy weighted variance of up to 2^40 samples of at most [b] in magnitude and weights from 0 to [c] is
    finite and off by at most [68 n u b^2], however small or uneven the weights are. *)
Theorem C79_lazy : forall (b c : R) (h : list (double * double)), Few h -> Mild b -> Moderate c -> h <> [] ->
  Within b (map fst h) -> Weights c h -> / 2 ^ 450 <= ExactWeight h ->
  exists v, lazy_weighted_variance_run DoubleN d_zero h = Some v /\ finite v /\
    Rabs (val v - ExactWeightedVariance h) <= 68 * INR (length h) * roundoff * (b * b).
Proof. exact lazy_wvariance_accurate. Qed.
Print Assumptions C79_lazy.

(** The immediate weighted variance needs a first weight that is not tiny, and weights none of which is more than
    [r] times the total before it, where [r n u] is at most one in a thousand. *)
Theorem C79_immediate : forall (b c r : R) (x w : double) (h : list (double * double)), Few ((x, w) :: h) -> Mild b -> Moderate c ->
  Within b (map fst ((x, w) :: h)) -> Weights c ((x, w) :: h) -> / 2 ^ 450 <= val w ->
  1 <= r -> r * INR (length ((x, w) :: h)) * roundoff <= / 1000 -> Balanced r ((x, w) :: h) ->
  finite (wv_var DoubleN (wvar_set_run DoubleN d_zero d_zero ((x, w) :: h))) /\
  Rabs (val (wv_var DoubleN (wvar_set_run DoubleN d_zero d_zero ((x, w) :: h))) - ExactWeightedVariance ((x, w) :: h))
    <= 400 * INR (length ((x, w) :: h)) * roundoff * (b * b).
Proof. exact wvariance_accurate. Qed.
Print Assumptions C79_immediate.

(** Reordering the history, or choosing the other implementation, changes the weighted variance by no more than
    the two bounds together. *)
Theorem C79_order : forall (b c r : R) (g h : list (double * double)) (x w : double), Permutation g ((x, w) :: h) -> Few g -> Mild b -> Moderate c ->
  Within b (map fst g) -> Weights c g -> / 2 ^ 450 <= val w ->
  1 <= r -> r * INR (length g) * roundoff <= / 1000 -> Balanced r ((x, w) :: h) ->
  exists u v, lazy_weighted_variance_run DoubleN d_zero g = Some u /\ lazy_weighted_variance_run DoubleN d_zero ((x, w) :: h) = Some v /\
    Rabs (val u - val v) <= 136 * INR (length g) * roundoff * (b * b) /\
    Rabs (val u - val (wv_var DoubleN (wvar_set_run DoubleN d_zero d_zero ((x, w) :: h)))) <= 468 * INR (length g) * roundoff * (b * b).
Proof. exact wvariance_orders. Qed.
Print Assumptions C79_order.
Example C79_ex : let h := [(big1, tenth); (big2, d_zero); (tenth, d_one)] in
  Few h /\ Mild (2 ^ 28) /\ Moderate 1 /\ Within (2 ^ 28) (map fst h) /\ Weights 1 h /\ / 2 ^ 450 <= val tenth /\
  1 <= 16 /\ 16 * INR (length h) * roundoff <= / 1000 /\ Balanced 16 h.
Proof. exact wvariance_ok. Qed.

(** Finding: without that condition no bound holds.  Any weight of 2^55 times the total before it or more leaves the
    immediate weighted variance infinite or not a number for good, whatever the samples and whatever follows. *)
Theorem C79_unbalanced_refuted : forall (c : R) (g : list (double * double)) (x w : double) (k : list (double * double)), Few g -> Moderate c -> Weights c g -> g <> [] ->
  finite w -> / 2 ^ 450 <= val w -> 2 ^ 55 * ExactWeight g <= val w ->
  ~ finite (wv_var DoubleN (wvar_set_run DoubleN d_zero d_zero (g ++ (x, w) :: k))).
Proof. exact dominated. Qed.
Print Assumptions C79_unbalanced_refuted.
Example C79_unbalanced_ex : let g := [(d_one, dbl 1 (-60))] in
  Few g /\ Moderate 1 /\ Weights 1 g /\ g <> [] /\ finite d_one /\ / 2 ^ 450 <= val d_one /\ 2 ^ 55 * ExactWeight g <= val d_one.
Proof. exact absorbing_ok. Qed.
