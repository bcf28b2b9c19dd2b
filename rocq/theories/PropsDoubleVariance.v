(** Property theorems C63: how accurate variances and covariances of IEEE doubles are. *)
From Coq Require Import ZArith List Reals Permutation.
From Verif Require Import Num ModelBasic ModelDouble SpecStats SpecDouble SpecDoubleVariance ProofDoubleEx ProofDoubleVariance4 ProofDoubleCovariance3.
Import ListNotations.
Local Open Scope R_scope.

(** The (immediate) variance of up to 2^40 samples, none larger than [b] in magnitude, is finite and off by at
    most [256 n u b^2] from the exact variance of the samples. *)
Theorem C63_variance : forall (b : R) (xs : list double), Few xs -> Moderate b -> xs <> [] -> Within b xs ->
  finite (immediate_variance xs) /\
  Rabs (val (immediate_variance xs) - ExactVariance xs) <= 256 * INR (length xs) * roundoff * (b * b).
Proof. exact variance_accurate. Qed.
Print Assumptions C63_variance.

(** The lazy variance, which subtracts the square of the mean from the mean of the squares, is no worse. *)
Theorem C63_lazy_variance : forall (b : R) (xs : list double), Few xs -> Moderate b -> xs <> [] -> Within b xs ->
  exists v, lazy_variance_run DoubleN d_zero xs = Some v /\ finite v /\
    Rabs (val v - ExactVariance xs) <= 40 * INR (length xs) * roundoff * (b * b).
Proof. exact lazy_variance_accurate. Qed.
Print Assumptions C63_lazy_variance.

(** The order of the samples and the choice of the implementation matter no more than that. *)
Theorem C63_order : forall (b : R) (xs ys : list double), Permutation xs ys -> Few xs -> Moderate b -> xs <> [] -> Within b xs ->
  Rabs (val (immediate_variance xs) - val (immediate_variance ys)) <= 512 * INR (length xs) * roundoff * (b * b) /\
  exists v, lazy_variance_run DoubleN d_zero ys = Some v /\ finite v /\
    Rabs (val (immediate_variance xs) - val v) <= 296 * INR (length xs) * roundoff * (b * b).
Proof. exact variance_orders. Qed.
Print Assumptions C63_order.
Example C63_variance_ex : Few [big1; big2; tenth] /\ Moderate (2 ^ 28) /\ Within (2 ^ 28) [big1; big2; tenth].
Proof. exact three_ok. Qed.

(** The covariance of samples of at most [a] and variates of at most [b] in magnitude. *)
Theorem C63_covariance : forall (a b : R) (h : list (double * double)), Few h -> Moderate a -> Moderate b -> h <> [] ->
  Within a (map fst h) -> Within b (map snd h) ->
  finite (cs_cov DoubleN (cov_set_run DoubleN d_zero d_zero h)) /\
  Rabs (val (cs_cov DoubleN (cov_set_run DoubleN d_zero d_zero h)) - ExactCovariance h) <= 256 * INR (length h) * roundoff * (a * b).
Proof. exact covariance_accurate. Qed.
Print Assumptions C63_covariance.

(** Reordering the history, or exchanging samples and variates, changes it by no more than twice that. *)
Theorem C63_covariance_order : forall (a b : R) (g h : list (double * double)), Permutation g h -> Few g -> Moderate a -> Moderate b -> g <> [] ->
  Within a (map fst g) -> Within b (map snd g) ->
  Rabs (val (cs_cov DoubleN (cov_set_run DoubleN d_zero d_zero g)) - val (cs_cov DoubleN (cov_set_run DoubleN d_zero d_zero h)))
    <= 512 * INR (length g) * roundoff * (a * b) /\
  Rabs (val (cs_cov DoubleN (cov_set_run DoubleN d_zero d_zero g)) - val (cs_cov DoubleN (cov_set_run DoubleN d_zero d_zero (map (fun p => (snd p, fst p)) h))))
    <= 512 * INR (length g) * roundoff * (a * b).
Proof. exact covariance_orders. Qed.
Print Assumptions C63_covariance_order.
Example C63_covariance_ex : let h := [(big1, tenth); (big2, big1); (tenth, tenth)] in
  Few h /\ Moderate (2 ^ 28) /\ Within (2 ^ 28) (map fst h) /\ Within (2 ^ 28) (map snd h).
Proof. exact three_pairs_ok. Qed.
