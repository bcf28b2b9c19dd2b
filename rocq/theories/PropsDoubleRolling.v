(** C89: rolling statistics of doubles. *)
From Coq Require Import ZArith List Bool Reals.
From Verif Require Import Num ModelBasic ModelRolling ModelDouble SpecStats SpecRolling SpecDouble SpecDoubleVariance SpecDoubleMoment SpecDoubleRolling
  ProofDouble2 ProofDoubleEx ProofDoubleMoment2 ProofDoubleRolling ProofDoubleRolling2 ProofDoubleRolling3 ProofDoubleRolling4.
Import ListNotations.
Local Open Scope R_scope.

(** After up to 2^40 samples of at most 2^k in magnitude, wherever the window of [N] samples stands, the default
    rolling mean is finite and off by at most [8 n u 2^k] from the exact mean of the last [N] samples. *)
Theorem C89_mean : forall (N M : nat) (k : Z) (xs : list double), (1 <= M)%nat -> (1 <= N)%nat -> Few xs -> xs <> [] ->
  (-900 <= k <= 900)%Z -> Within (powerRZ 2 k) xs ->
  exists s, rolling N M xs s /\ finite (r_mean s) /\
    Rabs (val (r_mean s) - ExactMean (LastN N xs)) <= 8 * INR (length xs) * roundoff * powerRZ 2 k.
Proof. exact rolling_mean_accurate. Qed.
Print Assumptions C89_mean.

(** The lazy rolling mean, the rolling sum over the count, by at most [5 n u 2^k]. *)
Theorem C89_lazy_mean : forall (N M : nat) (k : Z) (xs : list double), (1 <= M)%nat -> (1 <= N)%nat -> xs <> [] -> Few xs ->
  (-900 <= k <= 900)%Z -> Within (powerRZ 2 k) xs ->
  exists s, rolling N M xs s /\ finite (ro_lazy_mean DoubleN N s) /\
    Rabs (val (ro_lazy_mean DoubleN N s) - ExactMean (LastN N xs)) <= 5 * INR (length xs) * roundoff * powerRZ 2 k.
Proof. exact rolling_lazy_mean_near. Qed.
Print Assumptions C89_lazy_mean.

(** The rolling moment of order [M] by at most [4 (n + M) u 2^(k M)]. *)
Theorem C89_moment : forall (N M : nat) (k : Z) (xs : list double), (1 <= M)%nat -> (1 <= N)%nat -> xs <> [] -> Few xs ->
  (-900 <= k * Z.of_nat M <= 900)%Z -> Within (powerRZ 2 k) xs -> (Z.of_nat M <= 2 ^ 40)%Z ->
  exists s, rolling N M xs s /\ finite (ro_moment DoubleN N s) /\
    Rabs (val (ro_moment DoubleN N s) - ExactMoment M (LastN N xs)) <= 4 * (INR (length xs) + INR M) * roundoff * powerRZ 2 (k * Z.of_nat M).
Proof. exact rolling_moment_near. Qed.
Print Assumptions C89_moment.
Example C89_moment_ex : (2 <= length [big1; big2; tenth])%nat /\ Few [big1; big2; tenth] /\ (-900 <= 28 * Z.of_nat 5 <= 900)%Z /\ Within (powerRZ 2 28) [big1; big2; tenth].
Proof. exact (conj (le_S _ _ (le_n 2)) three_moments_ok). Qed.

(** Until the window is full both are, bit for bit, the moment and the lazy mean of all samples, also with infinities and
    not-a-numbers. *)
Theorem C89_filling : forall (N M : nat) (xs : list double), (1 <= M)%nat -> (length xs <= N)%nat -> forall s, rolling N M xs s ->
  moment_run DoubleN M d_zero xs = Some (ro_moment DoubleN N s) /\ lazy_mean xs = ro_lazy_mean DoubleN N s.
Proof. exact filling. Qed.
Print Assumptions C89_filling.
Example C89_filling_ex : exists s, rolling 3 2 [big1; big2; tenth] s.
Proof. exact filling_ok. Qed.

(** The default rolling variance, of a window of at least two samples, is finite and off by at most
    [120 n^2 / (c - 1) u 2^(2k)] from the exact unbiased estimate over the [c] samples in the window. *)
Theorem C89_variance : forall (N M : nat) (k : Z) (xs : list double), (1 <= M)%nat -> (2 <= N)%nat -> (2 <= length xs)%nat -> Few xs ->
  (-450 <= k <= 450)%Z -> Within (powerRZ 2 k) xs ->
  exists s, rolling N M xs s /\ finite (r_variance N s) /\
    Rabs (val (r_variance N s) - ExactSampleVariance (LastN N xs)) <= 120 * (INR (length xs) * INR (length xs) / INR (length (LastN N xs) - 1)) * roundoff * powerRZ 2 (k + k).
Proof. exact rolling_variance_accurate. Qed.
Print Assumptions C89_variance.
Example C89_variance_ex : (2 <= length [big1; big2; tenth])%nat /\ length (LastN 2 [big1; big2; tenth]) = 2%nat /\ Few [big1; big2; tenth] /\ (-450 <= 28 <= 450)%Z /\ Within (powerRZ 2 28) [big1; big2; tenth].
Proof. exact rolling_three_ok. Qed.

(** The lazy rolling variances, from the second rolling moment and either rolling mean, are off by at most
    [55 n u 2^(2k)]: this bound does not grow with the square of the number of samples. *)
Theorem C89_lazy_variance : forall (N M : nat) (k : Z) (xs : list double), (1 <= M)%nat -> (2 <= N)%nat -> (2 <= length xs)%nat -> Few xs ->
  (-450 <= k <= 450)%Z -> Within (powerRZ 2 k) xs ->
  exists s, rolling N M xs s /\ let v := ro_lazy_variance DoubleN N s in let w := ro_lazy_variance_lazy_mean DoubleN N s in
    finite v /\ Rabs (val v - ExactSampleVariance (LastN N xs)) <= 55 * INR (length xs) * roundoff * powerRZ 2 (k + k) /\
    finite w /\ Rabs (val w - ExactSampleVariance (LastN N xs)) <= 55 * INR (length xs) * roundoff * powerRZ 2 (k + k).
Proof. exact rolling_lazy_variance_accurate. Qed.
Print Assumptions C89_lazy_variance.
