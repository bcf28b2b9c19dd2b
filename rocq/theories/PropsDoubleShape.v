(** C91: the skewness and the kurtosis of doubles. *)
From Coq Require Import ZArith List Bool Reals.
From Verif Require Import Num ModelBasic ModelDouble SpecStats SpecDouble SpecDoubleVariance SpecDoubleWeighted SpecDoubleWVariance SpecDoubleShape SpecDoubleWShape ProofDoubleEx ProofDoubleShape3 ProofDoubleShape4 ProofDoubleShape5.
Import ListNotations.
Local Open Scope R_scope.

(** skewness of up to 2^40 samples of at most [2^k] in magnitude, whose variance [V] is well above the rounding
    errors, is finite and off by no more than [170 n u 2^(3k) / V^(3/2)] from the exact skewness. *)
Theorem C91_skewness : forall (k : Z) (xs : list double), Few xs -> xs <> [] -> (-200 <= k <= 200)%Z -> Within (powerRZ 2 k) xs ->
  1000 * INR (length xs) * roundoff * powerRZ 2 (2 * k) <= ExactVariance xs ->
  exists g, skewness_run DoubleN d_sqrt d_zero xs = Some g /\ finite g /\
    Rabs (val g - ExactSkewness xs) * sqrt (ExactVariance xs) ^ 3 <= 170 * INR (length xs) * roundoff * powerRZ 2 (3 * k).
Proof. exact skewness_accurate. Qed.
Print Assumptions C91_skewness.

(** So kurtosis, off by no more than [450 n u 2^(4k) / V^2]. *)
Theorem C91_kurtosis : forall (k : Z) (xs : list double), Few xs -> xs <> [] -> (-200 <= k <= 200)%Z -> Within (powerRZ 2 k) xs ->
  1000 * INR (length xs) * roundoff * powerRZ 2 (2 * k) <= ExactVariance xs ->
  exists g, kurtosis_run DoubleN d_zero xs = Some g /\ finite g /\
    Rabs (val g - ExactKurtosis xs) * ExactVariance xs ^ 2 <= 450 * INR (length xs) * roundoff * powerRZ 2 (4 * k).
Proof. exact kurtosis_accurate. Qed.
Print Assumptions C91_kurtosis.
Example C91_ex : let xs := [dbl 7 0; dbl (-3) 0; dbl 7 0] in
  Few xs /\ xs <> [] /\ Within (powerRZ 2 3) xs /\ 1000 * INR (length xs) * roundoff * powerRZ 2 (2 * 3) <= ExactVariance xs /\ ExactVariance xs = 200 / 9.
Proof. exact sevens_shape_ok. Qed.

(** The bound on the variance is needed: both are NaN for 2^30 and 2^30 + 1, whose exact variance is 1/4. *)
Theorem C91_close_samples_refuted : finite close1 /\ finite close2 /\ val close1 = 2 ^ 30 /\ val close2 = 2 ^ 30 + 1 /\ ExactVariance [close1; close2] = / 4 /\
  (exists g, skewness_run DoubleN d_sqrt d_zero [close1; close2] = Some g /\ nan g) /\ (exists g, kurtosis_run DoubleN d_zero [close1; close2] = Some g /\ nan g).
Proof. exact close_samples_nan. Qed.
Print Assumptions C91_close_samples_refuted.

(** So with weights from 0 to 2^j and up to 2^39 samples, with twice the error. *)
Theorem C91_weighted_skewness : forall (k j : Z) (hs : list (double * double)), (Z.of_nat (length hs) <= 2 ^ 39)%Z -> hs <> [] ->
  (-100 <= k <= 100)%Z -> (-450 <= j <= 450)%Z -> Within (powerRZ 2 k) (map fst hs) -> Weights (powerRZ 2 j) hs -> / 2 ^ 450 <= ExactWeight hs ->
  2000 * INR (length hs) * roundoff * powerRZ 2 (2 * k) <= ExactWeightedVariance hs ->
  exists g, weighted_skewness_run DoubleN d_sqrt d_zero hs = Some g /\ finite g /\
    Rabs (val g - ExactWeightedSkewness hs) * sqrt (ExactWeightedVariance hs) ^ 3 <= 340 * INR (length hs) * roundoff * powerRZ 2 (3 * k).
Proof. exact weighted_skewness_accurate. Qed.
Print Assumptions C91_weighted_skewness.
Theorem C91_weighted_kurtosis : forall (k j : Z) (hs : list (double * double)), (Z.of_nat (length hs) <= 2 ^ 39)%Z -> hs <> [] ->
  (-100 <= k <= 100)%Z -> (-450 <= j <= 450)%Z -> Within (powerRZ 2 k) (map fst hs) -> Weights (powerRZ 2 j) hs -> / 2 ^ 450 <= ExactWeight hs ->
  2000 * INR (length hs) * roundoff * powerRZ 2 (2 * k) <= ExactWeightedVariance hs ->
  exists g, weighted_kurtosis_run DoubleN d_zero hs = Some g /\ finite g /\
    Rabs (val g - ExactWeightedKurtosis hs) * ExactWeightedVariance hs ^ 2 <= 900 * INR (length hs) * roundoff * powerRZ 2 (4 * k).
Proof. exact weighted_kurtosis_accurate. Qed.
Print Assumptions C91_weighted_kurtosis.
Example C91_weighted_ex : let hs := [(dbl 7 0, d_one); (dbl (-3) 0, dbl 7 0); (dbl 7 0, d_one)] in
  (Z.of_nat (length hs) <= 2 ^ 39)%Z /\ hs <> [] /\ Within (powerRZ 2 3) (map fst hs) /\ Weights (powerRZ 2 3) hs /\ / 2 ^ 450 <= ExactWeight hs /\
  2000 * INR (length hs) * roundoff * powerRZ 2 (2 * 3) <= ExactWeightedVariance hs /\ ExactWeightedVariance hs = 1400 / 81.
Proof. exact weighted_shape_ok. Qed.

(** In particular, if the variance is at least a quarter of the square of the bound, skewness is right to [1360 n u]
    and kurtosis to [7200 n u]. *)
Theorem C91_well_spread : forall (k : Z) (xs : list double), Few xs -> xs <> [] -> (-200 <= k <= 200)%Z -> Within (powerRZ 2 k) xs ->
  powerRZ 2 (2 * k) / 4 <= ExactVariance xs ->
  (exists g, skewness_run DoubleN d_sqrt d_zero xs = Some g /\ finite g /\ Rabs (val g - ExactSkewness xs) <= 1360 * INR (length xs) * roundoff) /\
  (exists g, kurtosis_run DoubleN d_zero xs = Some g /\ finite g /\ Rabs (val g - ExactKurtosis xs) <= 7200 * INR (length xs) * roundoff).
Proof. exact well_spread. Qed.
Print Assumptions C91_well_spread.
Example C91_well_spread_ex : powerRZ 2 (2 * 3) / 4 <= ExactVariance [dbl 7 0; dbl (-3) 0; dbl 7 0].
Proof. exact sevens_spread. Qed.
