(** Property theorems C55 to C59: the statistics of IEEE doubles, rounding, overflow and NaN included. *)
From Coq Require Import ZArith List Bool Reals Permutation.
From Flocq Require Import Core.Raux IEEE754.BinarySingleNaN.
From Verif Require Import Num ModelBasic ModelMinMax ModelRolling ModelPSquare ModelDouble SpecStats SpecRolling SpecPSquare SpecDouble.
From Verif Require Import ProofDouble ProofDouble2 ProofDouble3 ProofDouble4 ProofDouble5 ProofDouble6 ProofDoubleEx ProofDoublePSquare2 ProofDoublePSquareEx.
Import ListNotations.
Local Open Scope R_scope.

(** * C55: variances are not negative *)

(** The default variance compares as not less than zero, whatever the samples: infinite ones and NaN included. *)
Theorem C55_variance : forall xs, d_lt (immediate_variance xs) d_zero = false.
Proof. exact variance_not_negative. Qed.
Print Assumptions C55_variance.
(** It is a finite number, for up to 2^53 samples of at most 2^450 in magnitude. *)
Theorem C55_variance_finite : forall xs, Countable xs -> Within (2 ^ 450) xs ->
  finite (immediate_variance xs) /\ 0 <= val (immediate_variance xs).
Proof. exact default_finite. Qed.
Print Assumptions C55_variance_finite.
(** So error_of<immediate_mean>, its root, is a number. *)
Theorem C55_error_of_mean : forall xs, Countable xs -> (2 <= length xs)%nat -> Within (2 ^ 450) xs ->
  finite (error_of_immediate_mean xs) /\ d_lt (error_of_immediate_mean xs) d_zero = false.
Proof. exact error_ok. Qed.
Print Assumptions C55_error_of_mean.
Example C55_ex : Countable [big1; big2; tenth] /\ Within (2 ^ 450) [big1; big2; tenth].
Proof. exact tens. Qed.
(** The weighted variance, with weights that carry no minus sign. *)
Theorem C55_weighted_variance : forall h, Forall (fun p => Bsign (snd p) = false) h -> d_lt (weighted_variance h) d_zero = false.
Proof. exact weighted_not_negative. Qed.
Print Assumptions C55_weighted_variance.
Example C55_weighted_ex : Forall (fun p => Bsign (snd p) = false) [(d_one, d_one); (dbl 3 0, d_one)] /\
  shown_double (weighted_variance [(d_one, d_one); (dbl 3 0, d_one)]) = Some (4503599627370496, -52)%Z.
Proof. exact weighted_ex. Qed.
(** The lazy variance is negative for 2^27+1, 2^27+2. *)
Theorem C55_lazy_variance_refuted : exists v, lazy_variance_run DoubleN d_zero [big1; big2] = Some v /\ d_lt v d_zero = true.
Proof. exact lazy_negative. Qed.
Print Assumptions C55_lazy_variance_refuted.
(** So error_of<mean> is not a number. *)
Theorem C55_error_of_lazy_mean_refuted : exists v, error_of_mean_run DoubleN d_sqrt [big1; big2] = Some v /\ nan v.
Proof. exact lazy_error_nan. Qed.
Print Assumptions C55_error_of_lazy_mean_refuted.
(** The weighted variance is not a number once a weight exceeds all before it by 2^53, and stays so. *)
Theorem C55_weighted_finite_refuted :
  Forall (fun p => Bsign (snd p) = false /\ finite (fst p) /\ finite (snd p)) [(d_one, dbl 1 (-60)); (dbl 2 0, d_one)] /\
  nan (weighted_variance [(d_one, dbl 1 (-60)); (dbl 2 0, d_one)]) /\
  nan (weighted_variance [(d_one, dbl 1 (-60)); (dbl 2 0, d_one); (d_one, d_one); (dbl 3 0, d_one)]).
Proof. exact weighted_nan. Qed.
Print Assumptions C55_weighted_finite_refuted.

(** * C56: samples that are not numbers *)

(** The minimum is a number, and no sample is less. *)
Theorem C56_min : forall xs, ~ nan (minimum xs) /\ forall x, In x xs -> d_lt x (minimum xs) = false.
Proof. exact minimum_bound. Qed.
Print Assumptions C56_min.
Theorem C56_max : forall xs, ~ nan (maximum xs) /\ forall x, In x xs -> d_lt (maximum xs) x = false.
Proof. exact maximum_bound. Qed.
Print Assumptions C56_max.
(** It is one of the samples, unless all are NaN or the infinity on the far side. *)
Theorem C56_min_sample : forall xs x, In x xs -> ~ nan x -> x <> d_inf -> In (minimum xs) xs.
Proof. exact minimum_sample. Qed.
Print Assumptions C56_min_sample.
Theorem C56_max_sample : forall xs x, In x xs -> ~ nan x -> x <> d_opp d_inf -> In (maximum xs) xs.
Proof. exact maximum_sample. Qed.
Print Assumptions C56_max_sample.
(** NaN samples are as if they had not been pushed. *)
Theorem C56_skipped : forall xs, let numbers := filter (fun x => negb (is_nan x)) xs in
  minimum numbers = minimum xs /\ maximum numbers = maximum xs.
Proof. exact extremes_filter. Qed.
Print Assumptions C56_skipped.
Example C56_ex : minimum [d_nan; big2; d_nan; big1] = big1 /\ maximum [d_nan; big1; big2; d_nan] = big2.
Proof. exact extremes_ex. Qed.
(** In contrast, one NaN sample anywhere makes sum, mean and variance NaN for ever after. *)
Theorem C56_poison : forall xs x, In x xs -> nan x ->
  nan (sum_run DoubleN d_zero xs) /\ nan (lazy_mean xs) /\ nan (immediate_mean xs) /\ ((2 <= length xs)%nat -> nan (immediate_variance xs)).
Proof. exact poisoned. Qed.
Print Assumptions C56_poison.
Example C56_poison_ex : nan (sum_run DoubleN d_zero [big1; d_nan; big2]) /\ nan (immediate_variance [big1; d_nan; big2]).
Proof. exact nan_ex. Qed.
(** A single NaN sample has variance 0; the minimum of infinity alone is the largest double. *)
Theorem C56_single_refuted : nan d_nan /\ ~ nan (immediate_variance [d_nan]).
Proof. exact nan_single. Qed.
Print Assumptions C56_single_refuted.
Theorem C56_infinite_refuted : minimum [d_inf] = d_max /\ maximum [d_opp d_inf] = d_opp d_max.
Proof. exact extremes_infinite. Qed.
Print Assumptions C56_infinite_refuted.

(** * C57: rounding errors *)

(** A finite sum comes from finite samples, and has at most the error of n - 1 roundings. *)
Theorem C57_sum : forall xs, finite (sum_run DoubleN d_zero xs) ->
  Forall finite xs /\
  Rabs (val (sum_run DoubleN d_zero xs) - ExactSum xs) <= ((1 + roundoff) ^ (length xs - 1) - 1) * Magnitude xs.
Proof. exact sum_bound. Qed.
Print Assumptions C57_sum.
(** Integers are added without error, while the sum of their magnitudes is at most 2^53. *)
Theorem C57_integers : forall xs zs, Forall2 (fun x z => finite x /\ val x = IZR z) xs zs ->
  (fold_right (fun z a => Z.abs z + a) 0 zs <= 2 ^ 53)%Z ->
  finite (sum_run DoubleN d_zero xs) /\ val (sum_run DoubleN d_zero xs) = ExactSum xs.
Proof. exact sum_integers. Qed.
Print Assumptions C57_integers.
Example C57_integers_ex : Forall2 (fun x z => finite x /\ val x = IZR z) [two_pow_52; dbl (-3) 0; dbl 7 0] [4503599627370496; -3; 7]%Z /\
  (fold_right (fun z a => Z.abs z + a) 0 [4503599627370496; -3; 7] <= 2 ^ 53)%Z.
Proof. exact integers_ex. Qed.
(** The lazy mean. *)
Theorem C57_mean : forall xs, Countable xs -> xs <> [] -> finite (lazy_mean xs) ->
  Rabs (val (lazy_mean xs) - ExactMean xs) <= ((1 + roundoff) ^ length xs - 1) * (Magnitude xs / INR (length xs)) + tiny.
Proof. exact lazy_mean_error. Qed.
Print Assumptions C57_mean.
(** The immediate mean. *)
Theorem C57_immediate_mean : forall xs, Countable xs -> xs <> [] -> finite (immediate_mean xs) ->
  Rabs (val (immediate_mean xs) - ExactMean xs)
  <= ((1 + roundoff) ^ (3 * length xs) - 1) * (Magnitude xs / INR (length xs))
     + tiny * (1 + roundoff) ^ (3 * length xs) * (INR (length xs) + 1).
Proof. exact immediate_mean_error. Qed.
Print Assumptions C57_immediate_mean.
Example C57_ex : Countable [big1; big2; tenth] /\ finite (sum_run DoubleN d_zero [big1; big2; tenth]) /\
  finite (lazy_mean [big1; big2; tenth]) /\ finite (immediate_mean [big1; big2; tenth]).
Proof. exact finite_ex. Qed.
(** It does not exceed the bound of the samples, when that is a power of two, and never overflows. *)
Theorem C57_immediate_mean_bound : forall n xs, Countable xs -> (n <= 970)%nat -> Within (2 ^ n) xs ->
  finite (immediate_mean xs) /\ Rabs (val (immediate_mean xs)) <= 2 ^ n.
Proof. exact mean_bounded. Qed.
Print Assumptions C57_immediate_mean_bound.
(** But the mean of 0.1, 0.1, 0.1 is larger than their maximum, in both forms. *)
Theorem C57_mean_outside_refuted : d_lt (maximum [tenth; tenth; tenth]) (lazy_mean [tenth; tenth; tenth]) = true /\
  d_lt (maximum [tenth; tenth; tenth]) (immediate_mean [tenth; tenth; tenth]) = true.
Proof. exact mean_outside. Qed.
Print Assumptions C57_mean_outside_refuted.
(** The two forms differ for 0.1, 1, 0.7, 0.1. *)
Theorem C57_same_mean_refuted : d_lt (immediate_mean [tenth; d_one; seven_tenths; tenth]) (lazy_mean [tenth; d_one; seven_tenths; tenth]) = true.
Proof. exact means_differ. Qed.
Print Assumptions C57_same_mean_refuted.
(** The sum depends on the order of the samples. *)
Theorem C57_order_refuted : Permutation [dbl 1 53; d_one; d_one] [d_one; d_one; dbl 1 53] /\
  d_lt (sum_run DoubleN d_zero [dbl 1 53; d_one; d_one]) (sum_run DoubleN d_zero [d_one; d_one; dbl 1 53]) = true.
Proof. exact order_matters. Qed.
Print Assumptions C57_order_refuted.
(** The mean of two equal finite samples can be infinite. *)
Theorem C57_overflow_refuted : finite d_max /\ lazy_mean [d_max; d_max] = d_inf /\ immediate_mean [d_max; d_max] = d_inf.
Proof. exact mean_overflow. Qed.
Print Assumptions C57_overflow_refuted.

(** * C58: rolling windows *)

(** The rolling sum, against the exact sum of the window.  The error depends on all samples ever seen. *)
Theorem C58_sum : forall b N M xs, (1 <= M)%nat -> (1 <= N)%nat -> 0 <= b -> Within b xs -> forall s, rolling N M xs s -> finite (r_sum s) ->
  Rabs (val (r_sum s) - ExactSum (LastN N xs)) <= ((1 + roundoff) ^ (2 * length xs) - 1) * (INR N * b).
Proof. exact r_sum_error. Qed.
Print Assumptions C58_sum.
Example C58_sum_ex : exists s, rolling 2 1 passed s /\ finite (r_sum s) /\ Within (2 ^ 60) passed.
Proof. exact passed_finite. Qed.
(** Integers: exact for ever. *)
Theorem C58_integers : forall b N M xs, (1 <= M)%nat -> (1 <= N)%nat -> (Z.of_nat N * b <= 2 ^ 53)%Z -> Integers b xs ->
  forall s, rolling N M xs s -> finite (r_sum s) /\ val (r_sum s) = ExactSum (LastN N xs).
Proof. exact r_sum_integers. Qed.
Print Assumptions C58_integers.
Example C58_integers_ex : Integers 7 [dbl 7 0; dbl (-3) 0; dbl 7 0; d_one] /\ (Z.of_nat 2 * 7 <= 2 ^ 53)%Z.
Proof. exact rolling_integers_ex. Qed.
(** The rolling variance is finite and not negative, for fewer than 2^52 samples of at most 2^400 in magnitude. *)
Theorem C58_variance : forall N M xs, (1 <= M)%nat -> (Z.of_nat (length xs) < 2 ^ 52)%Z -> Within (2 ^ 400) xs ->
  exists s, rolling N M xs s /\ finite (r_variance N s) /\ 0 <= val (r_variance N s).
Proof. exact rolling_ok. Qed.
Print Assumptions C58_variance.
(** An infinite or NaN sample makes the rolling sum useless for ever, also after it has left the window. *)
Theorem C58_poison : forall N M xs, (1 <= M)%nat -> forall s, rolling N M xs s -> finite (r_sum s) -> Forall finite xs.
Proof. exact r_sum_finite_all. Qed.
Print Assumptions C58_poison.
Theorem C58_recovers_refuted : exists s, rolling 2 1 [d_inf; d_one; d_one; d_one] s /\ ro_window DoubleN 2 s = [d_one; d_one] /\
  nan (r_sum s) /\ nan (r_mean s).
Proof. exact infinity_stays. Qed.
Print Assumptions C58_recovers_refuted.
(** A large finite sample leaves its rounding errors behind: with 1, 2^60, 3, 5 the window holds 3 and 5, the sum is 5, the mean 0. *)
Theorem C58_drift_refuted : exists s, rolling 2 1 passed s /\ ro_window DoubleN 2 s = [dbl 3 0; dbl 5 0] /\
  r_sum s = dbl 5 0 /\ val (r_mean s) = 0.
Proof. exact drift. Qed.
Print Assumptions C58_drift_refuted.
(** Without the bound on the samples, the variance is minus infinity: nothing is clamped before the window is full. *)
Theorem C58_negative_refuted : exists s, rolling 2 1 [d_opp d_max; d_max] s /\ Forall finite [d_opp d_max; d_max] /\
  d_lt (r_variance 2 s) d_zero = true.
Proof. exact negative_variance. Qed.
Print Assumptions C58_negative_refuted.
(** The lazy rolling variance is negative for 2^27+1, 2^27+2. *)
Theorem C58_lazy_negative_refuted : exists s, rolling 2 1 [big1; big2] s /\ d_lt (ro_lazy_variance DoubleN 2 s) d_zero = true.
Proof. exact lazy_rolling_negative. Qed.
Print Assumptions C58_lazy_negative_refuted.

(** * C59: P-square estimates *)

(** From five samples on the quantile estimate is finite and within the samples; the positions of the markers are exact. *)
Theorem C59_p_square : forall (p : double) (xs : list double), Countable xs -> (5 <= length xs)%nat -> Within (2 ^ 1000) xs ->
  finite p -> 0 <= val p <= 1 ->
  exists s r lo hi, pq_run DoubleN p xs = Ok s /\ pq_result DoubleN s = Ok r /\
    finite r /\ Spans xs lo hi /\ val lo <= val r <= val hi /\ MarkerRanks DoubleN 5 (length xs) (mp DoubleN (ps_marks DoubleN s)).
Proof. exact pq_double. Qed.
Print Assumptions C59_p_square.
Example C59_p_square_ex : Countable eighths /\ Within (2 ^ 1000) eighths /\ match pq_run DoubleN (half DoubleN) eighths with
  | Ok s => match pq_result DoubleN s with Ok r => shown_double r | _ => None end | _ => None end = Some (4566149622195086, -53)%Z.
Proof. exact (conj (proj1 eighths_ok) (conj (proj2 eighths_ok) pq_shown)). Qed.
(** The cumulative distribution: ascending from the smallest sample at 1/n to the largest at exactly 1. *)
Theorem C59_distribution : forall (b : nat) (xs : list double), Countable xs -> (1 <= b)%nat -> (b < length xs)%nat -> Within (2 ^ 1000) xs ->
  exists s lo hi, cd_run DoubleN b xs = Ok s /\ Spans xs lo hi /\ length (cd_pairs DoubleN s) = (b + 1)%nat /\
    nth_error (cd_pairs DoubleN s) 0 = Some (lo, d_div d_one (ofnat DoubleN (length xs))) /\ nth_error (cd_pairs DoubleN s) b = Some (hi, d_one) /\
    Ascending (map fst (cd_pairs DoubleN s)) /\ Ascending (map snd (cd_pairs DoubleN s)) /\
    Forall (fun c => finite (fst c) /\ finite (snd c)) (cd_pairs DoubleN s) /\
    MarkerRanks DoubleN (b + 1) (length xs) (mp DoubleN (ps_marks DoubleN s)).
Proof. exact cd_double. Qed.
Print Assumptions C59_distribution.
Example C59_distribution_ex : match cd_run DoubleN 3 eighths with Ok s => map shown_pair (cd_pairs DoubleN s) | _ => [] end
  = [(Some (4503599627370496, -55), Some (8006399337547548, -56)); (Some (7505999378950826, -55), Some (6004799503160661, -54));
     (Some (7130699410003285, -53), Some (6004799503160661, -53)); (Some (5066549580791808, -52), Some (4503599627370496, -52))]%Z.
Proof. exact cd_shown. Qed.
(** Several quantiles: in ascending order, finite and within the samples, whatever the probabilities. *)
Theorem C59_extended : forall (probs xs : list double), Countable xs -> (2 * length probs + 3 <= length xs)%nat -> Within (2 ^ 1000) xs ->
  Forall (fun p => finite p /\ 0 <= val p <= 1) probs ->
  exists s rs lo hi, ext_run DoubleN probs xs = Ok s /\ ext_result DoubleN probs s = Ok rs /\ length rs = length probs /\
    Spans xs lo hi /\ Ascending rs /\ Forall (fun r => finite r /\ val lo <= val r <= val hi) rs /\
    MarkerRanks DoubleN (2 * length probs + 3) (length xs) (mp DoubleN (ps_marks DoubleN s)).
Proof. exact ext_double. Qed.
Print Assumptions C59_extended.
Example C59_extended_ex : Forall (fun p => finite p /\ 0 <= val p <= 1) [quarter; half DoubleN; three_quarters] /\
  match ext_run DoubleN [quarter; three_quarters] eighths with
  | Ok s => match ext_result DoubleN [quarter; three_quarters] s with Ok l => map shown_double l | _ => [] end | _ => [] end
  = [Some (4503599627370496, -54); Some (5566949539388530, -53)]%Z.
Proof. exact (conj probs_ok ext_shown). Qed.
(** Without the bound the difference of two heights overflows: the median of seven finite samples is estimated as infinite. *)
Theorem C59_overflow_refuted : Forall finite extreme /\ exists s, pq_run DoubleN (half DoubleN) extreme = Ok s /\ pq_result DoubleN s = Ok d_inf.
Proof. exact pq_overflow. Qed.
Print Assumptions C59_overflow_refuted.
