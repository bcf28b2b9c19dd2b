(** C85: doubles in another unit: where nothing overflows or underflows, samples scaled by a power of two give exactly scaled results. *)
From Coq Require Import List Bool ZArith Lia.
From Verif Require Import Num ModelBasic ModelRolling ModelTail ModelHeap ModelDouble SpecDouble SpecMirror SpecScale ProofScale4 ProofScaleEx.
Import ListNotations.

(** Sums and Kahan sums: it is enough that both results are finite. *)
Theorem C85_sums : forall e xs ys, ScaledAll e xs ys ->
  (finite (sum_run DoubleN d_zero xs) -> finite (sum_run DoubleN d_zero ys) -> Scaled e (sum_run DoubleN d_zero xs) (sum_run DoubleN d_zero ys)) /\
  (finite (fst (kahan_run DoubleN d_zero xs)) -> finite (fst (kahan_run DoubleN d_zero ys)) -> Scaled e (fst (kahan_run DoubleN d_zero xs)) (fst (kahan_run DoubleN d_zero ys))).
Proof. exact scale_sums. Qed.
Print Assumptions C85_sums.
Example C85_sums_ex : ScaledAll (-600) metres tiny /\ finite (sum_run DoubleN d_zero metres) /\ finite (fst (kahan_run DoubleN d_zero tiny)).
Proof. exact sums_case. Qed.

(** The watched runs hold the results of the plain ones. *)
Theorem C85_watched : forall xs, lazy_mean xs = fst (mean_set_mean WatchedN (mean_set_run WatchedN (zero WatchedN) (map watch xs))) /\ immediate_mean xs = fst (im_mean WatchedN (imean_set_run WatchedN (zero WatchedN) (map watch xs))) /\
  immediate_variance xs = fst (vs_var WatchedN (var_set_run WatchedN (zero WatchedN) (map watch xs))) /\ lazy_variance_run DoubleN d_zero xs = plain (lazy_variance_run WatchedN (zero WatchedN) (map watch xs)) /\
  error_of_immediate_mean xs = fst (error_of_immediate_mean_run WatchedN w_sqrt (map watch xs)) /\ error_of_mean_run DoubleN d_sqrt xs = plain (error_of_mean_run WatchedN w_sqrt (map watch xs)) /\
  (forall N, moment_run DoubleN N d_zero xs = plain (moment_run WatchedN N (zero WatchedN) (map watch xs))) /\
  skewness_run DoubleN d_sqrt d_zero xs = plain (skewness_run WatchedN w_sqrt (zero WatchedN) (map watch xs)) /\ kurtosis_run DoubleN d_zero xs = plain (kurtosis_run WatchedN (zero WatchedN) (map watch xs)).
Proof. exact watched_plain. Qed.
Print Assumptions C85_watched.
Theorem C85_watched_weighted : forall h, wm_sum DoubleN (wmean_set_run DoubleN d_zero d_zero h) = fst (wm_sum WatchedN (wmean_set_run WatchedN (zero WatchedN) (zero WatchedN) (map watch2 h))) /\
  wmean_set_mean DoubleN (wmean_set_run DoubleN d_zero d_zero h) = fst (wmean_set_mean WatchedN (wmean_set_run WatchedN (zero WatchedN) (zero WatchedN) (map watch2 h))) /\
  fst (weighted_kahan_run DoubleN d_zero h) = fst (fst (weighted_kahan_run WatchedN (zero WatchedN) (map watch2 h))) /\
  wv_mean DoubleN (wvar_set_run DoubleN d_zero d_zero h) = fst (wv_mean WatchedN (wvar_set_run WatchedN (zero WatchedN) (zero WatchedN) (map watch2 h))) /\
  weighted_variance h = fst (wv_var WatchedN (wvar_set_run WatchedN (zero WatchedN) (zero WatchedN) (map watch2 h))) /\
  lazy_weighted_variance_run DoubleN d_zero h = plain (lazy_weighted_variance_run WatchedN (zero WatchedN) (map watch2 h)) /\
  (forall N, weighted_moment_run DoubleN N d_zero h = plain (weighted_moment_run WatchedN N (zero WatchedN) (map watch2 h))) /\
  weighted_skewness_run DoubleN d_sqrt d_zero h = plain (weighted_skewness_run WatchedN w_sqrt (zero WatchedN) (map watch2 h)) /\
  weighted_kurtosis_run DoubleN d_zero h = plain (weighted_kurtosis_run WatchedN (zero WatchedN) (map watch2 h)) /\
  cs_cov DoubleN (cov_set_run DoubleN d_zero d_zero h) = fst (cs_cov WatchedN (cov_set_run WatchedN (zero WatchedN) (zero WatchedN) (map watch2 h))).
Proof. exact watched_weighted. Qed.
Print Assumptions C85_watched_weighted.
Theorem C85_watched_triples : forall h, wc_cov DoubleN (wcov_set_run DoubleN d_zero d_zero d_zero h) = fst (wc_cov WatchedN (wcov_set_run WatchedN (zero WatchedN) (zero WatchedN) (zero WatchedN) (map watch3 h))).
Proof. exact watched_triples. Qed.
Print Assumptions C85_watched_triples.
Theorem C85_watched_rolling : forall N M xs s w, rolling N M xs s -> roll_run WatchedN N M (zero WatchedN) (map watch xs) = Some w ->
  ro_window DoubleN N s = map fst (ro_window WatchedN N w) /\ r_sum s = fst (ro_sum WatchedN w) /\ ro_lazy_mean DoubleN N s = fst (ro_lazy_mean WatchedN N w) /\ r_mean s = fst (ro_mean WatchedN w) /\
  ro_moment DoubleN N s = fst (ro_moment WatchedN N w) /\ ro_lazy_variance DoubleN N s = fst (ro_lazy_variance WatchedN N w) /\
  ro_lazy_variance_lazy_mean DoubleN N s = fst (ro_lazy_variance_lazy_mean WatchedN N w).
Proof. exact watched_rolling. Qed.
Print Assumptions C85_watched_rolling.

(** Means and errors of means scale like the samples, variances like their squares, the N-th moment like their N-th powers;
    skewness and kurtosis stay. *)
Theorem C85_statistics : forall e xs ys, ScaledAll e xs ys ->
  let ws := map watch xs in let vs := map watch ys in
  ScaledIfCalm e (mean_set_mean WatchedN (mean_set_run WatchedN (zero WatchedN) ws)) (mean_set_mean WatchedN (mean_set_run WatchedN (zero WatchedN) vs)) /\
  ScaledIfCalm e (im_mean WatchedN (imean_set_run WatchedN (zero WatchedN) ws)) (im_mean WatchedN (imean_set_run WatchedN (zero WatchedN) vs)) /\
  ScaledIfCalm (e + e) (vs_var WatchedN (var_set_run WatchedN (zero WatchedN) ws)) (vs_var WatchedN (var_set_run WatchedN (zero WatchedN) vs)) /\
  BothScaled (e + e) (lazy_variance_run WatchedN (zero WatchedN) ws) (lazy_variance_run WatchedN (zero WatchedN) vs) /\
  ScaledIfCalm e (error_of_immediate_mean_run WatchedN w_sqrt ws) (error_of_immediate_mean_run WatchedN w_sqrt vs) /\
  BothScaled e (error_of_mean_run WatchedN w_sqrt ws) (error_of_mean_run WatchedN w_sqrt vs) /\
  (forall N, BothScaled (Z.of_nat N * e) (moment_run WatchedN N (zero WatchedN) ws) (moment_run WatchedN N (zero WatchedN) vs)) /\
  BothScaled 0 (skewness_run WatchedN w_sqrt (zero WatchedN) ws) (skewness_run WatchedN w_sqrt (zero WatchedN) vs) /\ BothScaled 0 (kurtosis_run WatchedN (zero WatchedN) ws) (kurtosis_run WatchedN (zero WatchedN) vs).
Proof. exact scale_plain. Qed.
Print Assumptions C85_statistics.
Example C85_statistics_ex : ScaledAll 10 metres units /\
  (forall xs, xs = metres \/ xs = units -> calm (im_mean WatchedN (imean_set_run WatchedN (zero WatchedN) (map watch xs))) /\ calm (vs_var WatchedN (var_set_run WatchedN (zero WatchedN) (map watch xs))) /\
     calm (error_of_immediate_mean_run WatchedN w_sqrt (map watch xs)) /\
     (exists a, skewness_run WatchedN w_sqrt (zero WatchedN) (map watch xs) = Some a /\ calm a) /\ exists a, kurtosis_run WatchedN (zero WatchedN) (map watch xs) = Some a /\ calm a).
Proof. exact plain_case. Qed.
(** Calmness is needed: where squares underflow the variance of the scaled samples is zero. *)
Example C85_underflow_ex : ScaledAll (-600) metres tiny /\ ~ Scaled (-600 + -600) (immediate_variance metres) (immediate_variance tiny) /\
  ~ calm (vs_var WatchedN (var_set_run WatchedN (zero WatchedN) (map watch tiny))).
Proof. exact underflow_case. Qed.

(** The same with weights; scaling the weights changes the weighted sums only. *)
Theorem C85_weighted : forall d e h g, ScaledPairs d e h g ->
  let ws := map watch2 h in let vs := map watch2 g in
  ScaledIfCalm (d + e) (wm_sum WatchedN (wmean_set_run WatchedN (zero WatchedN) (zero WatchedN) ws)) (wm_sum WatchedN (wmean_set_run WatchedN (zero WatchedN) (zero WatchedN) vs)) /\
  ScaledIfCalm d (wmean_set_mean WatchedN (wmean_set_run WatchedN (zero WatchedN) (zero WatchedN) ws)) (wmean_set_mean WatchedN (wmean_set_run WatchedN (zero WatchedN) (zero WatchedN) vs)) /\
  ScaledIfCalm (d + e) (fst (weighted_kahan_run WatchedN (zero WatchedN) ws)) (fst (weighted_kahan_run WatchedN (zero WatchedN) vs)) /\
  ScaledIfCalm d (wv_mean WatchedN (wvar_set_run WatchedN (zero WatchedN) (zero WatchedN) ws)) (wv_mean WatchedN (wvar_set_run WatchedN (zero WatchedN) (zero WatchedN) vs)) /\
  ScaledIfCalm (d + d) (wv_var WatchedN (wvar_set_run WatchedN (zero WatchedN) (zero WatchedN) ws)) (wv_var WatchedN (wvar_set_run WatchedN (zero WatchedN) (zero WatchedN) vs)) /\
  BothScaled (d + d) (lazy_weighted_variance_run WatchedN (zero WatchedN) ws) (lazy_weighted_variance_run WatchedN (zero WatchedN) vs) /\
  (forall N, BothScaled (Z.of_nat N * d) (weighted_moment_run WatchedN N (zero WatchedN) ws) (weighted_moment_run WatchedN N (zero WatchedN) vs)) /\
  BothScaled 0 (weighted_skewness_run WatchedN w_sqrt (zero WatchedN) ws) (weighted_skewness_run WatchedN w_sqrt (zero WatchedN) vs) /\
  BothScaled 0 (weighted_kurtosis_run WatchedN (zero WatchedN) ws) (weighted_kurtosis_run WatchedN (zero WatchedN) vs).
Proof. exact scale_weighted. Qed.
Print Assumptions C85_weighted.
Example C85_weighted_ex : ScaledPairs 10 4 wm wu /\
  forall h, h = wm \/ h = wu -> calm (wmean_set_mean WatchedN (wmean_set_run WatchedN (zero WatchedN) (zero WatchedN) (map watch2 h))) /\ calm (wv_var WatchedN (wvar_set_run WatchedN (zero WatchedN) (zero WatchedN) (map watch2 h))) /\
    calm (cs_cov WatchedN (cov_set_run WatchedN (zero WatchedN) (zero WatchedN) (map watch2 h))).
Proof. exact weighted_case. Qed.

(** Covariances scale like the product of sample and variate, whatever unit the weights have. *)
Theorem C85_covariance : forall d e h g, ScaledPairs d e h g ->
  ScaledIfCalm (e + d) (cs_cov WatchedN (cov_set_run WatchedN (zero WatchedN) (zero WatchedN) (map watch2 h))) (cs_cov WatchedN (cov_set_run WatchedN (zero WatchedN) (zero WatchedN) (map watch2 g))).
Proof. exact scale_covariance. Qed.
Print Assumptions C85_covariance.
Theorem C85_weighted_covariance : forall d t e h g, ScaledTriples d t e h g ->
  ScaledIfCalm (t + d) (wc_cov WatchedN (wcov_set_run WatchedN (zero WatchedN) (zero WatchedN) (zero WatchedN) (map watch3 h))) (wc_cov WatchedN (wcov_set_run WatchedN (zero WatchedN) (zero WatchedN) (zero WatchedN) (map watch3 g))).
Proof. exact scale_wcovariance. Qed.
Print Assumptions C85_weighted_covariance.
Example C85_covariance_ex : ScaledTriples 10 (-5) 4 tm tu /\
  forall h, h = tm \/ h = tu -> calm (wc_cov WatchedN (wcov_set_run WatchedN (zero WatchedN) (zero WatchedN) (zero WatchedN) (map watch3 h))) /\ is_zero (fst (wc_cov WatchedN (wcov_set_run WatchedN (zero WatchedN) (zero WatchedN) (zero WatchedN) (map watch3 h)))) = false.
Proof. exact triples_case. Qed.

(** Rolling windows. *)
Theorem C85_rolling : forall e N M xs ys w v, ScaledAll e xs ys -> roll_run WatchedN N M (zero WatchedN) (map watch xs) = Some w -> roll_run WatchedN N M (zero WatchedN) (map watch ys) = Some v ->
  ScaledAll e (map fst (ro_window WatchedN N w)) (map fst (ro_window WatchedN N v)) /\
  ScaledIfCalm e (ro_sum WatchedN w) (ro_sum WatchedN v) /\ ScaledIfCalm e (ro_lazy_mean WatchedN N w) (ro_lazy_mean WatchedN N v) /\ ScaledIfCalm e (ro_mean WatchedN w) (ro_mean WatchedN v) /\
  ScaledIfCalm (Z.of_nat M * e) (ro_moment WatchedN N w) (ro_moment WatchedN N v) /\ ScaledIfCalm (e + e) (ro_lazy_variance WatchedN N w) (ro_lazy_variance WatchedN N v) /\
  ScaledIfCalm (e + e) (ro_lazy_variance_lazy_mean WatchedN N w) (ro_lazy_variance_lazy_mean WatchedN N v).
Proof. exact scale_rolling. Qed.
Print Assumptions C85_rolling.
Example C85_rolling_ex : forall xs, xs = metres \/ xs = units -> exists w, roll_run WatchedN 2 3 (zero WatchedN) (map watch xs) = Some w /\
  calm (ro_sum WatchedN w) /\ calm (ro_mean WatchedN w) /\ calm (ro_lazy_mean WatchedN 2 w) /\ calm (ro_moment WatchedN 2 w) /\ calm (ro_lazy_variance WatchedN 2 w).
Proof. exact rolling_case. Qed.

(** Tails and extremes, with no condition: the same samples are kept in the same order, at every scale. *)
Theorem C85_tail : forall (V : Type) H lr c nv (dV : V) e h g, Asking H -> ScaledOps e h g ->
  forall s, tail_run H (tail_pred DoubleN lr) (tail_init c nv d_zero dV) h = Ok s ->
  exists t, tail_run H (tail_pred DoubleN lr) (tail_init c nv d_zero dV) g = Ok t /\
    (forall l, tail_result H (tail_pred DoubleN lr) s = Ok l -> exists l', tail_result H (tail_pred DoubleN lr) t = Ok l' /\ ScaledAll e l l') /\
    forall j, tail_variate_result H (tail_pred DoubleN lr) t j = tail_variate_result H (tail_pred DoubleN lr) s j.
Proof. exact scale_tail. Qed.
Print Assumptions C85_tail.
Theorem C85_extremes : forall e xs ys, ScaledAll e xs ys -> xs <> [] -> Scaled e (minimum xs) (minimum ys) /\ Scaled e (maximum xs) (maximum ys).
Proof. exact scale_extremes. Qed.
Print Assumptions C85_extremes.
Example C85_tail_ex : ScaledOps 10 [TPush (dbl 3 0) [tt]; TPush (dbl 1 0) [tt]; TExtract; TPush (dbl 2 0) [tt]] [TPush (dbl 3 10) [tt]; TPush (dbl 1 10) [tt]; TExtract; TPush (dbl 2 10) [tt]] /\
  exists s, tail_run binary_heap (tail_pred DoubleN Left) (tail_init 2 1 d_zero tt) [TPush (dbl 3 0) [tt]; TPush (dbl 1 0) [tt]; TExtract; TPush (dbl 2 0) [tt]] = Ok s /\
    exists l, tail_result binary_heap (tail_pred DoubleN Left) s = Ok l /\ length l = 2%nat.
Proof. exact tail_case. Qed.
