(** Property theorems C80: weights of one change nothing, to the last bit. *)
From Coq Require Import ZArith List Reals.
From Verif Require Import Num ModelBasic ModelTail ModelDensity ModelDouble ModelDoubleTail SpecStats SpecTail SpecDouble SpecDoubleTail SpecUnitWeights
  ProofDoubleEx ProofDoubleWTail ProofUnitWeightsDouble.
Import ListNotations.

(** Any doubles, NaN, infinities and signed zeros included, any number of them: the two sets report the same double. *)
Theorem C80_sums : forall xs : list double,
  wmean_set_mean DoubleN (wmean_set_run DoubleN d_zero d_zero (unit_weights DoubleN xs)) = mean_set_mean DoubleN (mean_set_run DoubleN d_zero xs) /\
  weighted_kahan_run DoubleN d_zero (unit_weights DoubleN xs) = kahan_run DoubleN d_zero xs /\
  (forall n, weighted_moment_run DoubleN n d_zero (unit_weights DoubleN xs) = moment_run DoubleN n d_zero xs) /\
  lazy_weighted_variance_run DoubleN d_zero (unit_weights DoubleN xs) = lazy_variance_run DoubleN d_zero xs /\
  (forall sqrt, weighted_skewness_run DoubleN sqrt d_zero (unit_weights DoubleN xs) = skewness_run DoubleN sqrt d_zero xs) /\
  weighted_kurtosis_run DoubleN d_zero (unit_weights DoubleN xs) = kurtosis_run DoubleN d_zero xs.
Proof. exact double_units_sums. Qed.
Print Assumptions C80_sums.

(** The immediate mean and the variance, as long as the number of samples is a double. *)
Theorem C80_immediate : forall xs : list double, Countable xs ->
  let s := wvar_set_run DoubleN d_zero d_zero (unit_weights DoubleN xs) in
  wv_mean DoubleN s = im_mean DoubleN (imean_set_run DoubleN d_zero xs) /\ wv_var DoubleN s = vs_var DoubleN (var_set_run DoubleN d_zero xs).
Proof. exact double_units_immediate. Qed.
Print Assumptions C80_immediate.
Example C80_immediate_ex : Countable odd_ones /\ shown_double (wv_var DoubleN (wvar_set_run DoubleN d_zero d_zero (unit_weights DoubleN odd_ones))) = Some (5349536385990657, -43)%Z.
Proof. split; [exact (proj1 odd_ones_ok) | vm_compute; reflexivity]. Qed.

(** The covariance with a variate. *)
Theorem C80_covariance : forall h : list (double * double), Countable h ->
  wc_cov DoubleN (wcov_set_run DoubleN d_zero d_zero d_zero (unit_weights DoubleN h)) = cs_cov DoubleN (cov_set_run DoubleN d_zero d_zero h).
Proof. exact double_units_covariance. Qed.
Print Assumptions C80_covariance.
Example C80_covariance_ex : shown_double (wc_cov DoubleN (wcov_set_run DoubleN d_zero d_zero d_zero (unit_weights DoubleN (combine odd_ones seven)))) = Some (-6484186572870998, -47)%Z.
Proof. vm_compute. reflexivity. Qed.

(** The histogram and all the medians read from it, for every order of pushes and extractions: undefined together, else equal. *)
Theorem C80_histogram : forall (lo hi : double) (c b : nat) (s0 : double),
  (forall ops, alike (fun s s' => weighted_density_result DoubleN s' = density_result DoubleN s)
     (density_run DoubleN lo hi c b s0 ops) (weighted_density_run DoubleN lo hi c b s0 (map (unit_op DoubleN) ops))) /\
  (forall ops, alike (fun s s' => snd s' = snd s)
     (density_median_run DoubleN lo hi c b s0 ops) (weighted_density_median_run DoubleN lo hi c b s0 (map (unit_mop DoubleN) ops))).
Proof. exact double_units_histogram. Qed.
Print Assumptions C80_histogram.
Example C80_histogram_ex : match weighted_density_median_run DoubleN (d_opp d_max) d_max 3 2 d_zero (map (unit_mop DoubleN) (map MPush seven ++ [MExtract])) with
  | Ok s => map shown_double (snd s) | _ => [] end = [Some (4597424619607381, -50)%Z].
Proof. vm_compute. reflexivity. Qed.

(** The tail is the same, its weights are all 1, the tail mean is the same double; so is the tail quantile, unless its
    rank is the number of cached samples: there the unweighted one is NaN and the weighted one is the last cached sample. *)
Theorem C80_tail : forall (H : HeapOps), HeapContract H ->
  forall (lr : side) (k : nat) (dA dV : double) (ops : list (tail_op double double)) (xs : list double),
  (0 < k)%nat -> pushes ops = map (fun x => (x, [])) xs -> ~ nan dA -> Numbers xs -> xs <> [] -> Countable xs ->
  exists s s' tl, let ws := repeat d_one (length tl) in
    tail_run H (tail_pred DoubleN lr) (tail_init k 0 dA dV) ops = Ok s /\ tail_result H (tail_pred DoubleN lr) s = Ok tl /\
    tail_run H (tail_pred DoubleN lr) (tail_init k 1 dA dV) (map (unit_top DoubleN) ops) = Ok s' /\ tail_result H (tail_pred DoubleN lr) s' = Ok tl /\
    tail_variate_result H (tail_pred DoubleN lr) s' 0 = Ok ws /\
  forall p, Probability p -> let n := length xs in let W := wm_W DoubleN (wmean_set_run DoubleN d_zero d_zero (unit_weights DoubleN xs)) in
    non_coherent_weighted_tail_mean_result DoubleN lr W tl ws p = non_coherent_tail_mean_result DoubleN d_ceil lr n tl p /\
    (d_rank lr n p <> length tl -> weighted_tail_quantile_result DoubleN lr W tl ws p = tail_quantile_result DoubleN d_ceil lr n tl p) /\
    (d_rank lr n p = length tl -> tail_quantile_result DoubleN d_ceil lr n tl p = NotANumber /\
       exists v, nth_error tl (length tl - 1) = Some v /\ weighted_tail_quantile_result DoubleN lr W tl ws p = Ok v).
Proof. exact double_units_tail. Qed.
Print Assumptions C80_tail.
Example C80_tail_ex : (0 < 3)%nat /\ pushes (bare_pushes seven) = map (fun x => (x, [])) seven /\ ~ nan d_zero /\ Numbers seven /\ seven <> [] /\ Countable seven /\
  Probability (dbl 1 (-3)) /\ quantile_of Left 3 seven (dbl 1 (-3)) = Ok (Some (4503599627370496, -52)%Z).
Proof. exact seven_ok. Qed.

(** Finding: the two quantiles do differ there.  Of seven samples with a cache of three, the quantile of rank three. *)
Theorem C80_tail_quantile_refuted : Probability third_d /\ quantile_of Left 3 seven third_d = NotANumber /\
  wquantile Left 3 (unit_weights DoubleN seven) third_d = Ok (Some (6755399441055744, -51)%Z).
Proof. exact seven_differs. Qed.
Print Assumptions C80_tail_quantile_refuted.
