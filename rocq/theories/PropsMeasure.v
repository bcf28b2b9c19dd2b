(** C83: weights are a measure: only the weight given to each value counts. *)
From Coq Require Import List Bool Arith QArith Qcanon.
From Verif Require Import Num ModelBasic ModelTail ModelDensity ModelPSquare SpecStats SpecTail SpecDensity SpecMeasure ProofPSquareEx ProofMeasure ProofMeasureEx.
Import ListNotations.

(** Sums, means, moments, lazy variance, skewness and kurtosis: two histories that give the same weight to every
    value (samples merged, split, reordered, of weight zero) give the same results. *)
Theorem C83_lazy : forall (K : Num), OrderedLaws K -> forall (h g : list (car K * car K)) (sqrt : car K -> car K) (N : nat),
  SameWeights K (same K) h g -> (1 <= N)%nat ->
  wmean_set_run K (zero K) (zero K) h = wmean_set_run K (zero K) (zero K) g /\
  weighted_moment_run K N (zero K) h = weighted_moment_run K N (zero K) g /\
  lazy_weighted_variance_run K (zero K) h = lazy_weighted_variance_run K (zero K) g /\
  weighted_skewness_run K sqrt (zero K) h = weighted_skewness_run K sqrt (zero K) g /\
  weighted_kurtosis_run K (zero K) h = weighted_kurtosis_run K (zero K) g.
Proof. exact same_lazy. Qed.
Print Assumptions C83_lazy.
Example C83_lazy_ex : SameWeights QcN (same QcN) whole parted.
Proof. exact parted_same. Qed.

(** Immediate mean and variance, the covariance; here every prefix must have weight. *)
Theorem C83_immediate : forall (K : Num), OrderedLaws K -> forall h g : list (car K * car K),
  SameWeights K (same K) h g -> h <> [] -> g <> [] -> PrefixWeightsNonzero K h -> PrefixWeightsNonzero K g ->
  wv_mean K (wvar_set_run K (zero K) (zero K) h) = wv_mean K (wvar_set_run K (zero K) (zero K) g) /\
  wv_var K (wvar_set_run K (zero K) (zero K) h) = wv_var K (wvar_set_run K (zero K) (zero K) g).
Proof. exact same_immediate. Qed.
Print Assumptions C83_immediate.
Example C83_immediate_ex : SameWeights QcN (same QcN) whole halved /\ PrefixWeightsNonzero QcN whole /\ PrefixWeightsNonzero QcN halved.
Proof. exact halved_same. Qed.
Theorem C83_covariance : forall (K : Num), OrderedLaws K -> forall h g : list (car K * car K * car K),
  SameWeights K (same_pair K) h g -> h <> [] -> g <> [] -> PrefixWeightsNonzero K h -> PrefixWeightsNonzero K g ->
  wc_cov K (wcov_set_run K (zero K) (zero K) (zero K) h) = wc_cov K (wcov_set_run K (zero K) (zero K) (zero K) g).
Proof. exact same_covariance. Qed.
Print Assumptions C83_covariance.
Example C83_covariance_ex : SameWeights QcN (same_pair QcN) [((q 1, q 2), q 1); ((q 3, q 5), q 2)] [((q 3, q 5), q 2); ((q 1, q 2), q 1)].
Proof. exact same_pair_check. Qed.

(** Histograms, if the cached samples (which place the bins) are the same. *)
Theorem C83_histogram : forall (K : Num), OrderedLaws K ->
  forall (lo hi : car K) (c b : nat) (s0 : car K) (ops ops' : list (dens_op (car K * car K))), let es := dens_pushes ops in let es' := dens_pushes ops' in
  (1 <= c)%nat -> (1 <= b)%nat -> (c <= length es)%nat -> (c <= length es')%nat -> firstn c es = firstn c es' -> SameWeights K (same K) es es' ->
  Forall (fun x => ltb K x lo = false /\ ltb K hi x = false) (map fst es) -> Forall (fun x => ltb K x lo = false /\ ltb K hi x = false) (map fst es') ->
  exists s s', weighted_density_run K lo hi c b s0 ops = Ok s /\ weighted_density_run K lo hi c b s0 ops' = Ok s' /\
    weighted_density_result K s = weighted_density_result K s'.
Proof. exact same_histogram. Qed.
Print Assumptions C83_histogram.
Example C83_histogram_ex : SameWeights QcN (same QcN) first2 first2' /\ firstn 2 first2 = firstn 2 first2' /\
  hist_of 2 first2 = [((-1)%Q, 0%Q); (1%Q, (3#5)%Q); (3%Q, 0%Q); (5%Q, (2#5)%Q)].
Proof. exact histogram_ex. Qed.

(** The tail quantile, for any two cache sizes and orders: two values, if both are values, are equal. *)
Theorem C83_quantile : forall (K : Num), OrderedLaws K -> forall (H : HeapOps), HeapContract H ->
  forall (lr : side) (k k' : nat) (dA dV : car K) (ops ops' : list (tail_op (car K) (car K))) (h g : list (car K * car K)),
  (0 < k)%nat -> (0 < k')%nat -> pushes ops = map (fun e => (fst e, [snd e])) h -> pushes ops' = map (fun e => (fst e, [snd e])) g ->
  SameWeights K (same K) h g -> Forall (fun e => ltb K (snd e) (zero K) = false) h -> Forall (fun e => ltb K (snd e) (zero K) = false) g ->
  forall p v v', ltb K (zero K) (mul K (TotalWeight K h) (TailShare K lr p)) = true ->
    wafter K H lr k dA dV ops (fun tl ws => weighted_tail_quantile_result K lr (TotalWeight K h) tl ws p) = Ok v ->
    wafter K H lr k' dA dV ops' (fun tl ws => weighted_tail_quantile_result K lr (TotalWeight K g) tl ws p) = Ok v' -> v = v'.
Proof. exact same_quantile. Qed.
Print Assumptions C83_quantile.
Example C83_quantile_ex : SameWeights QcN (same QcN) four three /\ wq_of 4 four (q2 2 5) = Ok 2%Q /\ wq_of 3 three (q2 2 5) = Ok 2%Q.
Proof. exact (conj four_three quantile_ex). Qed.

(** Findings: what tells such histories apart.  The cache holds samples, not weight, ... *)
Theorem C83_cache_refuted : SameWeights QcN (same QcN) four three /\ wq_of 2 four (q2 3 5) = NotANumber /\ wq_of 2 three (q2 3 5) = Ok 2%Q.
Proof. exact quantile_differs. Qed.
Print Assumptions C83_cache_refuted.
(** ... the tail mean, even with every sample in the cache, takes whole entries of the history, ... *)
Theorem C83_tail_mean_refuted : SameWeights QcN (same QcN) four three /\ wm_of 4 four (q2 2 5) = Ok (3#2)%Q /\ wm_of 4 three (q2 2 5) = Ok (5#3)%Q.
Proof. exact tail_mean_differs. Qed.
Print Assumptions C83_tail_mean_refuted.
(** ... the bins of a histogram are placed after a number of samples, ... *)
Theorem C83_histogram_refuted : SameWeights QcN (same QcN) four three /\ hist_of 3 four <> hist_of 3 three /\ hist_of 3 four <> [] /\ hist_of 3 three <> [].
Proof. exact histogram_differs. Qed.
Print Assumptions C83_histogram_refuted.
(** ... and so are the markers of the P-square median. *)
Theorem C83_p_square_refuted : SameWeights QcN (same QcN) six seven /\ psq_of six = Ok (11#3)%Q /\ psq_of seven = Ok 3%Q.
Proof. exact psquare_differs. Qed.
Print Assumptions C83_p_square_refuted.
