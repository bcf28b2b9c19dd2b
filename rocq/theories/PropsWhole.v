(** Property theorems C54: every accumulator of the library, in any set, reports what it reports alone. *)
From Coq Require Import List Bool Arith ZArith QArith Qcanon.
From Verif Require Import Num NumFacts SpecStats SpecDensity SpecPSquare ModelPSquare ModelTail SpecTail ModelPot SpecPot ModelFramework SpecFramework.
From Verif Require Import ModelLibrary ModelSets SpecSets ModelWhole SpecWhole ProofFrameworkEx ProofWhole1 ProofWholeTop ProofSetsTop ProofWholeEx.
From Verif Require Import SpecRolling ModelRollingSets SpecRollingSets ProofWholeRolling ProofWholeMore ProofWholeMoreEx.
Import ListNotations.

(** An estimator that some feature, requested and not dropped, still needs, reports what its code run alone over the
    same samples reports; where it uses another feature, that is the one accumulator of the set that provides the feature. *)
Theorem C54_library : forall K (A : Args K) sqrt, FieldLaws K -> forall enum W fs es t,
  Session K A sqrt enum W fs es t -> estimator t = true ->
  Extracted K A sqrt enum W fs es t
  = VRest (Alone K A (provider (make_tuple Library enum W fs)) (Pushed K A sqrt es) t).
Proof. exact extracted. Qed.
Print Assumptions C54_library.

(** Beside the estimators, the basic statistics keep the answers of C40. *)
Theorem C54_basic : forall (K : Num) (A : Args K) sqrt, FieldLaws K -> forall enum, Enumeration Library enum -> forall W fs v,
  let B := WholeSets K A sqrt in
  let ts := make_tuple Library enum W fs in
  Compiles W ts -> NoRollingClash ts -> OneVariate v ts -> (forall t, In t ts -> order_ok (fst t)) ->
  forall es, SafeDrops fs ts (dropped_tags Library B es) -> WeightsOk K W (samples Library B es) ->
  forall r t, Live Library fs ts (dropped_tags Library B es) r -> Needs Library ts r t ->
  basic (fst t) = true ->
  Answer K sqrt (note K) W v (lfeature (fst t)) (samples Library B es)
    (read Library B (history Library B (construct Library B enum W fs) es) (lfeature (fst t))).
Proof. exact whole_basic. Qed.
Print Assumptions C54_basic.

(** The rolling accumulators report the textbook values over the last N samples. *)
Theorem C54_rolling : forall K, OrderedLaws K -> forall (A : Args K) sqrt enum W fs es t,
  let xs := Pushed K A sqrt es in
  Session K A sqrt enum W fs es t -> rolling t = true -> (forall u, Contains enum W fs u -> rolling_order_ok u) ->
  exists c, Extracted K A sqrt enum W fs es t = VRest (NRoll c) /\ RollingAnswer K (a_window K A) (lfeature t) xs (VRest c).
Proof. exact whole_rolling. Qed.
Print Assumptions C54_rolling.
Example C54_rolling_ex : (forall pw t, In t live5 -> Session QcN (ex_args pw) (fun x => x) in_order false fs5 (es5 pw) t)
  /\ (forall u, Contains in_order false fs5 u -> rolling_order_ok u)
  /\ map got5 live5 = [Some (8#1); Some (13#1); Some (6#1)]%Q.
Proof. exact (conj session5 (conj orders5 got_live5)). Qed.

(** The minimum of the samples. *)
Theorem C54_min : forall K, OrderedLaws K -> forall (A : Args K) sqrt enum W fs es,
  let xs := Pushed K A sqrt es in let ss := samples_of K xs in
  Session K A sqrt enum W fs es t_min -> xs <> [] -> InLimits K A xs ->
  exists m, Extracted K A sqrt enum W fs es t_min = VRest (NNum m) /\ IsMin K ss m.
Proof. exact set_min. Qed.
Print Assumptions C54_min.

(** The maximum of the samples. *)
Theorem C54_max : forall K, OrderedLaws K -> forall (A : Args K) sqrt enum W fs es,
  let xs := Pushed K A sqrt es in let ss := samples_of K xs in
  Session K A sqrt enum W fs es t_max -> xs <> [] -> InLimits K A xs ->
  exists m, Extracted K A sqrt enum W fs es t_max = VRest (NNum m) /\ IsMax K ss m.
Proof. exact set_max. Qed.
Print Assumptions C54_max.

(** The histogram: bins laid over the first samples, the share of all samples in each. *)
Theorem C54_density : forall K, OrderedLaws K -> forall (A : Args K) sqrt enum W fs es,
  let xs := Pushed K A sqrt es in let ss := samples_of K xs in
  Session K A sqrt enum W fs es t_density -> (1 <= a_density_cache K A)%nat -> (1 <= a_density_bins K A)%nat ->
  (a_density_cache K A <= length xs)%nat -> InLimits K A xs ->
  exists h m M, Extracted K A sqrt enum W fs es t_density = VRest (NHist (Ok h)) /\
    IsMin K (firstn (a_density_cache K A) ss) m /\ IsMax K (firstn (a_density_cache K A) ss) M /\
    h = map (fun i => (BinPosition K m M (a_density_bins K A) i,
                       div K (ofnat K (length (filter (InBin K m M (a_density_bins K A) i) ss))) (ofnat K (length ss))))
            (seq 0 (a_density_bins K A + 2)).
Proof. exact set_density. Qed.
Print Assumptions C54_density.

(** The weighted histogram. *)
Theorem C54_weighted_density : forall K, OrderedLaws K -> forall (A : Args K) sqrt enum W fs es,
  let xs := Pushed K A sqrt es in let ss := samples_of K xs in
  Session K A sqrt enum W fs es t_weighted_density -> (1 <= a_density_cache K A)%nat -> (1 <= a_density_bins K A)%nat ->
  (a_density_cache K A <= length xs)%nat -> InLimits K A xs ->
  exists h m M, Extracted K A sqrt enum W fs es t_weighted_density = VRest (NHist (Ok h)) /\
    IsMin K (firstn (a_density_cache K A) ss) m /\ IsMax K (firstn (a_density_cache K A) ss) M /\
    h = map (fun i => (BinPosition K m M (a_density_bins K A) i,
                       div K (TotalWeight K (filter (fun e => InBin K m M (a_density_bins K A) i (fst e)) (weighted_samples K xs)))
                             (TotalWeight K (weighted_samples K xs))))
            (seq 0 (a_density_bins K A + 2)).
Proof. exact set_weighted_density. Qed.
Print Assumptions C54_weighted_density.

(** P-square estimates lie between the least and the greatest sample. *)
Theorem C54_p_square : forall K, OrderedLaws K -> forall (A : Args K) sqrt enum W fs es,
  let xs := Pushed K A sqrt es in let ss := samples_of K xs in
  Session K A sqrt enum W fs es t_p_square_quantile -> (5 <= length xs)%nat ->
  exists q lo hi, Extracted K A sqrt enum W fs es t_p_square_quantile = VRest (NOut (Ok q)) /\ IsMin K ss lo /\ IsMax K ss hi /\ Between K lo q hi.
Proof. exact set_p_square. Qed.
Print Assumptions C54_p_square.

(** The same with positive weights. *)
Theorem C54_weighted_p_square : forall K, OrderedLaws K -> forall (A : Args K) sqrt enum W fs es,
  let xs := Pushed K A sqrt es in let ss := samples_of K xs in
  Session K A sqrt enum W fs es t_weighted_p_square_quantile -> (5 <= length xs)%nat ->
  Forall (fun w => ltb K (zero K) w = true) (weights_of K xs) ->
  exists q lo hi, Extracted K A sqrt enum W fs es t_weighted_p_square_quantile = VRest (NOut (Ok q)) /\ IsMin K ss lo /\ IsMax K ss hi /\ Between K lo q hi.
Proof. exact set_weighted_p_square. Qed.
Print Assumptions C54_weighted_p_square.

(** The default median. *)
Theorem C54_median : forall K, OrderedLaws K -> forall (A : Args K) sqrt enum W fs es,
  let xs := Pushed K A sqrt es in let ss := samples_of K xs in
  Session K A sqrt enum W fs es t_median -> (5 <= length xs)%nat ->
  exists q lo hi, Extracted K A sqrt enum W fs es t_median = VRest (NOut (Ok q)) /\ IsMin K ss lo /\ IsMax K ss hi /\ Between K lo q hi.
Proof. exact set_median. Qed.
Print Assumptions C54_median.

(** Extended P-square: as many estimates as probabilities, in order, between the least and the greatest sample. *)
Theorem C54_extended : forall K, OrderedLaws K -> forall (A : Args K) sqrt enum W fs es,
  let xs := Pushed K A sqrt es in let ss := samples_of K xs in
  Session K A sqrt enum W fs es t_extended_p_square -> (2 * length (a_probabilities K A) + 3 <= length xs)%nat ->
  exists rs lo hi, Extracted K A sqrt enum W fs es t_extended_p_square = VRest (NList (Ok rs)) /\ length rs = length (a_probabilities K A) /\
    NonDecreasing K rs /\ IsMin K ss lo /\ IsMax K ss hi /\ Forall (fun r => Between K lo r hi) rs.
Proof. exact set_extended. Qed.
Print Assumptions C54_extended.

(** The P-square distribution runs from the least sample, at 1/n, to the greatest, at 1. *)
Theorem C54_distribution : forall K, OrderedLaws K -> forall (A : Args K) sqrt enum W fs es,
  let xs := Pushed K A sqrt es in let ss := samples_of K xs in
  Session K A sqrt enum W fs es t_p_square_cumulative_distribution -> (1 <= a_cells K A)%nat -> (a_cells K A < length xs)%nat ->
  exists ps lo hi, Extracted K A sqrt enum W fs es t_p_square_cumulative_distribution = VRest (NHist (Ok ps)) /\
    length ps = (a_cells K A + 1)%nat /\
    IsMin K ss lo /\ IsMax K ss hi /\ nth_error ps 0 = Some (lo, div K (one K) (ofnat K (length xs))) /\
    nth_error ps (a_cells K A) = Some (hi, one K) /\ NonDecreasing K (map fst ps) /\ Increasing K (map snd ps).
Proof. exact set_distribution. Qed.
Print Assumptions C54_distribution.

(** The tail: the most extreme samples, in order. *)
Theorem C54_tail : forall K, OrderedLaws K -> forall (A : Args K) sqrt enum W fs es,
  let xs := Pushed K A sqrt es in let ss := samples_of K xs in
  HeapContract (a_heap K A) -> (0 < a_tail_cache K A)%nat ->
  forall s, Session K A sqrt enum W fs es (t_tail s) ->
  exists ps, Extracted K A sqrt enum W fs es (t_tail s) = VRest (NTail (Ok (map p_sample ps)) (Ok ps)) /\
    IsTail (fun x y => MoreExtreme K (lr_of s) (p_sample x) (p_sample y)) (a_tail_cache K A) xs ps.
Proof. exact set_tail. Qed.
Print Assumptions C54_tail.

(** The tail quantile: the order statistic, or not-a-number when it lies outside the cache. *)
Theorem C54_tail_quantile : forall K, OrderedLaws K -> forall (A : Args K) sqrt enum W fs es,
  let xs := Pushed K A sqrt es in let ss := samples_of K xs in
  HeapContract (a_heap K A) -> (0 < a_tail_cache K A)%nat ->
  CeilSpec K (a_ceil K A) ->
  forall s, Session K A sqrt enum W fs es (t_tail_quantile s) -> Contains enum W fs (t_tail s) ->
  exists q, Extracted K A sqrt enum W fs es (t_tail_quantile s) = VRest (NFun q) /\
  forall p r, Inside01 K p -> IsCeil K (mul K (ofnat K (length xs)) (TailShare K (lr_of s) p)) r ->
    ((r < Nat.min (a_tail_cache K A) (length xs))%nat ->
       exists v, q p = Ok v /\ OrderStat (MoreExtreme K (lr_of s)) ss r v) /\
    ((Nat.min (a_tail_cache K A) (length xs) <= r)%nat -> q p = NotANumber).
Proof. exact set_tail_quantile. Qed.
Print Assumptions C54_tail_quantile.

(** The tail mean: the mean of that many most extreme samples. *)
Theorem C54_tail_mean : forall K, OrderedLaws K -> forall (A : Args K) sqrt enum W fs es,
  let xs := Pushed K A sqrt es in let ss := samples_of K xs in
  HeapContract (a_heap K A) -> (0 < a_tail_cache K A)%nat ->
  CeilSpec K (a_ceil K A) ->
  forall s, Session K A sqrt enum W fs es (t_non_coherent_tail_mean s) -> Contains enum W fs (t_tail s) ->
  exists q, Extracted K A sqrt enum W fs es (t_non_coherent_tail_mean s) = VRest (NFun q) /\
  forall p r, Inside01 K p -> xs <> [] -> IsCeil K (mul K (ofnat K (length xs)) (TailShare K (lr_of s) p)) r ->
    ((r <= Nat.min (a_tail_cache K A) (length xs))%nat ->
       exists a, MostExtreme (MoreExtreme K (lr_of s)) ss r a /\ q p = Ok (Mean K a)) /\
    ((Nat.min (a_tail_cache K A) (length xs) < r)%nat -> q p = NotANumber).
Proof. exact set_tail_mean. Qed.
Print Assumptions C54_tail_mean.

(** The weighted tail quantile: the most extreme samples up to the one at which their weights reach the level. *)
Theorem C54_weighted_tail_quantile : forall K, OrderedLaws K -> forall (A : Args K) sqrt enum W fs es,
  let xs := Pushed K A sqrt es in let ss := samples_of K xs in
  HeapContract (a_heap K A) -> (0 < a_tail_cache K A)%nat ->
  forall s s', Session K A sqrt enum W fs es (t_weighted_tail_quantile s) ->
  Contains enum W fs (t_tail s) -> Contains enum W fs (t_tail_weights s') ->
  exists q, Extracted K A sqrt enum W fs es (t_weighted_tail_quantile s) = VRest (NFun q) /\
  forall p, let thr := mul K (total K (fun w => w) (weights_of K xs)) (TailShare K (lr_of s) p) in ltb K (zero K) thr = true ->
    (exists a v, ReachesAt K (fun x y => MoreExtreme K (lr_of s) (p_sample x) (p_sample y)) p_weight xs thr a v /\
       q p = Ok (p_sample v))
    \/ (q p = NotANumber /\
        exists ps, IsTail (fun x y => MoreExtreme K (lr_of s) (p_sample x) (p_sample y)) (a_tail_cache K A) xs ps /\
          ltb K (total K p_weight ps) thr = true).
Proof. exact set_weighted_tail_quantile. Qed.
Print Assumptions C54_weighted_tail_quantile.

(** The weighted tail mean over those samples. *)
Theorem C54_weighted_tail_mean : forall K, OrderedLaws K -> forall (A : Args K) sqrt enum W fs es,
  let xs := Pushed K A sqrt es in let ss := samples_of K xs in
  HeapContract (a_heap K A) -> (0 < a_tail_cache K A)%nat ->
  forall s s', Session K A sqrt enum W fs es (t_non_coherent_weighted_tail_mean s) ->
  Contains enum W fs (t_tail s) -> Contains enum W fs (t_tail_weights s') ->
  exists q, Extracted K A sqrt enum W fs es (t_non_coherent_weighted_tail_mean s) = VRest (NFun q) /\
  forall p, let thr := mul K (total K (fun w => w) (weights_of K xs)) (TailShare K (lr_of s) p) in ltb K (zero K) thr = true ->
    (exists a v, ReachesAt K (fun x y => MoreExtreme K (lr_of s) (p_sample x) (p_sample y)) p_weight xs thr a v /\
       q p = Ok (div K (total K (fun e => mul K (p_sample e) (p_weight e)) (a ++ [v])) (total K p_weight (a ++ [v]))))
    \/ (q p = NotANumber /\
        exists ps, IsTail (fun x y => MoreExtreme K (lr_of s) (p_sample x) (p_sample y)) (a_tail_cache K A) xs ps /\
          ltb K (total K p_weight ps) thr = true).
Proof. exact set_weighted_tail_mean. Qed.
Print Assumptions C54_weighted_tail_mean.

(** Absolute tail variate means: the means of the coordinates of a covariate over the most extreme calls. *)
Theorem C54_variate_means : forall K, OrderedLaws K -> forall (A : Args K) sqrt enum W fs es,
  let xs := Pushed K A sqrt es in let ss := samples_of K xs in
  HeapContract (a_heap K A) -> (0 < a_tail_cache K A)%nat ->
  CeilSpec K (a_ceil K A) ->
  forall s s' v d, Session K A sqrt enum W fs es (t_absolute_tail_variate_means s v) ->
  Contains enum W fs (t_tail s) -> Contains enum W fs (t_tail_variate s' v) -> Contains enum W fs (t_non_coherent_tail_mean s) ->
  Forall (fun p => length (p_vector p v) = d) xs ->
  exists q, Extracted K A sqrt enum W fs es (t_absolute_tail_variate_means s v) = VRest (NVFun q) /\
  forall p r, Inside01 K p -> IsCeil K (mul K (ofnat K (length xs)) (TailShare K (lr_of s) p)) r ->
    (r < Nat.min (a_tail_cache K A) (length xs))%nat ->
    exists a ms, MostExtreme (fun x y => MoreExtreme K (lr_of s) (p_sample x) (p_sample y)) xs r a /\
      q p = Ok ms /\ length ms = d /\
      forall i, (i < d)%nat -> nth i ms (zero K) = average K (fun e => nth i (p_vector e v) (zero K)) a.
Proof. exact set_variate_means. Qed.
Print Assumptions C54_variate_means.

(** Peaks over threshold: the parameters fitted to the samples beyond the threshold. *)
Theorem C54_pot : forall K, OrderedLaws K -> forall (A : Args K) sqrt enum W fs es,
  let xs := Pushed K A sqrt es in let ss := samples_of K xs in
  forall s, Session K A sqrt enum W fs es (t_peaks_over_threshold s) ->
  let ys := Exceedances K (lr_of s) (a_threshold K A) ss in
  let fit := PotParameters K (a_pow K A) (Mean K ys) (Variance K ys) (Mirror K (lr_of s) (a_threshold K A))
               (div K (ofnat K (length ys)) (ofnat K (length ss))) in
  ys <> [] -> Variance K ys <> zero K -> Xi K (Mean K ys) (Variance K ys) (Mirror K (lr_of s) (a_threshold K A)) <> zero K ->
  Extracted K A sqrt enum W fs es (t_peaks_over_threshold s) = VRest (NFit (Ok fit)).
Proof. exact set_pot. Qed.
Print Assumptions C54_pot.

(** The quantile of that fit. *)
Theorem C54_pot_quantile : forall K, OrderedLaws K -> forall (A : Args K) sqrt enum W fs es,
  let xs := Pushed K A sqrt es in let ss := samples_of K xs in
  forall s, Session K A sqrt enum W fs es (t_pot_quantile s) -> Contains enum W fs (t_peaks_over_threshold s) ->
  let ys := Exceedances K (lr_of s) (a_threshold K A) ss in
  let fit := PotParameters K (a_pow K A) (Mean K ys) (Variance K ys) (Mirror K (lr_of s) (a_threshold K A))
               (div K (ofnat K (length ys)) (ofnat K (length ss))) in
  ys <> [] -> Variance K ys <> zero K -> Xi K (Mean K ys) (Variance K ys) (Mirror K (lr_of s) (a_threshold K A)) <> zero K ->
  exists q, Extracted K A sqrt enum W fs es (t_pot_quantile s) = VRest (NFun q) /\
  forall p, q p = Ok (pot_quantile_result K (a_pow K A) (lr_of s) fit p).
Proof. exact set_pot_quantile. Qed.
Print Assumptions C54_pot_quantile.

(** The tail mean of that fit, when the quantile of the set is the fit's. *)
Theorem C54_pot_tail_mean : forall K, OrderedLaws K -> forall (A : Args K) sqrt enum W fs es,
  let xs := Pushed K A sqrt es in let ss := samples_of K xs in
  forall s, Session K A sqrt enum W fs es (t_pot_tail_mean s) ->
  Contains enum W fs (t_peaks_over_threshold s) -> Contains enum W fs (t_pot_quantile s) ->
  let ys := Exceedances K (lr_of s) (a_threshold K A) ss in
  let fit := PotParameters K (a_pow K A) (Mean K ys) (Variance K ys) (Mirror K (lr_of s) (a_threshold K A))
               (div K (ofnat K (length ys)) (ofnat K (length ss))) in
  ys <> [] -> Variance K ys <> zero K -> Xi K (Mean K ys) (Variance K ys) (Mirror K (lr_of s) (a_threshold K A)) <> zero K ->
  snd fit <> one K ->
  exists q, Extracted K A sqrt enum W fs es (t_pot_tail_mean s) = VRest (NFun q) /\
  forall p, q p = Ok (pot_tail_mean_result K (a_pow K A) (lr_of s) fit p).
Proof. exact set_pot_tail_mean. Qed.
Print Assumptions C54_pot_tail_mean.

(** The weighted median lies between the minimum and the maximum. *)
Theorem C54_weighted_median : forall K, OrderedLaws K -> forall (A : Args K) sqrt enum W fs es,
  let xs := Pushed K A sqrt es in let ss := samples_of K xs in
  Session K A sqrt enum W fs es t_weighted_median -> (5 <= length xs)%nat -> Forall (fun w => ltb K (zero K) w = true) (weights_of K xs) ->
  exists q lo hi, Extracted K A sqrt enum W fs es t_weighted_median = VRest (NOut (Ok q)) /\ IsMin K ss lo /\ IsMax K ss hi /\ Between K lo q hi.
Proof. exact set_weighted_median. Qed.
Print Assumptions C54_weighted_median.

(** The weighted extended P-square quantiles are ordered and lie between the minimum and the maximum. *)
Theorem C54_weighted_extended : forall K, OrderedLaws K -> forall (A : Args K) sqrt enum W fs es,
  let xs := Pushed K A sqrt es in let ss := samples_of K xs in
  Session K A sqrt enum W fs es t_weighted_extended_p_square -> a_probabilities K A <> [] ->
  (2 * length (a_probabilities K A) + 3 <= length xs)%nat -> Forall (fun w => ltb K (zero K) w = true) (weights_of K xs) ->
  exists rs lo hi, Extracted K A sqrt enum W fs es t_weighted_extended_p_square = VRest (NList (Ok rs)) /\ length rs = length (a_probabilities K A) /\
    NonDecreasing K rs /\ IsMin K ss lo /\ IsMax K ss hi /\ Forall (fun r => Between K lo r hi) rs.
Proof. exact set_weighted_extended. Qed.
Print Assumptions C54_weighted_extended.

(** The weighted cumulative distribution; the weights of the first samples other than the largest are missing (C34). *)
Theorem C54_weighted_distribution : forall K, OrderedLaws K -> forall (A : Args K) sqrt enum W fs es,
  let xs := Pushed K A sqrt es in let ss := samples_of K xs in let ws := weighted_samples K xs in
  Session K A sqrt enum W fs es t_weighted_p_square_cumulative_distribution ->
  (1 <= a_cells K A)%nat -> (a_cells K A < length xs)%nat -> Forall (fun w => ltb K (zero K) w = true) (weights_of K xs) ->
  let b := a_cells K A in
  exists ps, Extracted K A sqrt enum W fs es t_weighted_p_square_cumulative_distribution = VRest (NHist (Ok ps)) /\
    MarkerHeights K (b + 1) ss (map fst ps) /\ Increasing K (firstn b (map snd ps)) /\
    Forall (fun y => ltb K (zero K) y = true /\ ltb K (one K) y = false) (map snd ps) /\
    exists v w, In (v, w) (firstn (b + 1) ws) /\ IsMax K (firstn (b + 1) ss) v /\
      nth_error (map snd ps) b = Some (sub K (one K) (div K (sub K (TotalWeight K (firstn (b + 1) ws)) w) (TotalWeight K ws))).
Proof. exact set_weighted_distribution. Qed.
Print Assumptions C54_weighted_distribution.

(** The interpolated quantile is not a number outside the probabilities and increases inside. *)
Theorem C54_extended_quantile : forall K, OrderedLaws K -> forall (A : Args K) sqrt enum W fs es,
  let xs := Pushed K A sqrt es in
  Session K A sqrt enum W fs es t_extended_p_square_quantile -> Contains enum W fs t_extended_p_square ->
  forall first last, let probs := a_probabilities K A in
  Increasing K probs -> nth_error probs 0 = Some first -> nth_error probs (length probs - 1) = Some last ->
  (2 * length probs + 3 <= length xs)%nat ->
  exists q, Extracted K A sqrt enum W fs es t_extended_p_square_quantile = VRest (NFun q) /\
    (forall p, ltb K p first = true \/ ltb K last p = true -> q p = NotANumber) /\
    (forall p p', ltb K p first = false -> ltb K p' p = false -> ltb K last p' = false ->
       exists v v', q p = Ok v /\ q p' = Ok v' /\ ltb K v' v = false).
Proof. exact set_extended_quantile. Qed.
Print Assumptions C54_extended_quantile.

(** The median from the histogram of the set. *)
Theorem C54_density_median : forall K, OrderedLaws K -> forall (A : Args K) sqrt enum W fs es,
  let xs := Pushed K A sqrt es in
  Session K A sqrt enum W fs es t_with_density_median -> Contains enum W fs t_density ->
  (1 <= a_density_cache K A)%nat -> (1 <= a_density_bins K A)%nat -> (a_density_cache K A <= length xs)%nat -> InLimits K A xs ->
  exists h, Extracted K A sqrt enum W fs es t_density = VRest (NHist (Ok h)) /\ HistogramMedian K h (Extracted K A sqrt enum W fs es t_with_density_median).
Proof. exact set_density_median. Qed.
Print Assumptions C54_density_median.

(** The weighted median from the weighted histogram of the set. *)
Theorem C54_weighted_density_median : forall K, OrderedLaws K -> forall (A : Args K) sqrt enum W fs es,
  let xs := Pushed K A sqrt es in
  Session K A sqrt enum W fs es t_with_density_weighted_median -> Contains enum W fs t_weighted_density ->
  (1 <= a_density_cache K A)%nat -> (1 <= a_density_bins K A)%nat -> (a_density_cache K A <= length xs)%nat -> InLimits K A xs ->
  (total K (fun w => w) (weights_of K xs)) <> zero K ->
  exists h, Extracted K A sqrt enum W fs es t_weighted_density = VRest (NHist (Ok h)) /\ HistogramMedian K h (Extracted K A sqrt enum W fs es t_with_density_weighted_median).
Proof. exact set_weighted_density_median. Qed.
Print Assumptions C54_weighted_density_median.

(** The median from the cumulative distribution of the set: between the two entries after the one at which one half is passed. *)
Theorem C54_distribution_median : forall K, OrderedLaws K -> forall (A : Args K) sqrt enum W fs es,
  let xs := Pushed K A sqrt es in
  Session K A sqrt enum W fs es t_with_p_square_cumulative_distribution_median -> Contains enum W fs t_p_square_cumulative_distribution ->
  (1 <= a_cells K A)%nat -> (a_cells K A < length xs)%nat -> (3 <= length xs)%nat ->
  exists ps i x0 y0 x1 y1, Extracted K A sqrt enum W fs es t_p_square_cumulative_distribution = VRest (NHist (Ok ps)) /\ (i < a_cells K A)%nat /\
    nth_error ps i = Some (x0, y0) /\ nth_error ps (S i) = Some (x1, y1) /\
    ltb K y0 (div K (one K) (add K (one K) (one K))) = true /\ ltb K y1 (div K (one K) (add K (one K) (one K))) = false /\
    (S i = a_cells K A -> Extracted K A sqrt enum W fs es t_with_p_square_cumulative_distribution_median = VRest (NOut UB)) /\
    ((S i < a_cells K A)%nat -> exists m x2 y2, nth_error ps (S (S i)) = Some (x2, y2) /\
       Extracted K A sqrt enum W fs es t_with_p_square_cumulative_distribution_median = VRest (NOut (Ok m)) /\ Between K x1 m x2).
Proof. exact set_distribution_median. Qed.
Print Assumptions C54_distribution_median.

(** The coherent tail mean, from the mean of the r most extreme samples and the r-th most extreme one. *)
Theorem C54_coherent_tail_mean : forall K, OrderedLaws K -> forall (A : Args K) sqrt enum W fs es,
  let xs := Pushed K A sqrt es in let ss := samples_of K xs in
  HeapContract (a_heap K A) -> (0 < a_tail_cache K A)%nat -> CeilSpec K (a_ceil K A) -> 
  forall s, Session K A sqrt enum W fs es (t_coherent_tail_mean s) -> Contains enum W fs (t_tail s) ->
  Contains enum W fs (t_non_coherent_tail_mean s) -> Contains enum W fs (t_tail_quantile s) ->
  exists q, Extracted K A sqrt enum W fs es (t_coherent_tail_mean s) = VRest (NFun q) /\
  forall p r, Inside01 K p -> IsCeil K (mul K (ofnat K (length xs)) (TailShare K (lr_of s) p)) r ->
    (r < Nat.min (a_tail_cache K A) (length xs))%nat ->
    exists a v, MostExtreme (MoreExtreme K (lr_of s)) ss r a /\ OrderStat (MoreExtreme K (lr_of s)) ss r v /\
      q p = Ok (add K (Mean K a)
                  (mul K (div K v (ofnat K r))
                     (match lr_of s with
                      | Left => p
                      | Right => sub K (sub K (one K) p) (div K (ofnat K r) (ofnat K (length xs)))
                      end))).
Proof. exact set_coherent. Qed.
Print Assumptions C54_coherent_tail_mean.

(** Relative tail variate means: the totals of the coordinates over the r most extreme calls, by the total of their samples. *)
Theorem C54_relative_variate_means : forall K, OrderedLaws K -> forall (A : Args K) sqrt enum W fs es,
  let xs := Pushed K A sqrt es in
  HeapContract (a_heap K A) -> (0 < a_tail_cache K A)%nat -> CeilSpec K (a_ceil K A) -> 
  forall s s' v d, Session K A sqrt enum W fs es (t_relative_tail_variate_means s v) -> Contains enum W fs (t_tail s) ->
  Contains enum W fs (t_tail_variate s' v) -> Contains enum W fs (t_non_coherent_tail_mean s) ->
  Forall (fun p => length (p_vector p v) = d) xs ->
  exists q, Extracted K A sqrt enum W fs es (t_relative_tail_variate_means s v) = VRest (NVFun q) /\
  forall p r, Inside01 K p -> IsCeil K (mul K (ofnat K (length xs)) (TailShare K (lr_of s) p)) r ->
    (r < Nat.min (a_tail_cache K A) (length xs))%nat ->
    exists a, MostExtreme (fun x y => MoreExtreme K (lr_of s) (p_sample x) (p_sample y)) xs r a /\
      (total K p_sample a <> zero K ->
       exists ms, q p = Ok ms /\ length ms = d /\
         forall i, (i < d)%nat ->
           nth i ms (zero K) = div K (total K (fun e => nth i (p_vector e v) (zero K)) a) (total K p_sample a)).
Proof. exact set_relative_means. Qed.
Print Assumptions C54_relative_variate_means.

(** Weighted tail variate means: a then l are the most extreme calls, l the first at which their weights reach the level; if they never do, no number of steps ends the extraction. *)
Theorem C54_weighted_variate_means : forall K, OrderedLaws K -> forall (A : Args K) sqrt enum W fs es,
  let xs := Pushed K A sqrt es in
  HeapContract (a_heap K A) -> (0 < a_tail_cache K A)%nat -> 
  forall (rel : bool) s s' s'' v d,
  let t := if rel then t_relative_weighted_tail_variate_means s v else t_absolute_weighted_tail_variate_means s v in
  Session K A sqrt enum W fs es t -> Contains enum W fs (t_tail s) -> Contains enum W fs (t_tail_variate s' v) -> Contains enum W fs (t_tail_weights s'') -> Contains enum W fs (t_non_coherent_weighted_tail_mean s) ->
  Forall (fun p => length (p_vector p v) = d) xs ->
  exists q, Extracted K A sqrt enum W fs es t = VRest (NLoop q) /\
  forall p, let thr := mul K (total K (fun w => w) (weights_of K xs)) (TailShare K (lr_of s) p) in ltb K (zero K) thr = true ->
    (exists a l, ReachesAt K (fun x y => MoreExtreme K (lr_of s) (p_sample x) (p_sample y)) p_weight xs thr a l /\
       let moment := total K (fun e => mul K (p_sample e) (p_weight e)) (a ++ [l]) in
       ((rel = true -> moment <> zero K) ->
        exists ms, (exists enough, forall fuel, (enough <= fuel)%nat -> q fuel p = Some (Ok ms)) /\ length ms = d /\
          forall i, (i < d)%nat ->
            nth i ms (zero K) = div K (total K (fun e => mul K (nth i (p_vector e v) (zero K)) (p_weight e)) (a ++ [l]))
                                  (if rel then moment else total K p_weight (a ++ [l]))))
    \/ ((exists ps, IsTail (fun x y => MoreExtreme K (lr_of s) (p_sample x) (p_sample y)) (a_tail_cache K A) xs ps /\ forall a b, ps = a ++ b -> ltb K (total K p_weight a) thr = true) /\
        forall fuel, q fuel p = None).
Proof. exact set_weighted_variate_means. Qed.
Print Assumptions C54_weighted_variate_means.

(** A quantile of peaks over threshold is that of the fit the set reports. *)
Theorem C54_fit_quantile : forall K, OrderedLaws K -> forall (A : Args K) sqrt enum W fs es,
  forall f q m s fit, Fitted f q m s -> Session K A sqrt enum W fs es q -> Contains enum W fs f -> Extracted K A sqrt enum W fs es f = VRest (NFit fit) ->
  exists g, Extracted K A sqrt enum W fs es q = VRest (NFun g) /\ forall p, g p = obnd fit (fun f => Ok (pot_quantile_result K (a_pow K A) (lr_of s) f p)).
Proof. exact set_fit_quantile. Qed.
Print Assumptions C54_fit_quantile.

(** A tail mean of peaks over threshold is that of the fit the set reports, if the set takes its quantile from the same fit. *)
Theorem C54_fit_tail_mean : forall K, OrderedLaws K -> forall (A : Args K) sqrt enum W fs es,
  forall f q m s fit, Fitted f q m s -> Session K A sqrt enum W fs es m -> Contains enum W fs f -> Contains enum W fs q -> Extracted K A sqrt enum W fs es f = VRest (NFit (Ok fit)) ->
  snd fit <> one K ->
  exists g, Extracted K A sqrt enum W fs es m = VRest (NFun g) /\ forall p, g p = Ok (pot_tail_mean_result K (a_pow K A) (lr_of s) fit p).
Proof. exact set_fit_mean. Qed.
Print Assumptions C54_fit_tail_mean.

(** Weighted peaks over threshold. *)
Theorem C54_weighted_pot : forall K, OrderedLaws K -> forall (A : Args K) sqrt enum W fs es,
  let xs := Pushed K A sqrt es in let ws := weighted_samples K xs in
  forall s, Session K A sqrt enum W fs es (t_weighted_peaks_over_threshold s) ->
  let u := Mirror K (lr_of s) (a_threshold K A) in
  let ys := WExceedances K (lr_of s) (a_threshold K A) ws in
  TotalWeight K ws <> zero K -> TotalWeight K ys <> zero K -> WVariance K ys <> zero K ->
  Xi K (WMean K ys) (WVariance K ys) u <> zero K ->
  Extracted K A sqrt enum W fs es (t_weighted_peaks_over_threshold s) =
    VRest (NFit (Ok (PotParameters K (a_pow K A) (WMean K ys) (WVariance K ys) u (div K (TotalWeight K ys) (TotalWeight K ws))))).
Proof. exact set_weighted_pot. Qed.
Print Assumptions C54_weighted_pot.

(** Peaks over a threshold given by a probability. *)
Theorem C54_pot_prob : forall K, OrderedLaws K -> forall (A : Args K) sqrt enum W fs es,
  let xs := Pushed K A sqrt es in let ss := samples_of K xs in
  HeapContract (a_heap K A) -> (0 < a_tail_cache K A)%nat -> CeilSpec K (a_ceil K A) -> 
  forall s, Session K A sqrt enum W fs es (t_peaks_over_threshold_prob s) -> Contains enum W fs (t_tail s) ->
  let p := a_threshold_probability K A in
  forall r, Inside01 K p -> IsCeil K (mul K (ofnat K (length xs)) (TailShare K (lr_of s) p)) r ->
    ((r < Nat.min (a_tail_cache K A) (length xs))%nat ->
       exists a v, MostExtreme (MoreExtreme K (lr_of s)) ss r a /\ OrderStat (MoreExtreme K (lr_of s)) ss r v /\
         let ys := map (Mirror K (lr_of s)) a in
         let u := Mirror K (lr_of s) v in
         (Variance K ys <> zero K -> Xi K (Mean K ys) (Variance K ys) u <> zero K ->
          Extracted K A sqrt enum W fs es (t_peaks_over_threshold_prob s) =
            VRest (NFit (Ok (PotParameters K (a_pow K A) (Mean K ys) (Variance K ys) u (TailShare K (lr_of s) p)))))) /\
    ((Nat.min (a_tail_cache K A) (length xs) <= r)%nat -> Extracted K A sqrt enum W fs es (t_peaks_over_threshold_prob s) = VRest (NFit NotANumber)).
Proof. exact set_pot_prob. Qed.
Print Assumptions C54_pot_prob.

(** Weighted peaks over a threshold given by a probability. *)
Theorem C54_weighted_pot_prob : forall K, OrderedLaws K -> forall (A : Args K) sqrt enum W fs es,
  let xs := Pushed K A sqrt es in let ws := weighted_samples K xs in
  HeapContract (a_heap K A) -> (0 < a_tail_cache K A)%nat -> 
  forall s s', Session K A sqrt enum W fs es (t_weighted_peaks_over_threshold_prob s) -> Contains enum W fs (t_tail s) -> Contains enum W fs (t_tail_weights s') ->
  let p := a_threshold_probability K A in
  let thr := mul K (TotalWeight K ws) (TailShare K (lr_of s) p) in ltb K (zero K) thr = true ->
    (exists a v, ReachesAt K (fun x y => MoreExtreme K (lr_of s) (fst x) (fst y)) snd ws thr a v /\
       let ys := map (fun e => (Mirror K (lr_of s) (fst e), snd e)) (a ++ [v]) in
       let u := Mirror K (lr_of s) (fst v) in
       (WVariance K ys <> zero K -> Xi K (WMean K ys) (WVariance K ys) u <> zero K ->
        Extracted K A sqrt enum W fs es (t_weighted_peaks_over_threshold_prob s) =
          VRest (NFit (Ok (PotParameters K (a_pow K A) (WMean K ys) (WVariance K ys) u (TailShare K (lr_of s) p))))))
    \/ (Extracted K A sqrt enum W fs es (t_weighted_peaks_over_threshold_prob s) = VRest (NFit NotANumber) /\
        exists tl, IsTail (fun x y => MoreExtreme K (lr_of s) (fst x) (fst y)) (a_tail_cache K A) ws tl /\ ltb K (TotalWeight K tl) thr = true).
Proof. exact set_weighted_pot_prob. Qed.
Print Assumptions C54_weighted_pot_prob.

(** Adding a feature can change another one: stats<pot_tail_mean<right> > and stats<pot_tail_mean<right>,
    tail_quantile<right> > report different tail means of the same samples, whatever pow computes, because the
    tail mean of the fit builds on the only quantile of the set. *)
Theorem C54_quantile_refuted : exists fs fs' p, forall pw : Qc -> Qc -> Qc, exists es q q' v v',
  let A := ex_args pw in
  incl fs fs' /\
  Session QcN A (fun x => x) (fun m => m) false fs es (t_pot_tail_mean on_right) /\
  Session QcN A (fun x => x) (fun m => m) false fs' es (t_pot_tail_mean on_right) /\
  Extracted QcN A (fun x => x) (fun m => m) false fs es (t_pot_tail_mean on_right) = VRest (NFun q) /\
  Extracted QcN A (fun x => x) (fun m => m) false fs' es (t_pot_tail_mean on_right) = VRest (NFun q') /\
  q p = Ok v /\ q' p = Ok v' /\ v <> v'.
Proof. exact quantile_changes. Qed.
Print Assumptions C54_quantile_refuted.

(** A set of estimators that meets the hypotheses, with a drop in its history, and what it reports. *)
Example C54_ex : (forall pw t, In t live3 -> Session QcN (ex_args pw) (fun x => x) in_order false fs3 (es3 pw) t)
  /\ map got live3 =
  [Ok [6#1]; Ok [-2#1]; Ok [3#1]; Ok [3#1]; Ok [2#1; 4#1]; Ok [-2#1; 1#7; 3#1; 3#7; 4#1; 5#7; 6#1; 1#1]; Ok [5#1]; Ok [11#2];
   Ok []; Ok [-39#56; 39#5; -8#5]; Ok [304#49]; Ok [6#1; 5#1; 4#1; 3#1]]%Q.
Proof. exact (conj session3 got_live3). Qed.
(** A weighted set. *)
Example C54_weighted_ex : (forall pw t, In t live4 -> Session QcN (ex_args pw) (fun x => x) in_order true fs4 (es4 pw) t)
  /\ map got4 live4 = [Ok [-1#2; 3#10; 1#1; 1#5; 5#2; 1#5; 4#1; 3#10]; Ok [3#1]; Ok [1#1]; Ok [-4#5]]%Q.
Proof. exact (conj session4 got_live4). Qed.
(** The pot tail mean of the refutation, alone in its set, is defined. *)
Example C54_pot_ex : forall pw, Session QcN (ex_args pw) (fun x => x) in_order false fs1 (ex_hist pw) (t_pot_tail_mean on_right)
  /\ Variance QcN ex_ys <> zero QcN /\ Xi QcN (Mean QcN ex_ys) (Variance QcN ex_ys) (qz 0) <> zero QcN
  /\ Exceedances QcN Right (qz 0) (map qz ex_zs) = ex_ys.
Proof. exact (fun pw => conj (session1 pw (ex_hist pw) (hist_drops pw)) (conj ys_var (conj ys_xi ys_exceed))). Qed.
(** The other estimators: four sets over one history. *)
Example C54_more_ex : (forall pw t, In t live6 -> Session QcN (ex_args pw) (fun x => x) in_order false fs6 (es6 pw) t)
  /\ (forall t, In (t, false) ts6 -> Contains in_order false fs6 t)
  /\ map (got6 false fs6 (1 # 4)) live6 = [Ok [9#2]; Ok [2#1]; Ok [4#1; 2#1]; Ok [223#16; 85#208; 1#52]]%Q.
Proof. exact (conj session6 (conj contains6 got_live6)). Qed.
Example C54_coherent_ex : (forall pw t, In t live7 -> Session QcN (ex_args pw) (fun x => x) in_order false fs7 (es6 pw) t)
  /\ (forall t, In (t, false) ts7 -> Contains in_order false fs7 t)
  /\ map (got6 false fs7 (1 # 4)) live7 = [Ok [53#8]; Ok [2#1]; Ok [1#2]]%Q.
Proof. exact (conj session7 (conj contains7 got_live7)). Qed.
Example C54_weighted_more_ex : (forall pw t, In t live8 -> Session QcN (ex_args pw) (fun x => x) in_order true fs8 (es6 pw) t)
  /\ (forall t, In (t, false) ts8 -> Contains in_order true fs8 t)
  /\ map (got6 true fs8 (1 # 2)) live8 =
  [Ok [23#8]; Ok [71#54; 3967#1296]; Ok [-2#1; 1#13; -3#2; 2#13; 49#16; 5#13; 8#1; 8#13]; Ok [1365385#245726]; Ok [16#7; 18#7]]%Q.
Proof. exact (conj session8 (conj contains8 got_live8)). Qed.
Example C54_weighted_prob_ex : (forall pw t, In t live9 -> Session QcN (ex_args pw) (fun x => x) in_order true fs9 (es6 pw) t)
  /\ (forall t, In (t, false) ts9 -> Contains in_order true fs9 t)
  /\ map (got6 true fs9 (1 # 4)) live9 = [Ok [17#4]; Ok [61#64]; Ok [5#1; 2#1]]%Q.
Proof. exact (conj session9 (conj contains9 got_live9)). Qed.
