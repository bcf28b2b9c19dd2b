(** What every accumulator of the library reports in a set: what the stand-alone models of
    ModelMinMax, ModelDensity, ModelPSquare, ModelTail and ModelPot (about which C04, C18-C37 and C49 are
    proved) report after the same samples. *)

From Coq Require Import List Bool Arith.
From Verif Require Import Num SpecStats SpecDensity ModelMinMax ModelDensity ModelPSquare ModelTail ModelPot.
From Verif Require Import ModelFramework SpecFramework ModelLibrary ModelSets SpecSets ModelRollingSets ModelWhole.
Import ListNotations.

(** The accumulator of the set that provides a feature. *)
Definition provider (ts : list (ftag Library)) (f : ltag) : ltag :=
  match List.find (fun t => ltag_eqb (lfeature (fst t)) f) ts with
  | Some t => fst t
  | None => f
  end.

(** The accumulators that are neither basic nor rolling. *)
Definition estimator (t : ltag) : bool := negb (basic t) && negb (rolling t).

Section Alone.
Variable K : Num.
Variable A : Args K.
Local Notation T := (car K).
Local Notation lo := (a_lowest K A).
Local Notation hi := (a_highest K A).
Local Notation probs := (a_probabilities K A).
Local Notation cells := (a_cells K A).
Local Notation H := (a_heap K A).
Local Notation ceil := (a_ceil K A).
Local Notation pw := (a_pow K A).
Local Notation z := (zero K).

(** Which accumulator provides a feature. *)
Variable prov : ltag -> ltag.
(** The samples so far. *)
Variable xs : list (pack K).
Local Notation ss := (samples_of K xs).
Local Notation ws := (weighted_samples K xs).
Local Notation n := (length xs).
Local Notation W := (total K (fun w => w) (weights_of K xs)).

(** The histogram of a density. *)
Definition Hist (t : ltag) : outcome (list (T * T)) :=
  match t with
  | t_density =>
      obnd (density_run K lo hi (a_density_cache K A) (a_density_bins K A) z (map DPush ss))
           (fun d => Ok (density_result K d))
  | t_weighted_density =>
      obnd (weighted_density_run K lo hi (a_density_cache K A) (a_density_bins K A) z (map DPush ws))
           (fun d => Ok (weighted_density_result K d))
  | _ => UB
  end.

(** A P-square quantile. *)
Definition PQuantile (t : ltag) : outcome T :=
  match t with
  | t_p_square_quantile => obnd (pq_run K (a_probability K A) ss) (pq_result K)
  | t_p_square_quantile_for_median => obnd (pq_run K (half K) ss) (pq_result K)
  | t_weighted_p_square_quantile => obnd (wpq_run K (a_probability K A) ws) (pq_result K)
  | t_weighted_p_square_quantile_for_median => obnd (wpq_run K (half K) ws) (pq_result K)
  | _ => UB
  end.

(** A P-square distribution. *)
Definition Dist (t : ltag) : outcome (list (T * T)) :=
  match t with
  | t_p_square_cumulative_distribution => obnd (cd_run K cells ss) (fun s => Ok (cd_pairs K s))
  | t_weighted_p_square_cumulative_distribution => obnd (wcd_run K cells ws) (fun s => Ok (wcd_pairs K s))
  | _ => UB
  end.

(** The extended P-square quantiles. *)
Definition Extended (t : ltag) : outcome (list T) :=
  match t with
  | t_extended_p_square => obnd (ext_run K probs ss) (ext_result K probs)
  | t_weighted_extended_p_square => obnd (wext_run K probs ws) (ext_result K probs)
  | _ => UB
  end.

Definition Median (t : ltag) : outcome T :=
  match t with
  | t_median => PQuantile t_p_square_quantile_for_median
  | t_weighted_median => PQuantile t_weighted_p_square_quantile_for_median
  | t_with_density_median | t_with_density_weighted_median =>
      obnd (Hist (prov t_density)) (fun h => obnd (dmed_result K (dmed_init K z) n h) (fun q => Ok (snd q)))
  | t_with_p_square_cumulative_distribution_median | t_with_p_square_cumulative_distribution_weighted_median =>
      obnd (Dist (prov t_p_square_cumulative_distribution)) (cdmed_value K)
  | _ => UB
  end.

(** The tail on one side: its samples, and the calls they came with. *)
Definition TailState (s : ModelTail.side) : outcome (tail_state T (pack K)) :=
  tail_run H (tail_pred K s) (tail_init (a_tail_cache K A) 1 z (no_pack K))
    (map (fun p => TPush (p_sample p) [p]) xs).
Definition TailSamples (t : ltag) : outcome (list T) :=
  match t with
  | t_tail s => obnd (TailState (lr_of s)) (tail_result H (tail_pred K (lr_of s)))
  | _ => UB
  end.
Definition TailCalls (t : ltag) : outcome (list (pack K)) :=
  match t with
  | t_tail s => obnd (TailState (lr_of s)) (fun st => tail_variate_result H (tail_pred K (lr_of s)) st 0)
  | _ => UB
  end.
Local Notation tl := (TailSamples (prov t_abstract_tail)).
Definition TailWeights (t : ltag) : outcome (list T) :=
  match t with
  | t_tail_weights _ => obnd (TailCalls (prov t_abstract_tail)) (fun ps => Ok (map p_weight ps))
  | _ => UB
  end.
Definition TailVariates (t : ltag) : outcome (list (list T)) :=
  match t with
  | t_tail_variate _ v => obnd (TailCalls (prov t_abstract_tail)) (fun ps => Ok (map (fun p => p_vector p v) ps))
  | _ => UB
  end.
Local Notation tw := (TailWeights (prov t_abstract_tail_weights)).
Local Notation tv := (TailVariates (prov t_abstract_tail_variate)).

Definition TailMean (t : ltag) (p : T) : outcome T :=
  match t with
  | t_non_coherent_tail_mean s =>
      obnd tl (fun tl => non_coherent_tail_mean_result K ceil (lr_of s) n tl p)
  | t_non_coherent_weighted_tail_mean s =>
      obnd tl (fun tl => obnd tw (fun ws => non_coherent_weighted_tail_mean_result K (lr_of s) W tl ws p))
  | _ => UB
  end.

(** The fit of peaks over threshold. *)
Definition Fit (t : ltag) : outcome (T * T * T) :=
  let pushed := map (fun p => PPush K (p_sample p) (p_weight p)) xs in
  match t with
  | t_peaks_over_threshold s =>
      last (pot_out K pw (lr_of s) z (a_threshold K A) (pushed ++ [PExtract K])) UB
  | t_weighted_peaks_over_threshold s =>
      last (wpot_out K pw (lr_of s) z z (a_threshold K A) (pushed ++ [PExtract K])) UB
  | t_peaks_over_threshold_prob s =>
      obnd tl (fun tl =>
        obnd (ppot_extract K pw (lr_of s) ceil (ppot_init K (lr_of s) z (a_threshold_probability K A)) n tl) snd)
  | t_weighted_peaks_over_threshold_prob s =>
      obnd tl (fun tl => obnd tw (fun ws =>
        obnd (wppot_extract K pw (lr_of s) (ppot_init K (lr_of s) z (a_threshold_probability K A)) W tl ws) snd))
  | _ => UB
  end.

(** The quantile at [p]. *)
Definition Quantile (t : ltag) (p : T) : outcome T :=
  match t with
  | t_extended_p_square_quantile | t_weighted_extended_p_square_quantile =>
      obnd (Extended (prov t_extended_p_square)) (fun hs => eps_quantile K Linear probs hs p)
  | t_extended_p_square_quantile_quadratic | t_weighted_extended_p_square_quantile_quadratic =>
      obnd (Extended (prov t_extended_p_square)) (fun hs => eps_quantile K Quadratic probs hs p)
  | t_tail_quantile s => obnd tl (fun tl => tail_quantile_result K ceil (lr_of s) n tl p)
  | t_weighted_tail_quantile s =>
      obnd tl (fun tl => obnd tw (fun ws => weighted_tail_quantile_result K (lr_of s) W tl ws p))
  | t_pot_quantile s | t_weighted_pot_quantile s | t_pot_quantile_prob s | t_weighted_pot_quantile_prob s =>
      obnd (Fit (prov t_abstract_peaks_over_threshold)) (fun f => Ok (pot_quantile_result K pw (lr_of s) f p))
  | _ => UB
  end.
Local Notation nctm := (TailMean (prov t_abstract_non_coherent_tail_mean)).
Local Notation quantile := (Quantile (prov t_quantile)).

(** The result of accumulator [t]. *)
Definition Alone (t : ltag) : note K :=
  match t with
  | t_min => NNum (min_run (dens_limits K lo hi) ss)
  | t_max => NNum (max_run (dens_limits K lo hi) ss)
  | t_density | t_weighted_density => NHist (Hist t)
  | t_p_square_quantile | t_p_square_quantile_for_median
  | t_weighted_p_square_quantile | t_weighted_p_square_quantile_for_median => NOut (PQuantile t)
  | t_p_square_cumulative_distribution | t_weighted_p_square_cumulative_distribution => NHist (Dist t)
  | t_extended_p_square | t_weighted_extended_p_square => NList (Extended t)
  | t_median | t_with_density_median | t_with_p_square_cumulative_distribution_median
  | t_weighted_median | t_with_density_weighted_median
  | t_with_p_square_cumulative_distribution_weighted_median => NOut (Median t)
  | t_tail _ => NTail (TailSamples t) (TailCalls t)
  | t_tail_variate _ _ => NVectors (TailVariates t)
  | t_tail_weights _ => NList (TailWeights t)
  | t_extended_p_square_quantile | t_extended_p_square_quantile_quadratic
  | t_weighted_extended_p_square_quantile | t_weighted_extended_p_square_quantile_quadratic
  | t_tail_quantile _ | t_weighted_tail_quantile _
  | t_pot_quantile _ | t_weighted_pot_quantile _ | t_pot_quantile_prob _ | t_weighted_pot_quantile_prob _ =>
      NFun (Quantile t)
  | t_non_coherent_tail_mean _ | t_non_coherent_weighted_tail_mean _ => NFun (TailMean t)
  | t_coherent_tail_mean s => NFun (fun p => coherent_tail_mean_of K ceil (lr_of s) (nctm p) (quantile p) n p)
  | t_pot_tail_mean s | t_weighted_pot_tail_mean s | t_pot_tail_mean_prob s | t_weighted_pot_tail_mean_prob s =>
      NFun (fun p => obnd (Fit (prov t_abstract_peaks_over_threshold))
                          (fun f => pot_tail_mean_at K A s (quantile p) f p))
  | t_absolute_tail_variate_means s _ =>
      NVFun (fun p => obnd tl (fun tl => obnd tv (fun tv =>
        tail_variate_means_of K ceil (lr_of s) false (nctm p) n tl tv p)))
  | t_relative_tail_variate_means s _ =>
      NVFun (fun p => obnd tl (fun tl => obnd tv (fun tv =>
        tail_variate_means_of K ceil (lr_of s) true (nctm p) n tl tv p)))
  | t_absolute_weighted_tail_variate_means s _ =>
      NLoop (fun fuel p =>
        match tw, tv with
        | Ok ws, Ok tv => weighted_tail_variate_means_of K (lr_of s) fuel false (nctm p) W ws tv p
        | _, _ => Some UB
        end)
  | t_relative_weighted_tail_variate_means s _ =>
      NLoop (fun fuel p =>
        match tw, tv with
        | Ok ws, Ok tv => weighted_tail_variate_means_of K (lr_of s) fuel true (nctm p) W ws tv p
        | _, _ => Some UB
        end)
  | t_peaks_over_threshold _ | t_weighted_peaks_over_threshold _
  | t_peaks_over_threshold_prob _ | t_weighted_peaks_over_threshold_prob _ => NFit (Fit t)
  | _ => NNone
  end.
End Alone.

(** ** Extraction from a set
    [Session ... es t]: the set requested with [fs] ([W]: with weights) compiles, the history [es] of samples
    and drops is legal, and accumulator [t] is still needed by a feature that was requested and not dropped. *)
Section Sessions.
Variable K : Num.
Variable A : Args K.
Variable sqrt : car K -> car K.
Local Notation B := (WholeSets K A sqrt).

Record Session (enum : fmap Library -> fmap Library) (W : bool) (fs : list (request Library))
    (es : list (event Library B)) (t : ltag) : Prop := {
  se_enum : Enumeration Library enum;
  se_compiles : Compiles W (make_tuple Library enum W fs);
  se_rolling : NoRollingClash (make_tuple Library enum W fs);
  se_drops : SafeDrops fs (make_tuple Library enum W fs) (dropped_tags Library B es);
  se_needed : exists r b, Live Library fs (make_tuple Library enum W fs) (dropped_tags Library B es) r /\
                          Needs Library (make_tuple Library enum W fs) r (t, b)
}.

(** What extracting the feature of [t] returns after the history. *)
Definition Extracted (enum : fmap Library -> fmap Library) (W : bool) (fs : list (request Library))
    (es : list (event Library B)) (t : ltag) : value K (note K) :=
  read Library B (history Library B (construct Library B enum W fs) es) (lfeature t).

(** The argument packs of the history, oldest first. *)
Definition Pushed (es : list (event Library B)) : list (pack K) := samples Library B es.

(** The samples lie between the limits of their type. *)
Definition InLimits (xs : list (pack K)) : Prop :=
  Forall (fun x => ltb K x (a_lowest K A) = false /\ ltb K (a_highest K A) x = false) (samples_of K xs).

(** The set contains [t]. *)
Definition Contains (enum : fmap Library -> fmap Library) (W : bool) (fs : list (request Library)) (t : ltag) : Prop :=
  exists b, In (t, b) (make_tuple Library enum W fs).

(** The median a histogram gives: [i] is the bin in which the cumulated share passes one half; if it is the last one,
    the code reads past the end. *)
Definition HistogramMedian (h : list (car K * car K)) (o : value K (note K)) : Prop :=
  let half := div K (one K) (add K (one K) (one K)) in
  exists i, MedianBin K h i /\
    (forall p y q z, nth_error h i = Some (p, y) -> nth_error h (S i) = Some (q, z) ->
       let over := div K (sub K (total K snd (firstn (S i) h)) half) y in
       o = VRest (NOut (Ok (add K (mul K p over) (mul K q (sub K (one K) over)))))) /\
    (S i = length h -> o = VRest (NOut UB)).

(** [f] is a fit of peaks over threshold, [q] and [m] the quantile and the tail mean that go with it. *)
Definition Fitted (f q m : ltag) (s : ModelLibrary.side) : Prop :=
  (f = t_peaks_over_threshold s /\ q = t_pot_quantile s /\ m = t_pot_tail_mean s) \/
  (f = t_weighted_peaks_over_threshold s /\ q = t_weighted_pot_quantile s /\ m = t_weighted_pot_tail_mean s) \/
  (f = t_peaks_over_threshold_prob s /\ q = t_pot_quantile_prob s /\ m = t_pot_tail_mean_prob s) \/
  (f = t_weighted_peaks_over_threshold_prob s /\ q = t_weighted_pot_quantile_prob s /\ m = t_weighted_pot_tail_mean_prob s).
End Sessions.
