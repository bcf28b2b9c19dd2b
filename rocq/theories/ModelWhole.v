(** The whole statistics library as one [Behaviour]: an instance of [Rest] (ModelSets) made of the
    rolling accumulators (ModelRollingSets) and of all the estimators: min, max, the histograms, the
    P-square family, the medians, the tails and what is computed from them, peaks over threshold.
    Each case calls the function that models the accumulator (ModelMinMax, ModelDensity,
    ModelPSquare, ModelTail, ModelPot), passing what the C++ code extracts from the set; the
    citations are there.

    The caches that some accumulators fill when they are extracted (C43) are left out: results are
    those of an extraction that follows the samples.  operator() of the tail has every tail_variate
    and tail_weights accumulator of the set store its field of the argument pack at the index that
    the tail chooses (tail.hpp 237-246, 286-306); here the tail keeps the argument pack of each sample
    it holds, and these accumulators read their field from there. *)

From Coq Require Import List Bool Arith.
From Verif Require Import Num ModelBasic ModelMinMax ModelRolling ModelDensity ModelPSquare ModelTail ModelPot.
From Verif Require Import ModelFramework ModelLibrary ModelSets ModelRollingSets.
Import ListNotations.

(** What a set is constructed with, and the functions of the standard library it uses. *)
Record Args (K : Num) : Type := mkArgs {
  a_lowest : car K;                        (* limits of the sample type *)
  a_highest : car K;
  a_window : nat;                          (* rolling_window_size *)
  a_density_cache : nat;                   (* density_cache_size *)
  a_density_bins : nat;                    (* density_num_bins *)
  a_probability : car K;                   (* quantile_probability, for p_square_quantile *)
  a_cells : nat;                           (* p_square_cumulative_distribution_num_cells *)
  a_probabilities : list (car K);          (* extended_p_square_probabilities *)
  a_tail_cache : nat;                      (* tag::tail<..>::cache_size *)
  a_threshold : car K;                     (* pot_threshold_value *)
  a_threshold_probability : car K;         (* pot_threshold_probability *)
  a_heap : HeapOps;                        (* push_heap, pop_heap, sort_heap *)
  a_ceil : car K -> nat;                   (* ceil, as a size_t *)
  a_pow : car K -> car K -> car K          (* pow *)
}.

(** The states of the accumulators. *)
Inductive wcell (K : Num) : Type :=
| WNone
| WRoll (c : rcell K)
| WNum (a : car K)
| WDens (d : outcome (dens K (car K)))
| WWDens (d : outcome (dens K (car K * car K)))
| WMarks (m : outcome (marks K))
| WMed (m : dmed K)
| WTail (s : outcome (tail_state (car K) (pack K)))
| WPot (s : pot K)
| WWPot (s : wpot K)
| WPPot (s : ppot K).
Arguments WNone {K}.
Arguments WRoll {K} _.
Arguments WNum {K} _.
Arguments WDens {K} _.
Arguments WWDens {K} _.
Arguments WMarks {K} _.
Arguments WMed {K} _.
Arguments WTail {K} _.
Arguments WPot {K} _.
Arguments WWPot {K} _.
Arguments WPPot {K} _.

(** The results.  A result that takes quantile_probability at extraction is a function of it; a
    [NLoop] result takes the number of iterations after which one stops watching, too. *)
Inductive note (K : Num) : Type :=
| NNone
| NRoll (c : rcell K)
| NNum (a : car K)
| NOut (o : outcome (car K))
| NHist (h : outcome (list (car K * car K)))
| NList (l : outcome (list (car K)))
| NTail (l : outcome (list (car K))) (ps : outcome (list (pack K)))
| NVectors (l : outcome (list (list (car K))))
| NFit (f : outcome (car K * car K * car K))
| NFun (f : car K -> outcome (car K))
| NVFun (f : car K -> outcome (list (car K)))
| NLoop (f : nat -> car K -> option (outcome (list (car K)))).
Arguments NNone {K}.
Arguments NRoll {K} _.
Arguments NNum {K} _.
Arguments NOut {K} _.
Arguments NHist {K} _.
Arguments NList {K} _.
Arguments NTail {K} _ _.
Arguments NVectors {K} _.
Arguments NFit {K} _.
Arguments NFun {K} _.
Arguments NVFun {K} _.
Arguments NLoop {K} _.

(** LeftRight. *)
Definition lr_of (s : ModelLibrary.side) : ModelTail.side :=
  match s with on_left => Left | on_right => Right end.

Section Whole.
Variable K : Num.
Variable A : Args K.
Local Notation T := (car K).
Local Notation value := (value K (note K)).
Local Notation lo := (a_lowest K A).
Local Notation hi := (a_highest K A).
Local Notation probs := (a_probabilities K A).
Local Notation cells := (a_cells K A).
Local Notation H := (a_heap K A).
Local Notation ceil := (a_ceil K A).
Local Notation pw := (a_pow K A).
Local Notation limits := (dens_limits K lo hi).

(** Reading the result of an accumulator (a type error in C++ otherwise). *)
Definition wcount (v : value) : nat := match v with VNat n => n | _ => O end.
Definition wsum (v : value) : T := match v with VNum a => a | _ => zero K end.
Definition wnum (v : value) : T := match v with VRest (NNum a) => a | _ => zero K end.
Definition wout (v : value) : outcome T := match v with VRest (NOut o) => o | _ => UB end.
Definition whist (v : value) : outcome (list (T * T)) := match v with VRest (NHist h) => h | _ => UB end.
Definition wlist (v : value) : outcome (list T) := match v with VRest (NList l) => l | _ => UB end.
Definition wtail (v : value) : outcome (list T) := match v with VRest (NTail l _) => l | _ => UB end.
Definition wpacks (v : value) : outcome (list (pack K)) := match v with VRest (NTail _ p) => p | _ => UB end.
Definition wvectors (v : value) : outcome (list (list T)) := match v with VRest (NVectors l) => l | _ => UB end.
Definition wfit (v : value) : outcome (T * T * T) := match v with VRest (NFit f) => f | _ => UB end.
Definition wfun (v : value) : T -> outcome T := match v with VRest (NFun f) => f | _ => fun _ => UB end.
(** The rolling accumulators read values of their own kind only. *)
Definition roll_view (v : value) : ModelSets.value K (rcell K) :=
  match v with
  | VRest (NRoll c) => VRest c
  | VRest _ => VNone
  | VNone => VNone
  | VNat n => VNat n
  | VNum a => VNum a
  end.

(** The probabilities that the P-square quantiles are constructed with (p_square_quantile.hpp 65). *)
Definition pq_prob (t : ltag) : T :=
  match t with
  | t_p_square_quantile_for_median | t_weighted_p_square_quantile_for_median => half K
  | _ => a_probability K A
  end.

Definition no_pack : pack K := mkPack K (zero K) (zero K) (fun _ => zero K) (fun _ => []).

Definition winit (t : ltag) : wcell K :=
  let z := zero K in
  if rolling t then WRoll (rinit K t) else
  match t with
  | t_min => WNum (min_init limits)
  | t_max => WNum (max_init limits)
  | t_density => WDens (Ok (dens_init K T lo hi (a_density_cache K A) (a_density_bins K A) z z))
  | t_weighted_density =>
      WWDens (Ok (dens_init K (T * T) lo hi (a_density_cache K A) (a_density_bins K A) z (z, z)))
  | t_p_square_quantile | t_p_square_quantile_for_median => WMarks (Ok (pq_init K (pq_prob t)))
  | t_weighted_p_square_quantile | t_weighted_p_square_quantile_for_median => WMarks (Ok (wpq_init K))
  | t_p_square_cumulative_distribution => WMarks (Ok (cd_init K cells))
  | t_weighted_p_square_cumulative_distribution => WMarks (Ok (wcd_init K cells))
  | t_extended_p_square => WMarks (Ok (ext_init K probs))
  | t_weighted_extended_p_square => WMarks (Ok (wext_init K probs))
  | t_with_density_median | t_with_density_weighted_median => WMed (dmed_init K z)
  | t_tail s => WTail (Ok (tail_init (a_tail_cache K A) 1 z no_pack))
  | t_peaks_over_threshold s => WPot (pot_init K (lr_of s) z (a_threshold K A))
  | t_weighted_peaks_over_threshold s => WWPot (wpot_init K (lr_of s) z z (a_threshold K A))
  | t_peaks_over_threshold_prob s | t_weighted_peaks_over_threshold_prob s =>
      WPPot (ppot_init K (lr_of s) z (a_threshold_probability K A))
  | _ => WNone
  end.

Definition wstep (t : ltag) (r : ltag -> value) (p : pack K) (s : wcell K) : wcell K :=
  let x := p_sample p in
  let w := p_weight p in
  let cnt := wcount (r t_count) in
  let W := wsum (r t_sum_of_weights) in
  let mn := wnum (r t_min) in
  let mx := wnum (r t_max) in
  match t, s with
  | _, WRoll c => WRoll (rstep K (a_window K A) t (fun f => roll_view (r f)) p c)
  | t_min, WNum a => WNum (min_assign limits a x)
  | t_max, WNum a => WNum (max_assign limits a x)
  | t_density, WDens o =>
      WDens (obnd o (fun d =>
        dens_operate K T (fun y => y) (fun _ => one K) (a_density_cache K A) (a_density_bins K A)
          cnt mn mx (add K (de_wsum K T d) (one K)) d x))      (* the fourth is not used *)
  | t_weighted_density, WWDens o =>
      WWDens (obnd o (fun d =>
        dens_operate K (T * T) fst snd (a_density_cache K A) (a_density_bins K A) cnt mn mx W d (x, w)))
  | t_p_square_quantile, WMarks o | t_p_square_quantile_for_median, WMarks o =>
      WMarks (obnd o (fun m =>
        psq_operate K 5 false 0 (des_inc K (pq_inc K (pq_prob t))) cnt (zero K) m x (one K)))
  | t_weighted_p_square_quantile, WMarks o | t_weighted_p_square_quantile_for_median, WMarks o =>
      WMarks (obnd o (fun m => psq_operate K 5 true 5 (wpq_des K (pq_prob t)) cnt W m x w))
  | t_p_square_cumulative_distribution, WMarks o =>
      WMarks (obnd o (fun m =>
        psq_operate K (cells + 1) false 0 (des_inc K (cd_inc K cells)) cnt (zero K) m x (one K)))
  | t_weighted_p_square_cumulative_distribution, WMarks o =>
      WMarks (obnd o (fun m => psq_operate K (cells + 1) true cells (wcd_des K cells) cnt W m x w))
  | t_extended_p_square, WMarks o =>
      WMarks (obnd o (fun m =>
        psq_operate K (ext_markers K probs) false 0 (des_inc K (ext_incs K probs)) cnt (zero K) m x (one K)))
  | t_weighted_extended_p_square, WMarks o =>
      WMarks (obnd o (fun m =>
        psq_operate K (ext_markers K probs) true (ext_markers K probs) (wext_des K probs) cnt W m x w))
  | t_with_density_median, WMed m | t_with_density_weighted_median, WMed m => WMed (dmed_op K m)
  | t_tail sd, WTail o =>
      WTail (obnd o (fun st => tail_push H (tail_pred K (lr_of sd)) st x [p]))
  | t_peaks_over_threshold sd, WPot q => WPot (pot_op K (lr_of sd) q x)
  | t_weighted_peaks_over_threshold sd, WWPot q => WWPot (wpot_op K (lr_of sd) q x w)
  | t_peaks_over_threshold_prob _, WPPot q | t_weighted_peaks_over_threshold_prob _, WPPot q => WPPot (ppot_op K q)
  | _, _ => s
  end.

(** The density as result() sees it: the count and the weights are those of the set. *)
Definition dens_now {E : Type} (cnt : nat) (W : T) (d : dens K E) : dens K E :=
  {| de_count := cnt; de_min := de_min K E d; de_max := de_max K E d; de_wsum := W; de_cache := de_cache K E d;
     de_bins := de_bins K E d; de_pos := de_pos K E d; de_hist := de_hist K E d; de_dirty := de_dirty K E d |}.

(** pot_tail_mean is infinite if xi_hat = 1. *)
Definition pot_tail_mean_at (s : ModelLibrary.side) (q : outcome T) (fit : T * T * T) (p : T) : outcome T :=
  if keqb K (snd fit) (one K) then NotANumber
  else obnd q (fun q => Ok (pot_tail_mean_of K pw (lr_of s) q fit p)).

Definition wresult (t : ltag) (r : ltag -> value) (s : wcell K) : note K :=
  let cnt := wcount (r t_count) in
  let W := wsum (r t_sum_of_weights) in
  let tl := wtail (r t_abstract_tail) in
  let tw := wlist (r t_abstract_tail_weights) in
  let tv := wvectors (r t_abstract_tail_variate) in
  let nctm := wfun (r t_abstract_non_coherent_tail_mean) in
  let fit := wfit (r t_abstract_peaks_over_threshold) in
  let quantile := wfun (r t_quantile) in
  match t, s with
  | _, WRoll c => NRoll (rresult K (a_window K A) t (fun f => roll_view (r f)) c)
  | t_min, WNum a | t_max, WNum a => NNum a
  | t_density, WDens o =>
      NHist (obnd o (fun d => Ok (density_result K (dens_now cnt (de_wsum K T d) d))))
  | t_weighted_density, WWDens o =>
      NHist (obnd o (fun d => Ok (weighted_density_result K (dens_now (de_count K (T * T) d) W d))))
  | t_p_square_quantile, WMarks o | t_p_square_quantile_for_median, WMarks o
  | t_weighted_p_square_quantile, WMarks o | t_weighted_p_square_quantile_for_median, WMarks o =>
      NOut (obnd o (fun m => pq_result K {| ps_count := cnt; ps_wsum := W; ps_marks := m |}))
  | t_p_square_cumulative_distribution, WMarks o =>
      NHist (obnd o (fun m => Ok (cd_pairs K {| ps_count := cnt; ps_wsum := W; ps_marks := m |})))
  | t_weighted_p_square_cumulative_distribution, WMarks o =>
      NHist (obnd o (fun m => Ok (wcd_pairs K {| ps_count := cnt; ps_wsum := W; ps_marks := m |})))
  | t_extended_p_square, WMarks o | t_weighted_extended_p_square, WMarks o =>
      NList (obnd o (fun m => ext_result K probs {| ps_count := cnt; ps_wsum := W; ps_marks := m |}))
  | t_median, _ => NOut (wout (r t_p_square_quantile_for_median))
  | t_weighted_median, _ => NOut (wout (r t_weighted_p_square_quantile_for_median))
  | t_with_density_median, WMed m | t_with_density_weighted_median, WMed m =>
      NOut (obnd (whist (r t_density)) (fun h => obnd (dmed_result K m cnt h) (fun q => Ok (snd q))))
  | t_with_p_square_cumulative_distribution_median, _
  | t_with_p_square_cumulative_distribution_weighted_median, _ =>
      NOut (obnd (whist (r t_p_square_cumulative_distribution)) (cdmed_value K))
  | t_extended_p_square_quantile, _ | t_weighted_extended_p_square_quantile, _ =>
      NFun (fun p => obnd (wlist (r t_extended_p_square)) (fun hs => eps_quantile K Linear probs hs p))
  | t_extended_p_square_quantile_quadratic, _ | t_weighted_extended_p_square_quantile_quadratic, _ =>
      NFun (fun p => obnd (wlist (r t_extended_p_square)) (fun hs => eps_quantile K Quadratic probs hs p))
  | t_tail sd, WTail o =>
      NTail (obnd o (fun st => tail_result H (tail_pred K (lr_of sd)) st))
            (obnd o (fun st => tail_variate_result H (tail_pred K (lr_of sd)) st 0))
  | t_tail_variate _ v, _ =>
      NVectors (obnd (wpacks (r t_abstract_tail)) (fun ps => Ok (map (fun p => p_vector p v) ps)))
  | t_tail_weights _, _ =>
      NList (obnd (wpacks (r t_abstract_tail)) (fun ps => Ok (map p_weight ps)))
  | t_tail_quantile sd, _ =>
      NFun (fun p => obnd tl (fun tl => tail_quantile_result K ceil (lr_of sd) cnt tl p))
  | t_weighted_tail_quantile sd, _ =>
      NFun (fun p => obnd tl (fun tl => obnd tw (fun ws =>
        weighted_tail_quantile_result K (lr_of sd) W tl ws p)))
  | t_non_coherent_tail_mean sd, _ =>
      NFun (fun p => obnd tl (fun tl => non_coherent_tail_mean_result K ceil (lr_of sd) cnt tl p))
  | t_non_coherent_weighted_tail_mean sd, _ =>
      NFun (fun p => obnd tl (fun tl => obnd tw (fun ws =>
        non_coherent_weighted_tail_mean_result K (lr_of sd) W tl ws p)))
  | t_coherent_tail_mean sd, _ =>
      NFun (fun p => coherent_tail_mean_of K ceil (lr_of sd) (nctm p) (quantile p) cnt p)
  | t_absolute_tail_variate_means sd _, _ =>
      NVFun (fun p => obnd tl (fun tl => obnd tv (fun tv =>
        tail_variate_means_of K ceil (lr_of sd) false (nctm p) cnt tl tv p)))
  | t_relative_tail_variate_means sd _, _ =>
      NVFun (fun p => obnd tl (fun tl => obnd tv (fun tv =>
        tail_variate_means_of K ceil (lr_of sd) true (nctm p) cnt tl tv p)))
  | t_absolute_weighted_tail_variate_means sd _, _ =>
      NLoop (fun fuel p =>
        match tw, tv with
        | Ok ws, Ok tv => weighted_tail_variate_means_of K (lr_of sd) fuel false (nctm p) W ws tv p
        | _, _ => Some UB
        end)
  | t_relative_weighted_tail_variate_means sd _, _ =>
      NLoop (fun fuel p =>
        match tw, tv with
        | Ok ws, Ok tv => weighted_tail_variate_means_of K (lr_of sd) fuel true (nctm p) W ws tv p
        | _, _ => Some UB
        end)
  | t_peaks_over_threshold sd, WPot q => NFit (po_fit K (pot_extract K pw (lr_of sd) q cnt))
  | t_weighted_peaks_over_threshold sd, WWPot q => NFit (wo_fit K (wpot_extract K pw (lr_of sd) q W))
  | t_peaks_over_threshold_prob sd, WPPot q =>
      NFit (obnd tl (fun tl => obnd (ppot_extract K pw (lr_of sd) ceil q cnt tl) snd))
  | t_weighted_peaks_over_threshold_prob sd, WPPot q =>
      NFit (obnd tl (fun tl => obnd tw (fun ws => obnd (wppot_extract K pw (lr_of sd) q W tl ws) snd)))
  | t_pot_quantile sd, _ | t_weighted_pot_quantile sd, _
  | t_pot_quantile_prob sd, _ | t_weighted_pot_quantile_prob sd, _ =>
      NFun (fun p => obnd fit (fun f => Ok (pot_quantile_result K pw (lr_of sd) f p)))
  | t_pot_tail_mean sd, _ | t_weighted_pot_tail_mean sd, _
  | t_pot_tail_mean_prob sd, _ | t_weighted_pot_tail_mean_prob sd, _ =>
      NFun (fun p => obnd fit (fun f => pot_tail_mean_at sd (quantile p) f p))
  | _, _ => NNone
  end.

Definition WholeRest : Rest K := mkRest K (wcell K) (note K) winit wstep wresult.

(** The behaviour of the whole library. *)
Definition WholeSets (sqrt : T -> T) : Behaviour Library := BasicSets K sqrt WholeRest.
End Whole.
