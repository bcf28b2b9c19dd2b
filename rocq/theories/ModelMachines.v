(** Accumulator sets as their user sees them (SpecMachine): the states and functions of the other
    models, with the extractors that cache something, and what their serialize() members write
    (ModelArchive).  The accumulators a feature depends on are part of the set and of the archive. *)
From Coq Require Import List Arith Bool.
From Verif Require Import Num ModelRolling ModelTail ModelDensity ModelPSquare ModelPot SpecMachine ModelArchive.
Import ListNotations.

(** An extractor that returns a number or a NaN. *)
Definition returning {S A B : Type} (s : S) (f : outcome A -> B) (o : outcome A) : outcome (S * B) :=
  match o with UB => UB | o => Ok (s, f o) end.

(** ** The tail family: count, tail, tail variates, tail_quantile, tail means.
    Every extraction sorts the indices (tail.hpp 205-222).  tail_variate_means keeps its result in a
    mutable member, which every extraction clears first (tail_variate_means.hpp 102-103); it is left
    out. *)
Section TailMachine.
Variable K : Num.
Local Notation T := (car K).
Variable H : HeapOps.
Variable ceil : T -> nat.
Variable lr : side.
Variables k nv : nat.        (* tail_cache_size; number of tail variates *)

Inductive tail_ask :=
| QTail | QQuantile (p : T) | QMean (p : T) | QCoherentMean (p : T)
| QVariate (j : nat) | QVariateMeans (relative : bool) (j : nat) (p : T).
Inductive tail_ans :=
| AList (l : list T) | ARows (l : list (list T)) | ANum (v : outcome T) | AVec (v : outcome (list T)).

Definition tail_count_state : Type := (nat * tail_state T (list T))%type.
Definition tail_feed (st : tail_count_state) (e : T * list (list T)) : outcome tail_count_state :=
  obnd (tail_push H (tail_pred K lr) (snd st) (fst e) (snd e)) (fun s => Ok (S (fst st), s)).
Definition tail_ask_op (st : tail_count_state) (q : tail_ask) : outcome (tail_count_state * tail_ans) :=
  let '(cnt, s) := st in
  let st' := (cnt, tail_sort H (tail_pred K lr) s) in
  obnd (tail_result H (tail_pred K lr) s) (fun tl =>
    match q with
    | QTail => Ok (st', AList tl)
    | QQuantile p => returning st' ANum (tail_quantile_result K ceil lr cnt tl p)
    | QMean p => returning st' ANum (non_coherent_tail_mean_result K ceil lr cnt tl p)
    | QCoherentMean p => returning st' ANum (coherent_tail_mean_result K ceil lr cnt tl p)
    | QVariate j => obnd (tail_variate_result H (tail_pred K lr) s j) (fun tv => Ok (st', ARows tv))
    | QVariateMeans relative j p =>
        obnd (tail_variate_result H (tail_pred K lr) s j) (fun tv =>
          returning st' AVec (tail_variate_means_result K ceil lr relative cnt tl tv p))
    end).
Definition TailMachine : Machine :=
  {| MState := tail_count_state; MIn := T * list (list T); MAsk := tail_ask; MOut := tail_ans;
     mstart := (0, tail_init k nv (zero K) []); mfeed := tail_feed; mask := tail_ask_op |}.

(** tail.hpp 272-279: is_sorted, indices, samples; count.hpp 48-51.  tail_variate_impl::serialize is
    private (tail_variate.hpp 62-78) and is called from serialize_accumulator, so a set with tail
    variates cannot be serialized. *)
Definition tail_codec : codec T tail_count_state :=
  c_map (c_pair c_nat (c_pair c_bool (c_pair (c_list c_nat) (c_list c_num))))
    (fun st => (fst st, (tl_sorted (snd st), (tl_indices (snd st), tl_samples (snd st)))))
    (fun a => (fst a, {| tl_sorted := fst (snd a); tl_indices := fst (snd (snd a));
                         tl_samples := snd (snd (snd a)); tl_variates := [] |})).
End TailMachine.
Arguments QTail {K}. Arguments QVariate {K} _.

(** ** The weighted tail family: sum_of_weights, tail, tail_weights (tail variate 0),
    weighted_tail_quantile, weighted_tail_mean.  (Not serializable, as above.) *)
Section WeightedTailMachine.
Variable K : Num.
Local Notation T := (car K).
Variable H : HeapOps.
Variable lr : side.
Variable k : nat.

Inductive wtail_ask := QWQuantile (p : T) | QWMean (p : T).
Definition wtail_state : Type := (T * tail_state T T)%type.
Definition wtail_feed (st : wtail_state) (e : T * T) : outcome wtail_state :=
  obnd (tail_push H (tail_pred K lr) (snd st) (fst e) [snd e]) (fun s => Ok (add K (fst st) (snd e), s)).
Definition wtail_ask_op (st : wtail_state) (q : wtail_ask) : outcome (wtail_state * outcome T) :=
  let '(wsum, s) := st in
  let st' := (wsum, tail_sort H (tail_pred K lr) s) in
  obnd (tail_result H (tail_pred K lr) s) (fun tl =>
  obnd (tail_variate_result H (tail_pred K lr) s 0) (fun ws =>
    match q with
    | QWQuantile p => returning st' (fun v => v) (weighted_tail_quantile_result K lr wsum tl ws p)
    | QWMean p => returning st' (fun v => v) (non_coherent_weighted_tail_mean_result K lr wsum tl ws p)
    end)).
Definition WeightedTailMachine : Machine :=
  {| MState := wtail_state; MIn := T * T; MAsk := wtail_ask; MOut := outcome T;
     mstart := (zero K, tail_init k 1 (zero K) (zero K)); mfeed := wtail_feed; mask := wtail_ask_op |}.
End WeightedTailMachine.

(** ** Histograms: density and weighted_density, and the median computed from them *)
Section DensityMachine.
Variable K : Num.
Local Notation T := (car K).
Variable E : Type.
Variable ce : codec T E.
Variables val amt : E -> T.
Variable den : nat -> T -> T.
Variables lo hi : T.
Variables c b : nat.
Variable e0 : E.

Definition DensityMachine : Machine :=
  {| MState := dens K E; MIn := E; MAsk := unit; MOut := list (T * T);
     mstart := dens_init K E lo hi c b (zero K) e0;
     mfeed := dens_push K E val amt lo hi c b;
     mask := fun s _ => Ok (dens_extract K E den s, dens_result K E den s) |}.

(** density.hpp 189-201 = weighted_density.hpp 176-188: cache_size, cache, num_bins, samples_in_bin,
    bin_positions, histogram, is_dirty.  cache_size and num_bins are the same in every set constructed
    with the same arguments.  Before them count, min, max and sum_of_weights. *)
Definition dens_codec : codec T (dens K E) :=
  c_map (c_pair (c_pair (c_pair c_nat c_num) (c_pair c_num c_num))
           (c_pair (c_pair c_nat (c_list ce)) (c_pair (c_pair c_nat (c_list c_num))
              (c_pair (c_list c_num) (c_pair (c_list (c_pair c_num c_num)) c_bool)))))
    (fun s => (((de_count K E s, de_min K E s), (de_max K E s, de_wsum K E s)),
               ((c, de_cache K E s), ((b, de_bins K E s), (de_pos K E s, (de_hist K E s, de_dirty K E s))))))
    (fun a => {| de_count := fst (fst (fst a)); de_min := snd (fst (fst a)); de_max := fst (snd (fst a));
                 de_wsum := snd (snd (fst a)); de_cache := snd (fst (snd a));
                 de_bins := snd (fst (snd (snd a))); de_pos := fst (snd (snd (snd a)));
                 de_hist := fst (snd (snd (snd (snd a)))); de_dirty := snd (snd (snd (snd (snd a)))) |}).

(** The set of the density and the median: dmed_step of ModelDensity, one call at a time. *)
Definition DensityMedianMachine : Machine :=
  {| MState := dens K E * dmed K; MIn := E; MAsk := unit; MOut := T;
     mstart := (dens_init K E lo hi c b (zero K) e0, dmed_init K (zero K));
     mfeed := fun st e => obnd (dens_push K E val amt lo hi c b (fst st) e) (fun d => Ok (d, dmed_op K (snd st)));
     mask := fun st _ =>
       let d := if dm_dirty K (snd st) then dens_extract K E den (fst st) else fst st in
       obnd (dmed_result K (snd st) (de_count K E d) (de_hist K E d)) (fun mr => Ok ((d, fst mr), snd mr)) |}.

(** median.hpp 112-119 = weighted_median.hpp 109-116: sum, is_dirty, median.  [garbage]: what the
    uninitialised member holds. *)
Definition garbage_num (garbage : T) : codec T (option T) :=
  c_map c_num (fun o => match o with Some x => x | None => garbage end) Some.
Definition dmed_codec (garbage : T) : codec T (dens K E * dmed K) :=
  c_map (c_pair dens_codec (c_pair c_num (c_pair c_bool (garbage_num garbage))))
    (fun st => (fst st, (dm_sum K (snd st), (dm_dirty K (snd st), dm_median K (snd st)))))
    (fun a => (fst a, {| dm_sum := fst (snd a); dm_dirty := fst (snd (snd a)); dm_median := snd (snd (snd a)) |})).
End DensityMachine.

(** ** P-square cumulative distributions and the median computed from them; [pairs], [push] as in
    ModelPSquare. *)
Section DistributionMachine.
Variable K : Num.
Local Notation T := (car K).
Variable pairs : psq K -> list (T * T).
Variable push : psq K -> T -> T -> outcome (psq K).
Variable q0 : psq K.
Variable h0 : list (T * T).
Variable b : nat.

Inductive dist_ask := QDistribution | QMedian.
Definition dist_feed (st : cdist K * cdmed K) (e : T * T) : outcome (cdist K * cdmed K) :=
  obnd (cdist_push K push (fst st) (fst e) (snd e))
       (fun c => Ok (c, {| cm_dirty := true; cm_median := cm_median K (snd st) |})).
Definition dist_ask_op (st : cdist K * cdmed K) (q : dist_ask) :
    outcome (cdist K * cdmed K * (list (T * T) + T)) :=
  let '(c, m) := st in
  match q with
  | QDistribution => let c' := cdist_extract K pairs c in Ok ((c', m), inl (cs_hist K c'))
  | QMedian =>
      if cm_dirty K m then
        let c' := cdist_extract K pairs c in
        obnd (cdmed_value K (cs_hist K c')) (fun r => Ok ((c', {| cm_dirty := false; cm_median := Some r |}), inr r))
      else match cm_median K m with Some r => Ok ((c, m), inr r) | None => UB end
  end.
Definition DistributionMachine : Machine :=
  {| MState := cdist K * cdmed K; MIn := T * T; MAsk := dist_ask; MOut := list (T * T) + T;
     mstart := ({| cs_psq := q0; cs_hist := h0; cs_dirty := true |}, {| cm_dirty := true; cm_median := None |});
     mfeed := dist_feed; mask := dist_ask_op |}.
End DistributionMachine.

(** ** Serialization of the P-square family *)
Section PSquareCodec.
Variable K : Num.
Local Notation T := (car K).
(** The markers: heights, actual_positions, desired_positions. *)
Definition marks_codec : codec T (marks K) :=
  c_map (c_pair (c_list c_num) (c_pair (c_list c_num) (c_list c_num)))
    (fun m => (mh K m, (mp K m, md K m)))
    (fun a => {| mh := fst a; mp := fst (snd a); md := snd (snd a) |}).
(** count and sum_of_weights precede the estimator.  [cst]: what the estimator writes around its
    markers and what no operation changes: p, probabilities or num_cells, positions_increments
    (p_square_quantile.hpp 199-206, weighted_p_square_quantile.hpp 214-220, extended_p_square.hpp
    244-251, weighted_extended_p_square.hpp 258-264). *)
Definition psq_codec (before after : list T) : codec T (psq K) :=
  c_map (c_pair (c_pair c_nat c_num) (c_pair (c_list c_num) (c_pair marks_codec (c_list c_num))))
    (fun s => ((ps_count K s, ps_wsum K s), (before, (ps_marks K s, after))))
    (fun a => {| ps_count := fst (fst a); ps_wsum := snd (fst a); ps_marks := fst (snd (snd a)) |}).
(** p_square_cumul_dist.hpp 213-222, weighted_p_square_cumul_dist.hpp 227-235: num_cells, heights,
    positions, increments, histogram, is_dirty; the median: is_dirty, median (median.hpp 180-184,
    weighted_median.hpp 177-181). *)
Definition dist_codec (before after : list T) (garbage : T) : codec T (cdist K * cdmed K) :=
  c_map (c_pair (c_pair (psq_codec before after) (c_pair (c_list (c_pair c_num c_num)) c_bool))
                (c_pair c_bool (garbage_num K garbage)))
    (fun st => ((cs_psq K (fst st), (cs_hist K (fst st), cs_dirty K (fst st))),
                (cm_dirty K (snd st), cm_median K (snd st))))
    (fun a => ({| cs_psq := fst (fst a); cs_hist := fst (snd (fst a)); cs_dirty := snd (snd (fst a)) |},
               {| cm_dirty := fst (snd a); cm_median := snd (snd a) |})).

(** The estimators whose extraction caches nothing: [push] and [result] as in ModelPSquare.  (The
    mutable member [probability] of extended_p_square_quantile is assigned at the beginning of every
    extraction, extended_p_square_quantile.hpp 99.) *)
Definition PSquareMachine (Q O : Type) (push : psq K -> T -> T -> outcome (psq K)) (m0 : marks K)
    (res : psq K -> Q -> outcome O) : Machine :=
  {| MState := psq K; MIn := T * T; MAsk := Q; MOut := outcome O;
     mstart := {| ps_count := 0; ps_wsum := zero K; ps_marks := m0 |};
     mfeed := fun s e => push s (fst e) (snd e);
     mask := fun s q => returning s (fun v => v) (res s q) |}.
End PSquareCodec.

(** ** Peaks over threshold *)
Section PotMachine.
Variable K : Num.
Local Notation T := (car K).
Variable pw : T -> T -> T.
Variable lr : side.
Variable thr : T.

Definition PotMachine : Machine :=
  {| MState := nat * pot K; MIn := T; MAsk := unit; MOut := outcome (T * T * T);
     mstart := (0, pot_init K lr (zero K) thr);
     mfeed := fun st x => Ok (S (fst st), pot_op K lr (snd st) x);
     mask := fun st _ => let s := pot_extract K pw lr (snd st) (fst st) in Ok ((fst st, s), po_fit K s) |}.
Definition WeightedPotMachine : Machine :=
  {| MState := T * wpot K; MIn := T * T; MAsk := unit; MOut := outcome (T * T * T);
     mstart := (zero K, wpot_init K lr (zero K) (zero K) thr);
     mfeed := fun st e => Ok (add K (fst st) (snd e), wpot_op K lr (snd st) (fst e) (snd e));
     mask := fun st _ => let s := wpot_extract K pw lr (snd st) (fst st) in Ok ((fst st, s), wo_fit K s) |}.

(** A triple of floats; a NaN component stands for NaN in all (ModelPot.pot_fit). *)
Definition c_fit : codec T (outcome (T * T * T)) :=
  {| enc := fun o => match o with Ok (x, y, z) => [INum x; INum y; INum z] | _ => [INaN; INaN; INaN] end;
     dec := fun ar => match ar with
                      | INum x :: INum y :: INum z :: r => Some (Ok (x, y, z), r)
                      | INaN :: INaN :: INaN :: r => Some (NotANumber, r)
                      | _ => None
                      end |}.
(** peaks_over_threshold.hpp 187-197: Nu_, mu_, sigma2_, threshold_, fit_parameters_, is_dirty_. *)
Definition pot_codec : codec T (nat * pot K) :=
  c_map (c_pair c_nat (c_pair c_nat (c_pair (c_pair c_float c_float) (c_pair c_num (c_pair c_fit c_bool)))))
    (fun st => (fst st, (po_n K (snd st), ((po_mu K (snd st), po_sigma2 K (snd st)),
                  (po_threshold K (snd st), (po_fit K (snd st), po_dirty K (snd st)))))))
    (fun a => (fst a, {| po_n := fst (snd a); po_mu := fst (fst (snd (snd a))); po_sigma2 := snd (fst (snd (snd a)));
                         po_threshold := fst (snd (snd (snd a))); po_fit := fst (snd (snd (snd (snd a))));
                         po_dirty := snd (snd (snd (snd (snd a)))) |})).
(** weighted_peaks_over_threshold.hpp 115-123: sign_, mu_, sigma2_, threshold_, fit_parameters_,
    is_dirty_.  w_sum_ is not written: a set into which the archive is loaded keeps its own,
    [w_fresh]. *)
Definition wpot_codec (w_fresh : T) : codec T (T * wpot K) :=
  c_map (c_pair c_num (c_pair (c_pair c_float c_float) (c_pair c_num (c_pair c_fit c_bool))))
    (fun st => (fst st, ((wo_mu K (snd st), wo_sigma2 K (snd st)),
                  (wo_threshold K (snd st), (wo_fit K (snd st), wo_dirty K (snd st))))))
    (fun a => (fst a, {| wo_w := w_fresh; wo_mu := fst (fst (snd a)); wo_sigma2 := snd (fst (snd a));
                         wo_threshold := fst (snd (snd a)); wo_fit := fst (snd (snd (snd a)));
                         wo_dirty := snd (snd (snd (snd a))) |})).

(** The version with a threshold probability reads the tail of the set. *)
Variable H : HeapOps.
Variable ceil : T -> nat.
Variable k : nat.
Variable prob : T.
Definition PotProbMachine : Machine :=
  {| MState := tail_count_state K * ppot K; MIn := T; MAsk := unit; MOut := outcome (T * T * T);
     mstart := ((0, tail_init k 0 (zero K) []), ppot_init K lr (zero K) prob);
     mfeed := fun st x => obnd (tail_feed K H lr (fst st) (x, [])) (fun t => Ok (t, ppot_op K (snd st)));
     mask := fun st _ =>
       let '((cnt, s), p) := st in
       if pp_dirty K p then
         obnd (tail_result H (tail_pred K lr) s) (fun tl =>
         obnd (ppot_extract K pw lr ceil p cnt tl) (fun r =>
           Ok (((cnt, tail_sort H (tail_pred K lr) s), fst r), snd r)))
       else obnd (ppot_extract K pw lr ceil p cnt []) (fun r => Ok (((cnt, s), fst r), snd r)) |}.
(** peaks_over_threshold.hpp 312-321: mu_, sigma2_, threshold_probability_, fit_parameters_, is_dirty_.
    (weighted_peaks_over_threshold_prob_impl has no serialize.) *)
Definition ppot_codec : codec T (tail_count_state K * ppot K) :=
  c_map (c_pair (tail_codec K) (c_pair (c_pair c_num c_num) (c_pair c_num (c_pair c_fit c_bool))))
    (fun st => (fst st, ((pp_mu K (snd st), pp_sigma2 K (snd st)),
                  (pp_prob K (snd st), (pp_fit K (snd st), pp_dirty K (snd st))))))
    (fun a => (fst a, {| pp_mu := fst (fst (snd a)); pp_sigma2 := snd (fst (snd a));
                         pp_prob := fst (snd (snd a)); pp_fit := fst (snd (snd (snd a)));
                         pp_dirty := snd (snd (snd (snd a))) |})).
End PotMachine.
