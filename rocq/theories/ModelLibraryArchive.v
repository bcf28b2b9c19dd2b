(** Saving and loading the sets of the whole library (ModelObserve): what serialize() of every
    accumulator writes and reads.  accumulator_set::serialize is ModelSetArchive.save_set. *)
From Coq Require Import List Bool Arith ZArith.
From Verif Require Import Num ModelBasic ModelRolling ModelDensity ModelPSquare ModelTail ModelPot.
From Verif Require Import ModelFramework ModelLibrary ModelSets ModelRollingSets ModelWhole ModelObserve.
From Verif Require Import SpecMachine ModelArchive ModelMachines ModelSetArchive.
Import ListNotations.

Section Archive.
Variable K : Num.
Variable A : Args K.
Variable sqrt : car K -> car K.
(** What members hold that are saved before they are assigned. *)
Variable garbage : car K.
Local Notation T := (car K).
Local Notation value := (value K (note K)).
Local Notation BM := (MemoSets K A sqrt).

(** ** The set as its user sees it *)

(** Something undefined happened to the accumulator. *)
Definition lost {X : Type} (o : outcome X) : bool := match o with Ok _ => false | _ => true end.
Definition wbroken (c : wcell K) : bool :=
  match c with
  | WDens o => lost o
  | WWDens o => lost o
  | WMarks o => lost o
  | WTail o => lost o
  | _ => false
  end.
(** A kept result can be a NaN. *)
Definition nbroken (v : note K) : bool :=
  match v with
  | NHist o => lost o
  | NOut UB => true
  | _ => false
  end.
Definition broken (s : cell K (mcell K)) : bool :=
  match s with
  | CRest (Plain c) => wbroken c
  | CRest (Memo c v dirty) => wbroken c || (negb dirty && nbroken v)
  | _ => false
  end.
Definition checked (s : accset Library BM) : outcome (accset Library BM) :=
  if existsb (fun a => broken (state Library BM a)) s then UB else Ok s.

(** The argument packs that the model keeps with a tail are read by the tail_variate and
    tail_weights accumulators; they are not part of the result of tail (tail.hpp 205-222). *)
Definition in_view (v : value) : value :=
  match v with VRest (NTail l _) => VRest (NTail l (Ok [])) | v => v end.

(** Samples and drops go in; an extraction answers and leaves the caches behind (ModelObserve). *)
Definition LibraryMachine (enum : fmap Library -> fmap Library) (W : bool) (fs : list (request Library)) : Machine :=
  {| MState := accset Library BM; MIn := event Library BM; MAsk := ltag; MOut := value;
     mstart := construct Library BM enum W fs;
     mfeed := fun s e => checked (handle Library BM s e);
     mask := fun s f => obnd (checked (extracted Library BM (basks K) (blook K A) f s))
                             (fun s' => Ok (s', in_view (read Library BM s f))) |}.

(** ** The serialize() members *)

(** Members that no operation changes are written, and loaded with the value they have. *)
Definition c_const {X : Type} (c : codec T X) (x : X) : codec T unit := c_map c (fun _ => x) (fun _ => tt).
Definition c_wnone (c : codec T unit) : codec T (wcell K) := c_map c (fun _ => tt) (fun _ => WNone).
Definition c_wnum : codec T (wcell K) :=
  c_map c_num (fun s => match s with WNum a => a | _ => zero K end) WNum.

(** density.hpp 191-201 = weighted_density.hpp 178-188: cache_size, cache, num_bins, samples_in_bin,
    bin_positions, histogram, is_dirty.  (The remaining fields of [dens] are not members of the density
    accumulator, and not used when it is in a set.) *)
Definition c_dens (E : Type) (ce : codec T E) (e0 : E) : codec T (dens K E) :=
  let fresh := dens_init K E (a_lowest K A) (a_highest K A) (a_density_cache K A) (a_density_bins K A) (zero K) e0 in
  c_map (c_pair (c_pair c_nat (c_list ce)) (c_pair (c_pair c_nat (c_list c_num))
              (c_pair (c_list c_num) (c_pair (c_list (c_pair c_num c_num)) c_bool))))
    (fun s => ((a_density_cache K A, de_cache K E s), ((a_density_bins K A, de_bins K E s),
               (de_pos K E s, (de_hist K E s, de_dirty K E s)))))
    (fun a => {| de_count := de_count K E fresh; de_min := de_min K E fresh; de_max := de_max K E fresh;
                 de_wsum := de_wsum K E fresh; de_cache := snd (fst a); de_bins := snd (fst (snd a));
                 de_pos := fst (snd (snd a)); de_hist := fst (snd (snd (snd a)));
                 de_dirty := snd (snd (snd (snd a))) |}).
Definition no_dens (E : Type) (e0 : E) : dens K E :=
  dens_init K E (a_lowest K A) (a_highest K A) (a_density_cache K A) (a_density_bins K A) (zero K) e0.
Definition c_wdens : codec T (wcell K) :=
  c_map (c_dens T c_num (zero K)) (fun s => match s with WDens (Ok d) => d | _ => no_dens T (zero K) end)
    (fun d => WDens (Ok d)).
Definition c_wwdens : codec T (wcell K) :=
  c_map (c_dens (T * T) (c_pair c_num c_num) (zero K, zero K))
    (fun s => match s with WWDens (Ok d) => d | _ => no_dens (T * T) (zero K, zero K) end) (fun d => WWDens (Ok d)).

(** Heights, actual_positions, desired_positions, between members that do not change. *)
Definition c_wmarks (before after : codec T unit) : codec T (wcell K) :=
  c_map (c_pair before (c_pair (marks_codec K) after))
    (fun s => (tt, (match s with WMarks (Ok m) => m | _ => {| mh := []; mp := []; md := [] |} end, tt)))
    (fun a => WMarks (Ok (fst (snd a)))).

(** median.hpp 113-119 = weighted_median.hpp 110-116: sum, is_dirty, median. *)
Definition c_wmed : codec T (wcell K) :=
  c_map (c_pair c_num (c_pair c_bool (garbage_num K garbage)))
    (fun s => match s with WMed m => (dm_sum K m, (dm_dirty K m, dm_median K m)) | _ => (zero K, (true, None)) end)
    (fun a => WMed {| dm_sum := fst a; dm_dirty := fst (snd a); dm_median := snd (snd a) |}).

(** tail.hpp 273-279: is_sorted, indices, samples. *)
Definition c_wtail : codec T (wcell K) :=
  let fresh := tail_init (a_tail_cache K A) 1 (zero K) (no_pack K) in
  c_map (c_pair c_bool (c_pair (c_list c_nat) (c_list c_num)))
    (fun s => match s with
              | WTail (Ok st) => (tl_sorted st, (tl_indices st, tl_samples st))
              | _ => (false, ([], []))
              end)
    (fun a => WTail (Ok {| tl_sorted := fst a; tl_indices := fst (snd a); tl_samples := snd (snd a);
                           tl_variates := tl_variates fresh |})).

(** peaks_over_threshold.hpp 186-197: Nu_, mu_, sigma2_, threshold_, fit_parameters_, is_dirty_. *)
Definition c_wpot : codec T (wcell K) :=
  c_map (c_pair c_nat (c_pair (c_pair c_float c_float) (c_pair c_num (c_pair (c_fit K) c_bool))))
    (fun s => match s with
              | WPot q => (po_n K q, ((po_mu K q, po_sigma2 K q), (po_threshold K q, (po_fit K q, po_dirty K q))))
              | _ => (0%nat, ((None, None), (zero K, (NotANumber, true))))
              end)
    (fun a => WPot {| po_n := fst a; po_mu := fst (fst (snd a)); po_sigma2 := snd (fst (snd a));
                      po_threshold := fst (snd (snd a)); po_fit := fst (snd (snd (snd a)));
                      po_dirty := snd (snd (snd (snd a))) |}).
(** peaks_over_threshold.hpp 311-321: mu_, sigma2_, threshold_probability_, fit_parameters_, is_dirty_. *)
Definition c_wppot : codec T (wcell K) :=
  c_map (c_pair (c_pair c_num c_num) (c_pair c_num (c_pair (c_fit K) c_bool)))
    (fun s => match s with
              | WPPot q => ((pp_mu K q, pp_sigma2 K q), (pp_prob K q, (pp_fit K q, pp_dirty K q)))
              | _ => ((zero K, zero K), (zero K, (NotANumber, true)))
              end)
    (fun a => WPPot {| pp_mu := fst (fst a); pp_sigma2 := snd (fst a); pp_prob := fst (snd a);
                       pp_fit := fst (snd (snd a)); pp_dirty := snd (snd (snd a)) |}).
(** The sign of a tail: pot_quantile.hpp 86-89, pot_tail_mean.hpp 96-99. *)
Definition sign_of (sd : ModelLibrary.side) : T :=
  match sd with on_left => opp K (one K) | on_right => one K end.
(** weighted_peaks_over_threshold.hpp 114-123: sign_, mu_, sigma2_, threshold_, fit_parameters_,
    is_dirty_, but not w_sum_ (C44_weighted_pot_refuted): it stays that of the new set. *)
Definition c_wwpot (sd : ModelLibrary.side) : codec T (wcell K) :=
  c_map (c_pair (c_const c_num (sign_of sd))
           (c_pair (c_pair c_float c_float) (c_pair c_num (c_pair (c_fit K) c_bool))))
    (fun s => (tt, match s with
                   | WWPot q => ((wo_mu K q, wo_sigma2 K q), (wo_threshold K q, (wo_fit K q, wo_dirty K q)))
                   | _ => ((None, None), (zero K, (NotANumber, true)))
                   end))
    (fun a => WWPot {| wo_w := wo_w K (wpot_init K (lr_of sd) (zero K) (zero K) (a_threshold K A));
                       wo_mu := fst (fst (snd a)); wo_sigma2 := snd (fst (snd a));
                       wo_threshold := fst (snd (snd a)); wo_fit := fst (snd (snd (snd a)));
                       wo_dirty := snd (snd (snd (snd a))) |}).

(** A kept histogram or median, then or before is_dirty. *)
Definition kept_hist (v : note K) : list (T * T) := match v with NHist (Ok h) => h | _ => [] end.
Definition kept_num (v : note K) : option T :=
  match v with NOut (Ok x) => Some x | NOut _ => None | _ => Some garbage end.
(** p_square_cumul_dist.hpp 212-222, weighted_p_square_cumul_dist.hpp 226-235. *)
Definition c_dist (after : codec T unit) : codec T (mcell K) :=
  c_map (c_pair (c_wmarks (c_const c_nat (a_cells K A)) after) (c_pair (c_list (c_pair c_num c_num)) c_bool))
    (fun s => match s with
              | Memo c v dirty => (c, (kept_hist v, dirty))
              | Plain c => (c, ([], true))
              end)
    (fun a => Memo (fst a) (NHist (Ok (fst (snd a)))) (snd (snd a))).
(** median.hpp 179-184, weighted_median.hpp 176-181: is_dirty, median. *)
Definition c_cdmed : codec T (mcell K) :=
  c_map (c_pair c_bool c_float)
    (fun s => match s with Memo _ v dirty => (dirty, kept_num v) | Plain _ => (true, None) end)
    (fun a => Memo WNone (NOut (match snd a with Some x => Ok x | None => NotANumber end)) (fst a)).
Definition c_plain (c : codec T (wcell K)) : codec T (mcell K) :=
  c_map c (fun s => match s with Plain c => c | Memo c _ _ => c end) Plain.

(** The accumulators that are neither basic nor rolling.  No serialize(): weighted_median.hpp 39-62,
    weighted_tail_quantile.hpp 66-115, weighted_tail_mean.hpp 81-139,
    weighted_peaks_over_threshold.hpp 147-242.  Private, so that it cannot be called:
    tail_variate.hpp 62-78, which is also the implementation of tail_weights.  (The accumulators that
    depend on tail_variate or tail_weights have a serialize(); it can never be used.) *)
Definition rest_serializer (t : ltag) : option (codec T (mcell K)) :=
  let probs := c_const (c_list c_num) (a_probabilities K A) in
  match t with
  | t_min | t_max => Some (c_plain c_wnum)                                 (* min.hpp 53-56, max.hpp 53-56 *)
  | t_density => Some (c_plain c_wdens)
  | t_weighted_density => Some (c_plain c_wwdens)
  | t_p_square_quantile | t_p_square_quantile_for_median =>                (* p_square_quantile.hpp 198-206 *)
      Some (c_plain (c_wmarks (c_const c_num (pq_prob K A t)) (c_const (c_list c_num) (pq_inc K (pq_prob K A t)))))
  | t_weighted_p_square_quantile | t_weighted_p_square_quantile_for_median =>  (* weighted_p_square_quantile.hpp 213-220 *)
      Some (c_plain (c_wmarks (c_const c_num (pq_prob K A t)) c_unit))
  | t_p_square_cumulative_distribution => Some (c_dist (c_const (c_list c_num) (cd_inc K (a_cells K A))))
  | t_weighted_p_square_cumulative_distribution => Some (c_dist c_unit)
  | t_extended_p_square =>                                                 (* extended_p_square.hpp 243-251 *)
      Some (c_plain (c_wmarks probs (c_const (c_list c_num) (ext_incs K (a_probabilities K A)))))
  | t_weighted_extended_p_square => Some (c_plain (c_wmarks probs c_unit)) (* weighted_extended_p_square.hpp 257-264 *)
  | t_median => Some (c_plain (c_wnone c_unit))                            (* median.hpp 53-54 *)
  | t_with_density_median | t_with_density_weighted_median => Some (c_plain c_wmed)
  | t_with_p_square_cumulative_distribution_median
  | t_with_p_square_cumulative_distribution_weighted_median => Some c_cdmed
  | t_extended_p_square_quantile | t_extended_p_square_quantile_quadratic
  | t_weighted_extended_p_square_quantile | t_weighted_extended_p_square_quantile_quadratic =>
      (* extended_p_square_quantile.hpp 193-198: probabilities, probability *)
      Some (c_plain (c_wnone (c_map (c_pair probs (c_const c_num garbage)) (fun _ => (tt, tt)) (fun _ => tt))))
  | t_tail _ => Some (c_plain c_wtail)
  | t_tail_quantile _ => Some (c_plain (c_wnone c_unit))                   (* tail_quantile.hpp 103-104 *)
  | t_non_coherent_tail_mean _ | t_coherent_tail_mean _ => Some (c_plain (c_wnone c_unit)) (* tail_mean.hpp 93-94, 168-169 *)
  | t_peaks_over_threshold _ => Some (c_plain c_wpot)
  | t_peaks_over_threshold_prob _ => Some (c_plain c_wppot)
  | t_weighted_peaks_over_threshold sd => Some (c_plain (c_wwpot sd))
  | t_pot_quantile sd | t_weighted_pot_quantile sd | t_pot_quantile_prob sd | t_weighted_pot_quantile_prob sd
  | t_pot_tail_mean sd | t_weighted_pot_tail_mean sd | t_pot_tail_mean_prob sd | t_weighted_pot_tail_mean_prob sd =>
      Some (c_plain (c_wnone (c_const c_num (sign_of sd))))
  | _ => None
  end.

(** The basic and rolling accumulators write what they write in smaller sets. *)
Definition to_rolling (s : cell K (mcell K)) : cell K (rcell K) :=
  match s with
  | CNone => CNone | CNat n => CNat n | CNum a => CNum a | CPair a b => CPair a b
  | CRest (Plain (WRoll c)) => CRest c
  | CRest _ => CRest RNone
  end.
Definition of_rolling (s : cell K (rcell K)) : cell K (mcell K) :=
  match s with
  | CNone => CNone | CNat n => CNat n | CNum a => CNum a | CPair a b => CPair a b
  | CRest c => CRest (Plain (WRoll c))
  end.
Definition library_serializer (t : ltag) : option (codec T (cell K (mcell K))) :=
  if basic t || rolling t then
    match serializer K (a_window K A) t with
    | Some c => Some (c_map c to_rolling of_rolling)
    | None => None
    end
  else
    match rest_serializer t with
    | Some c => Some (c_map c (fun s => match s with CRest m => m | _ => Plain WNone end) CRest)
    | None => None
    end.
End Archive.
