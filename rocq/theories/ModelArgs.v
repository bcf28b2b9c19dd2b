(** Named arguments: how the arguments of a constructor, of a call and of an extraction become an
    argument pack, and which keywords the accumulators look up in it
    (framework/accumulator_set.hpp, framework/extractor.hpp, the parameters and keywords of statistics/).

    Boost.Parameter itself is outside the repository.  What is used of it: [keyword = value] is an
    argument pack, the comma appends one to a pack, a pack with the same keyword twice does not
    compile, nor does args[keyword] for a keyword that is not in the pack, and args[keyword | d] is d
    then.  An argument that is a pack of several keywords is not modelled, nor is a conversion of the
    type of an argument. *)

From Coq Require Import List Bool Arith.
From Verif Require Import Num ModelBasic ModelMinMax ModelDensity ModelPSquare ModelTail ModelFramework ModelLibrary ModelSets ModelRollingSets ModelWhole.
Import ListNotations.

(** framework/parameters/sample.hpp, weight.hpp, accumulator.hpp; statistics/variates/covariate.hpp 17-18
    (and the variates of the program); rolling_window.hpp 69; density.hpp 37-38; quantile_probability.hpp 17;
    p_square_cumul_dist.hpp 31; extended_p_square.hpp 36; tail.hpp 33-34; peaks_over_threshold.hpp 47-48;
    [k_other]: keywords of the program that the library does not know. *)
Inductive keyword : Type :=
| k_accumulator | k_sample | k_weight | k_variate (n : nat)
| k_window_size | k_density_cache_size | k_density_num_bins | k_quantile_probability
| k_num_cells | k_probabilities | k_cache_size (s : ModelLibrary.side)
| k_threshold_value | k_threshold_probability | k_other (n : nat).

Definition side_eqb (a b : ModelLibrary.side) : bool :=
  match a, b with on_left, on_left | on_right, on_right => true | _, _ => false end.

Definition keyword_eqb (a b : keyword) : bool :=
  match a, b with
  | k_accumulator, k_accumulator | k_sample, k_sample | k_weight, k_weight
  | k_window_size, k_window_size | k_density_cache_size, k_density_cache_size
  | k_density_num_bins, k_density_num_bins | k_quantile_probability, k_quantile_probability
  | k_num_cells, k_num_cells | k_probabilities, k_probabilities
  | k_threshold_value, k_threshold_value | k_threshold_probability, k_threshold_probability => true
  | k_variate n, k_variate m | k_other n, k_other m => Nat.eqb n m
  | k_cache_size s, k_cache_size s' => side_eqb s s'
  | _, _ => false
  end.

(** No keyword twice. *)
Fixpoint distinct (ks : list keyword) : bool :=
  match ks with [] => true | k :: ks => negb (existsb (keyword_eqb k) ks) && distinct ks end.

(** The value of an argument; [This]: the set itself. *)
Inductive argument (K : Num) : Type :=
| Scalar (a : car K) | Vector (l : list (car K)) | Size (n : nat) | This.
Arguments Scalar {K} _.
Arguments Vector {K} _.
Arguments Size {K} _.
Arguments This {K}.

Inductive kind : Type := scalar | vector | size.

(** What is written between the parentheses: [value] or [keyword = value]. *)
Inductive actual (K : Num) : Type :=
| Positional (a : argument K)
| Named (k : keyword) (a : argument K).
Arguments Positional {K} _.
Arguments Named {K} _ _.

(** accumulators_fwd.hpp 34-37 *)
Definition max_args : nat := 15.

(** What operator() of an accumulator looks up: sum.hpp 46, sum_kahan.hpp 58, weighted_sum.hpp 50,
    weighted_sum_kahan.hpp 59, mean.hpp 68, weighted_mean.hpp 90-91, moment.hpp 69, weighted_moment.hpp 54,
    variance.hpp 108, weighted_variance.hpp 93-97, covariance.hpp 144-145, weighted_covariance.hpp 87-91,
    min.hpp 43, max.hpp 43, density.hpp 100-157, weighted_density.hpp 89-150, p_square_quantile.hpp 98-127,
    weighted_p_square_quantile.hpp 80-148, p_square_cumul_dist.hpp 97-124, weighted_p_square_cumul_dist.hpp
    85-149, extended_p_square.hpp 135-164, weighted_extended_p_square.hpp 108-171, tail.hpp 198-241,
    tail_variate.hpp 51 (called by the tail), peaks_over_threshold.hpp 150-153,
    weighted_peaks_over_threshold.hpp 80-84, rolling_window.hpp 110, rolling_sum.hpp 45,
    rolling_moment.hpp 52, rolling_mean.hpp 74-85, rolling_variance.hpp 124. *)
Definition op_needs (t : ltag) : list (keyword * kind) :=
  match t with
  | t_sum | t_sum_kahan | t_immediate_mean | t_moment _ | t_variance | t_min | t_max | t_density
  | t_p_square_quantile | t_p_square_quantile_for_median | t_p_square_cumulative_distribution
  | t_extended_p_square | t_tail _ | t_peaks_over_threshold _
  | t_rolling_window_plus1 | t_rolling_sum | t_rolling_moment _ | t_rolling_mean | t_immediate_rolling_mean
  | t_rolling_variance | t_immediate_rolling_variance => [(k_sample, scalar)]
  | t_sum_of_weights | t_sum_of_weights_kahan | t_immediate_mean_of_weights | t_tail_weights _ =>
      [(k_weight, scalar)]
  | t_sum_of_variates n | t_sum_of_variates_kahan n | t_immediate_mean_of_variates n =>
      [(k_variate n, scalar)]
  | t_weighted_sum | t_weighted_sum_kahan | t_immediate_weighted_mean | t_weighted_moment _
  | t_weighted_variance | t_weighted_density | t_weighted_p_square_quantile
  | t_weighted_p_square_quantile_for_median | t_weighted_p_square_cumulative_distribution
  | t_weighted_extended_p_square | t_weighted_peaks_over_threshold _ =>
      [(k_sample, scalar); (k_weight, scalar)]
  | t_weighted_sum_of_variates n | t_weighted_sum_of_variates_kahan n
  | t_immediate_weighted_mean_of_variates n => [(k_variate n, scalar); (k_weight, scalar)]
  | t_covariance n => [(k_sample, scalar); (k_variate n, scalar)]
  | t_weighted_covariance n => [(k_sample, scalar); (k_variate n, scalar); (k_weight, scalar)]
  | t_tail_variate _ n => [(k_variate n, vector)]
  | _ => []
  end.

(** What a constructor looks up without a default: rolling_window.hpp 88, density.hpp 74-76,
    weighted_density.hpp 63-65, p_square_cumul_dist.hpp 67, weighted_p_square_cumul_dist.hpp 64,
    extended_p_square.hpp 88-89, weighted_extended_p_square.hpp 86-87, extended_p_square_quantile.hpp 76-77,
    tail.hpp 165, tail_variate.hpp 44, peaks_over_threshold.hpp 139 and 233,
    weighted_peaks_over_threshold.hpp 69 and 160.  Of the rolling accumulators only rolling_window_plus1
    does; the model gives N to the others as well, which all depend on it. *)
Definition ctor_needs (t : ltag) : list (keyword * kind) :=
  if rolling t then [(k_window_size, size)] else
  match t with
  | t_density | t_weighted_density => [(k_density_cache_size, size); (k_density_num_bins, size)]
  | t_p_square_cumulative_distribution | t_weighted_p_square_cumulative_distribution => [(k_num_cells, size)]
  | t_extended_p_square | t_weighted_extended_p_square
  | t_extended_p_square_quantile | t_extended_p_square_quantile_quadratic
  | t_weighted_extended_p_square_quantile | t_weighted_extended_p_square_quantile_quadratic =>
      [(k_probabilities, vector)]
  | t_tail s | t_tail_weights s | t_tail_variate s _ => [(k_cache_size s, size)]
  | t_peaks_over_threshold _ | t_weighted_peaks_over_threshold _ => [(k_threshold_value, scalar)]
  | t_peaks_over_threshold_prob _ | t_weighted_peaks_over_threshold_prob _ => [(k_threshold_probability, scalar)]
  | _ => []
  end.

(** What it keeps of them, and what it looks up with a default, quantile_probability in p_square_quantile.hpp 65 and
    weighted_p_square_quantile.hpp 65 (not for the median).  The tail variates are kept with the tail (ModelWhole). *)
Definition ctor_takes (t : ltag) : list (keyword * kind) :=
  match t with
  | t_p_square_quantile | t_weighted_p_square_quantile => [(k_quantile_probability, scalar)]
  | t_tail_weights _ | t_tail_variate _ _ => []
  | _ => ctor_needs t
  end.

Section Arguments.
Variable K : Num.
Local Notation T := (car K).
Local Notation argument := (argument K).
Local Notation actual := (actual K).
Local Notation args := (list (keyword * argument)).

(** a1, a2, ... appended by commas. *)
Fixpoint append (l : list actual) : option args :=
  match l with
  | [] => Some []
  | Named k v :: l => match append l with Some ps => Some ((k, v) :: ps) | None => None end
  | Positional _ :: _ => None
  end.

(** accumulator_set.hpp 145-298 (constructors), 329-390 (operator()), 485-545 (extract_result): a first argument
    that is not named is the sample. *)
Definition arguments (l : list actual) : option args :=
  match (match l with
         | Positional v :: l' => match append l' with Some ps => Some ((k_sample, v) :: ps) | None => None end
         | _ => append l
         end) with
  | Some ps =>
      let ps := (k_accumulator, This) :: ps in
      if Nat.leb (length l) max_args && distinct (map fst ps)
      then Some ps else None
  | None => None
  end.

(** args[k] *)
Fixpoint lookup (k : keyword) (ps : args) : option argument :=
  match ps with
  | [] => None
  | (k', v) :: ps => if keyword_eqb k k' then Some v else lookup k ps
  end.

Definition get_scalar (k : keyword) (ps : args) : option T := match lookup k ps with Some (Scalar a) => Some a | _ => None end.
Definition get_vector (k : keyword) (ps : args) : option (list T) := match lookup k ps with Some (Vector l) => Some l | _ => None end.
Definition get_size (k : keyword) (ps : args) : option nat := match lookup k ps with Some (Size n) => Some n | _ => None end.

Definition orelse {X : Type} (o : option X) (d : X) : X := match o with Some x => x | None => d end.

Definition has (ps : args) (n : keyword * kind) : bool :=
  match lookup (fst n) ps, snd n with
  | Some (Scalar _), scalar | Some (Vector _), vector | Some (Size _), size => true
  | _, _ => false
  end.

(** ... or not given at all. *)
Definition fits (ps : args) (n : keyword * kind) : bool :=
  match lookup (fst n) ps with None => true | Some _ => has ps n end.

Definition all_fit (takes : ltag -> list (keyword * kind)) (ts : list (ftag Library)) (ps : args) : bool :=
  forallb (fun t => forallb (fits ps) (takes (fst t))) ts.

Definition all_there (needs : ltag -> list (keyword * kind)) (ts : list (ftag Library)) (ps : args) : bool :=
  forallb (fun t => forallb (has ps) (needs (fst t))) ts.

(** The fields of ModelSets.pack; one that is not there is not looked at. *)
Definition to_pack (ps : args) : pack K :=
  mkPack K (orelse (get_scalar k_sample ps) (zero K)) (orelse (get_scalar k_weight ps) (zero K))
    (fun n => orelse (get_scalar (k_variate n) ps) (zero K)) (fun n => orelse (get_vector (k_variate n) ps) []).

(** What a set is made of besides its arguments: the limits of the sample type, sqrt, and the functions of Args. *)
Record Platform : Type := mkPlatform {
  pl_lowest : T; pl_highest : T; pl_heap : HeapOps; pl_ceil : T -> nat; pl_pow : T -> T -> T; pl_sqrt : T -> T
}.
Variable P : Platform.

(** tag::tail<LeftRight>::cache_size is a different keyword on each side; a set has at most one tail. *)
Definition tail_cache (ts : list (ftag Library)) (ps : args) : option nat :=
  if existsb (fun t => match fst t with t_tail on_left => true | _ => false end) ts
  then get_size (k_cache_size on_left) ps else get_size (k_cache_size on_right) ps.

(** The parameters of a set whose accumulators are [ts]. *)
Definition to_args (ts : list (ftag Library)) (ps : args) : Args K :=
  mkArgs K (pl_lowest P) (pl_highest P)
    (orelse (get_size k_window_size ps) 0)
    (orelse (get_size k_density_cache_size ps) 0) (orelse (get_size k_density_num_bins ps) 0)
    (orelse (get_scalar k_quantile_probability ps) (half K))
    (orelse (get_size k_num_cells ps) 0) (orelse (get_vector k_probabilities ps) [])
    (orelse (tail_cache ts ps) 0)
    (orelse (get_scalar k_threshold_value ps) (zero K)) (orelse (get_scalar k_threshold_probability ps) (zero K))
    (pl_heap P) (pl_ceil P) (pl_pow P).

(** A sample, a weight or a variate given to the constructor: C48, not covered here. *)
Definition biased (ps : args) : bool :=
  existsb (fun p => match fst p with k_sample | k_weight | k_variate _ => true | _ => false end) ps.

(** A call of operator() or of drop<Feature>(). *)
Inductive deed : Type :=
| Call (l : list actual)
| Let_go (t : ltag).

Section OneSet.
Variable A : Args K.
Local Notation B := (WholeSets K A (pl_sqrt P)).

(** [None]: does not compile. *)
Definition act (o : option (accset Library B)) (d : deed) : option (accset Library B) :=
  match o, d with
  | None, _ => None
  | Some s, Call l =>
      match arguments l with
      | Some ps => if all_there op_needs (map (who Library B) s) ps then Some (push Library B s (to_pack ps)) else None
      | None => None
      end
  | Some s, Let_go t => Some (drop Library B t s)
  end.

(** What an extractor returns: a plain result, the cached tail, or what it makes of quantile_probability. *)
Inductive answer : Type :=
| Plain (v : value K (note K))
| Cached (l : outcome (list T))
| Number (o : outcome T)
| Numbers (o : outcome (list T))
| Loop (f : nat -> option (outcome (list T))).

(** feature(set, l); result() gets the whole pack and hands it on to the extractors it calls
    (extractor.hpp 76-90): tail_quantile.hpp 75, tail_mean.hpp 78 and 137, tail_variate_means.hpp 97,
    weighted_tail_quantile.hpp 79, weighted_tail_mean.hpp 95, weighted_tail_variate_means.hpp 121,
    extended_p_square_quantile.hpp 99, pot_quantile.hpp 79, pot_tail_mean.hpp 90. *)
Definition ask (s : accset Library B) (f : ltag) (l : list actual) : option answer :=
  match arguments l, find Library B s f with
  | Some ps, Some _ =>
      match read Library B s f with
      | VRest (NTail c _) => Some (Cached c)
      | VRest (NFun g) => match get_scalar k_quantile_probability ps with Some p => Some (Number (g p)) | None => None end
      | VRest (NVFun g) => match get_scalar k_quantile_probability ps with Some p => Some (Numbers (g p)) | None => None end
      | VRest (NLoop g) => match get_scalar k_quantile_probability ps with Some p => Some (Loop (fun n => g n p)) | None => None end
      | v => Some (Plain v)
      end
  | _, _ => None
  end.
End OneSet.

(** A set from its construction to a question: accumulator_set<Sample, features<fs>[, Weight]> acc(c); the deeds;
    feature(acc, q). *)
Definition session (enum : fmap Library -> fmap Library) (W : bool) (fs : list (request Library))
  (c : list actual) (ds : list deed) (f : ltag) (q : list actual) : option answer :=
  let ts := make_tuple Library enum W fs in
  match arguments c with
  | Some ps =>
      if all_there ctor_needs ts ps && all_fit ctor_takes ts ps && negb (biased ps) then
        let A := to_args ts ps in
        match fold_left (act A) ds (Some (construct Library (WholeSets K A (pl_sqrt P)) enum W fs)) with
        | Some s => ask A s f q
        | None => None
        end
      else None
  | None => None
  end.

End Arguments.

Arguments Call {K} _.
Arguments Let_go {K} _.
Arguments Plain {K} _.
Arguments Cached {K} _.
Arguments Number {K} _.
Arguments Numbers {K} _.
Arguments Loop {K} _.
