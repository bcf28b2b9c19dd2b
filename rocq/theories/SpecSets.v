(** What a set must answer: the textbook value of each feature over the samples
    pushed, whatever else the set contains. *)

From Coq Require Import List Bool Arith.
From Verif Require Import Num SpecStats ModelFramework SpecFramework ModelLibrary ModelSets.
Import ListNotations.

(** The variate a tag is about. *)
Definition variate_of (t : ltag) : option nat :=
  match t with
  | t_sum_of_variates v | t_sum_of_variates_kahan v
  | t_weighted_sum_of_variates v | t_weighted_sum_of_variates_kahan v
  | t_mean_of_variates v | t_immediate_mean_of_variates v
  | t_weighted_mean_of_variates v | t_immediate_weighted_mean_of_variates v
  | t_covariance v | t_weighted_covariance v => Some v
  | _ => None
  end.

(** The orders of moments are positive (static assertion, moment.hpp 56). *)
Definition order_ok (t : ltag) : Prop :=
  match t with t_moment n | t_weighted_moment n => 1 <= n | _ => True end.

(** rolling_variance and its immediate version, which keep the mean of the previous
    window. *)
Definition rolling_variance_kind (t : ltag) : bool :=
  match t with t_rolling_variance | t_immediate_rolling_variance => true | _ => false end.

(** The accumulators whose abstract feature lists a dependency that they do not have:
    drop<Feature>() of one of these releases something it never held. *)
Definition drops_too_much (t : ltag) : bool :=
  match t with
  | t_immediate_mean | t_weighted_mean | t_immediate_weighted_mean
  | t_immediate_mean_of_weights | t_immediate_mean_of_variates _
  | t_weighted_mean_of_variates _ | t_immediate_weighted_mean_of_variates _
  | t_lazy_variance | t_lazy_weighted_variance
  | t_with_density_median | t_with_p_square_cumulative_distribution_median
  | t_weighted_median | t_with_density_weighted_median
  | t_with_p_square_cumulative_distribution_weighted_median
  | t_lazy_rolling_mean | t_lazy_rolling_variance => true
  | _ => false
  end.

(** A set that compiles ([laccepted]); that does not combine rolling_variance with the
    lazy rolling_mean (see C39). *)
Definition Compiles (W : bool) (ts : list (ftag Library)) : Prop :=
  forall t, In t ts -> laccepted W (fst t) = true.
Definition NoRollingClash (ts : list (ftag Library)) : Prop :=
  forall a b, In a ts -> In b ts ->
    rolling_variance_kind (fst a) = true -> fst b <> t_lazy_rolling_mean.

(** All covariates of the set are the same one (see C40). *)
Definition OneVariate (v : nat) (ts : list (ftag Library)) : Prop :=
  forall t n, In t ts -> variate_of (fst t) = Some n -> n = v.

(** The accumulators outside [basic] look at the set only through what they consult. *)
Definition RestReadsOnly {K : Num} (R : Rest K) : Prop :=
  (forall t r1 r2 x s,
     (lon_push t = true ->
      forall d, In d (lconsults t) -> r1 (lfeature d) = r2 (lfeature d)) ->
     xstep K R t r1 x s = xstep K R t r2 x s) /\
  (forall t r1 r2 s,
     (forall d, In d (lconsults t) -> r1 (lfeature d) = r2 (lfeature d)) ->
     xresult K R t r1 s = xresult K R t r2 s).

(** What is dropped was requested as droppable, is dropped once, and is not one of
    [drops_too_much]. *)
Definition SafeDrops (fs : list (request Library)) (ts : list (ftag Library)) (ds : list ltag) : Prop :=
  LegalDrops Library fs ts ds /\
  forall r t, In t ds -> In r ts -> lfeature (fst r) = lfeature t -> drops_too_much (fst r) = false.

Section Spec.
Variable K : Num.
Variable sqrt : car K -> car K.
Variable Y : Type.
Local Notation T := (car K).
Local Notation id := (fun x => x).

Section Data.
Variable xs : list (pack K).
Variable v : nat.
Definition samples_of : list T := map p_sample xs.
Definition weights_of : list T := map p_weight xs.
Definition variates_of : list T := map (fun p => p_variate p v) xs.
Definition weighted_samples : list (T * T) := map (fun p => (p_sample p, p_weight p)) xs.
Definition weighted_variates : list (T * T) := map (fun p => (p_variate p v, p_weight p)) xs.
Definition pairs_of : list (T * T) := map (fun p => (p_sample p, p_variate p v)) xs.
Definition weighted_pairs : list (T * T * T) :=
  map (fun p => (p_sample p, p_variate p v, p_weight p)) xs.
End Data.

(** In a set with weights the sum of the weights is never zero. *)
Definition WeightsOk (W : bool) (xs : list (pack K)) : Prop :=
  W = true -> PrefixWeightsNonzero K (weighted_samples xs).

(** The value of feature [f] after [xs]; [W]: the set has weights; [v]: the variate.
    The features of an empty history that are quotients are left open. *)
Definition Answer (W : bool) (v : nat) (f : ltag) (xs : list (pack K)) (a : value K Y) : Prop :=
  let ws := weighted_samples xs in
  match f with
  | t_count => a = VNat (length xs)
  | t_sum => a = VNum (if W then total K (fun p => mul K (snd p) (fst p)) ws
                       else total K id (samples_of xs))
  | t_sum_of_weights => a = VNum (total K id (weights_of xs))
  | t_abstract_sum_of_variates => a = VNum (total K id (variates_of xs v))
  | t_abstract_weighted_sum_of_variates =>
      a = VNum (total K (fun p => mul K (snd p) (fst p)) (weighted_variates xs v))
  | t_mean => xs <> [] -> a = VNum (if W then WMean K ws else Mean K (samples_of xs))
  | t_mean_of_weights => xs <> [] -> a = VNum (Mean K (weights_of xs))
  | t_mean_of_variates n => n = v -> xs <> [] ->
      a = VNum (if W then WMean K (weighted_variates xs v) else Mean K (variates_of xs v))
  | t_moment n => xs <> [] ->
      a = VNum (if W then WMoment K n ws else Moment K n (samples_of xs))
  | t_variance => xs <> [] -> a = VNum (if W then WVariance K ws else Variance K (samples_of xs))
  | t_skewness => xs <> [] ->
      a = VNum (if W then div K (WCentralMoment K 3 ws)
                              (mul K (WVariance K ws) (sqrt (WVariance K ws)))
                else div K (CentralMoment K 3 (samples_of xs))
                         (mul K (Variance K (samples_of xs)) (sqrt (Variance K (samples_of xs)))))
  | t_kurtosis => xs <> [] ->
      a = VNum (if W then sub K (div K (WCentralMoment K 4 ws)
                                    (mul K (WVariance K ws) (WVariance K ws))) (ofnat K 3)
                else sub K (div K (CentralMoment K 4 (samples_of xs))
                              (mul K (Variance K (samples_of xs)) (Variance K (samples_of xs))))
                         (ofnat K 3))
  | t_abstract_covariance => xs <> [] ->
      a = VNum (if W then WCovariance K (weighted_pairs xs v) else Covariance K (pairs_of xs v))
  | t_error_of_mean | t_error_of_immediate_mean => xs <> [] ->
      a = VNum (sqrt (div K (Variance K (samples_of xs)) (ofnat K (length xs - 1))))
  | _ => True
  end.

End Spec.
