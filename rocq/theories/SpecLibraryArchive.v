(** Which accumulators of the library can be saved, and keep what they need. *)
From Coq Require Import List Bool Arith.
From Verif Require Import ModelLibrary.
Import ListNotations.

(** No serialize() member, or one that cannot be called, or a dependency of this kind in every set.  (A
    moment of order 0 cannot be instantiated, and the abstract tags have no accumulator.) *)
Definition unsaved (t : ltag) : bool :=
  match t with
  | t_weighted_mean | t_weighted_mean_of_variates _ | t_lazy_weighted_variance | t_weighted_skewness | t_weighted_kurtosis
  | t_error_of_mean | t_error_of_immediate_mean
  | t_moment 0 | t_weighted_moment 0 | t_rolling_moment 0
  | t_weighted_median
  | t_tail_variate _ _ | t_tail_weights _
  | t_weighted_tail_quantile _ | t_non_coherent_weighted_tail_mean _
  | t_absolute_tail_variate_means _ _ | t_relative_tail_variate_means _ _
  | t_absolute_weighted_tail_variate_means _ _ | t_relative_weighted_tail_variate_means _ _
  | t_weighted_peaks_over_threshold_prob _
  | t_abstract_sum_of_variates | t_abstract_weighted_sum_of_variates | t_abstract_covariance | t_quantile | t_abstract_tail
  | t_abstract_tail_variate | t_abstract_tail_weights | t_tail_mean | t_abstract_non_coherent_tail_mean
  | t_abstract_absolute_tail_variate_means | t_abstract_relative_tail_variate_means
  | t_abstract_peaks_over_threshold => true
  | _ => false
  end.
(** weighted_peaks_over_threshold does not save the weight above the threshold. *)
Definition forgets (t : ltag) : bool := match t with t_weighted_peaks_over_threshold _ => true | _ => false end.
Definition keeps (t : ltag) : bool := negb (unsaved t || forgets t).
