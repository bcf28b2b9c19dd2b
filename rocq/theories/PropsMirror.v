(** C84: doubles in a mirror: negating the samples negates the odd results and leaves the even ones, bit for bit. *)
From Coq Require Import List Bool ZArith Lia.
From Verif Require Import Num ModelBasic ModelRolling ModelTail ModelHeap ModelDouble SpecDouble SpecMirror ProofMirror3 ProofMirror4 ProofMirrorEx.
Import ListNotations.

(** In all of these [turn] says whether the samples are negated; if not, the histories differ only in the signs of zeros.
    Sum, Kahan sum, mean and immediate mean, infinities and NaN included. *)
Theorem C84_means : forall turn xs ys, TurnedAll turn xs ys ->
  Turned turn (sum_run DoubleN d_zero xs) (sum_run DoubleN d_zero ys) /\ Turned turn (fst (kahan_run DoubleN d_zero xs)) (fst (kahan_run DoubleN d_zero ys)) /\
  Turned turn (lazy_mean xs) (lazy_mean ys) /\ Turned turn (immediate_mean xs) (immediate_mean ys).
Proof. exact mirror_means. Qed.
Print Assumptions C84_means.
Example C84_means_ex : TurnedAll true here there /\ TurnedAll false here zeroed /\ shown_double (immediate_mean here) = Some (7205738787949773, 5)%Z /\
  shown_double (immediate_mean there) = Some (-7205738787949773, 5)%Z.
Proof. exact mirror_case. Qed.

(** Variances: the lazy one is the same, bit for bit. *)
Theorem C84_variances : forall turn xs ys, TurnedAll turn xs ys ->
  Unturned (immediate_variance xs) (immediate_variance ys) /\
  Unturned (error_of_immediate_mean xs) (error_of_immediate_mean ys) /\
  lazy_variance_run DoubleN d_zero ys = lazy_variance_run DoubleN d_zero xs.
Proof. exact mirror_variances. Qed.
Print Assumptions C84_variances.

(** Moments: odd orders change their sign, even ones do not. *)
Theorem C84_moment : forall turn N xs ys a b, TurnedAll turn xs ys ->
  moment_run DoubleN N d_zero xs = Some a -> moment_run DoubleN N d_zero ys = Some b -> Turned (turn && Nat.odd N) a b.
Proof. exact mirror_moment. Qed.
Print Assumptions C84_moment.
Example C84_moment_ex : exists a b, moment_run DoubleN 3 d_zero here = Some a /\ moment_run DoubleN 3 d_zero there = Some b /\ d_lt d_zero a = true /\ d_lt b d_zero = true.
Proof. exact moment_case. Qed.

(** Skewness changes its sign, kurtosis does not, whatever the variance they divide by. *)
Theorem C84_shape : forall turn xs ys, TurnedAll turn xs ys ->
  (forall a b, skewness_run DoubleN d_sqrt d_zero xs = Some a -> skewness_run DoubleN d_sqrt d_zero ys = Some b -> Turned turn a b) /\
  (forall a b, kurtosis_run DoubleN d_zero xs = Some a -> kurtosis_run DoubleN d_zero ys = Some b -> Unturned a b).
Proof. exact mirror_shape. Qed.
Print Assumptions C84_shape.
Example C84_shape_ex : exists a b, skewness_run DoubleN d_sqrt d_zero [dbl 1 0; dbl 2 0; dbl 5 0] = Some a /\ skewness_run DoubleN d_sqrt d_zero [dbl (-1) 0; dbl (-2) 0; dbl (-5) 0] = Some b /\
  d_lt d_zero a = true /\ d_lt b d_zero = true.
Proof. exact shape_case. Qed.

(** The same with weights, which stay. *)
Theorem C84_weighted : forall turn h g, TurnedWeighted turn h g ->
  let s := wmean_set_run DoubleN d_zero d_zero h in let t := wmean_set_run DoubleN d_zero d_zero g in
  Turned turn (wm_sum DoubleN s) (wm_sum DoubleN t) /\ Turned turn (wmean_set_mean DoubleN s) (wmean_set_mean DoubleN t) /\
  Turned turn (fst (weighted_kahan_run DoubleN d_zero h)) (fst (weighted_kahan_run DoubleN d_zero g)) /\
  Turned turn (wv_mean DoubleN (wvar_set_run DoubleN d_zero d_zero h)) (wv_mean DoubleN (wvar_set_run DoubleN d_zero d_zero g)) /\
  Unturned (weighted_variance h) (weighted_variance g) /\
  (forall a b, lazy_weighted_variance_run DoubleN d_zero h = Some a -> lazy_weighted_variance_run DoubleN d_zero g = Some b -> Unturned a b) /\
  (forall N a b, weighted_moment_run DoubleN N d_zero h = Some a -> weighted_moment_run DoubleN N d_zero g = Some b -> Turned (turn && Nat.odd N) a b).
Proof. exact mirror_weighted. Qed.
Print Assumptions C84_weighted.
Theorem C84_weighted_shape : forall turn h g, TurnedWeighted turn h g ->
  (forall a b, weighted_skewness_run DoubleN d_sqrt d_zero h = Some a -> weighted_skewness_run DoubleN d_sqrt d_zero g = Some b -> Turned turn a b) /\
  (forall a b, weighted_kurtosis_run DoubleN d_zero h = Some a -> weighted_kurtosis_run DoubleN d_zero g = Some b -> Unturned a b).
Proof. exact mirror_weighted_shape. Qed.
Print Assumptions C84_weighted_shape.
Example C84_weighted_ex : TurnedWeighted true [(dbl 1 0, dbl 1 (-1)); (dbl 5 0, dbl 3 0)] [(dbl (-1) 0, dbl 1 (-1)); (dbl (-5) 0, dbl 3 0)] /\
  d_lt (wmean_set_mean DoubleN (wmean_set_run DoubleN d_zero d_zero [(dbl (-1) 0, dbl 1 (-1)); (dbl (-5) 0, dbl 3 0)])) d_zero = true.
Proof. exact weighted_case. Qed.

(** Covariances: the signs of samples and variates multiply. *)
Theorem C84_covariance : forall turn turnv h g, TurnedPairs turn turnv h g ->
  Turned (xorb turn turnv) (cs_cov DoubleN (cov_set_run DoubleN d_zero d_zero h)) (cs_cov DoubleN (cov_set_run DoubleN d_zero d_zero g)).
Proof. exact mirror_covariance. Qed.
Print Assumptions C84_covariance.
Theorem C84_weighted_covariance : forall turn turnv h g, TurnedTriples turn turnv h g ->
  Turned (xorb turn turnv) (wc_cov DoubleN (wcov_set_run DoubleN d_zero d_zero d_zero h)) (wc_cov DoubleN (wcov_set_run DoubleN d_zero d_zero d_zero g)).
Proof. exact mirror_wcovariance. Qed.
Print Assumptions C84_weighted_covariance.
Example C84_covariance_ex : TurnedPairs true false [(dbl 1 0, dbl 2 0); (dbl 3 0, dbl 7 0)] [(dbl (-1) 0, dbl 2 0); (dbl (-3) 0, dbl 7 0)] /\
  d_lt (cs_cov DoubleN (cov_set_run DoubleN d_zero d_zero [(dbl (-1) 0, dbl 2 0); (dbl (-3) 0, dbl 7 0)])) d_zero = true.
Proof. exact covariance_case. Qed.

(** Rolling windows. *)
Theorem C84_rolling : forall turn N M xs ys s t, TurnedAll turn xs ys -> rolling N M xs s -> rolling N M ys t ->
  TurnedAll turn (ro_window DoubleN N s) (ro_window DoubleN N t) /\
  Turned turn (r_sum s) (r_sum t) /\ Turned turn (ro_lazy_mean DoubleN N s) (ro_lazy_mean DoubleN N t) /\ Turned turn (r_mean s) (r_mean t) /\
  Turned (turn && Nat.odd M) (ro_moment DoubleN N s) (ro_moment DoubleN N t) /\
  Unturned (r_variance N s) (r_variance N t) /\ Unturned (ro_lazy_variance DoubleN N s) (ro_lazy_variance DoubleN N t) /\
  Unturned (ro_lazy_variance_lazy_mean DoubleN N s) (ro_lazy_variance_lazy_mean DoubleN N t).
Proof. exact mirror_rolling. Qed.
Print Assumptions C84_rolling.
Example C84_rolling_ex : exists s t, rolling 2 3 here s /\ rolling 2 3 there t.
Proof. exact rolling_case. Qed.

(** The left tail is the right tail in the mirror: the same places of the cache in the same order, for every heap algorithm
    that learns about the samples only by comparing them, among them the one of ModelHeap. *)
Theorem C84_tail : forall (V : Type) H lr c nv (dV : V) h g, Asking H -> TurnedOps true h g ->
  forall s, tail_run H (tail_pred DoubleN lr) (tail_init c nv d_zero dV) h = Ok s ->
  exists t, tail_run H (tail_pred DoubleN (opposite lr)) (tail_init c nv d_zero dV) g = Ok t /\
    (forall l, tail_result H (tail_pred DoubleN lr) s = Ok l -> exists l', tail_result H (tail_pred DoubleN (opposite lr)) t = Ok l' /\ TurnedAll true l l') /\
    forall j, tail_variate_result H (tail_pred DoubleN (opposite lr)) t j = tail_variate_result H (tail_pred DoubleN lr) s j.
Proof. exact mirror_tail. Qed.
Print Assumptions C84_tail.
Theorem C84_heap : Asking binary_heap.
Proof. exact binary_heap_asks. Qed.
Print Assumptions C84_heap.
Example C84_tail_ex : TurnedOps true [TPush (dbl 3 0) [tt]; TPush (dbl 1 0) [tt]; TExtract; TPush (dbl 2 0) [tt]] [TPush (dbl (-3) 0) [tt]; TPush (dbl (-1) 0) [tt]; TExtract; TPush (dbl (-2) 0) [tt]] /\
  exists s, tail_run binary_heap (tail_pred DoubleN Left) (tail_init 2 1 d_zero tt) [TPush (dbl 3 0) [tt]; TPush (dbl 1 0) [tt]; TExtract; TPush (dbl 2 0) [tt]] = Ok s /\
    exists l, tail_result binary_heap (tail_pred DoubleN Left) s = Ok l /\ length l = 2%nat.
Proof. exact tail_case. Qed.

(** The smallest sample is the largest in the mirror; for all doubles. *)
Theorem C84_extremes : forall xs ys, TurnedAll true xs ys -> Mirrored (minimum xs) (maximum ys) /\ Mirrored (maximum xs) (minimum ys).
Proof. exact mirror_extremes. Qed.
Print Assumptions C84_extremes.
