(** C82: raising samples never lowers sums and means of doubles. *)
From Coq Require Import List Bool ZArith Lia.
From Verif Require Import Num ModelBasic ModelRolling ModelDouble SpecStats SpecDouble SpecMonotone ProofMonotone2.
Import ListNotations.

(** Sum, mean and immediate mean: for all doubles, infinities and NaN included (a comparison with NaN is never true). *)
Theorem C82_means : forall xs ys, Higher xs ys ->
  d_lt (sum_run DoubleN d_zero ys) (sum_run DoubleN d_zero xs) = false /\ d_lt (lazy_mean ys) (lazy_mean xs) = false /\
  d_lt (immediate_mean ys) (immediate_mean xs) = false.
Proof. exact sums_higher. Qed.
Print Assumptions C82_means.
Example C82_means_ex : Higher [dbl 1 0; dbl 1 60; dbl (-3) 0] [dbl 1 0; dbl 1 61; dbl (-3) (-1)] /\
  d_lt (immediate_mean [dbl 1 0; dbl 1 60; dbl (-3) 0]) (immediate_mean [dbl 1 0; dbl 1 61; dbl (-3) (-1)]) = true.
Proof. split; [repeat constructor | vm_compute; reflexivity]. Qed.

(** The weighted ones, for the same weights, none of them below zero. *)
Theorem C82_weighted : forall h g, HigherWeighted h g ->
  let s := wmean_set_run DoubleN d_zero d_zero h in let t := wmean_set_run DoubleN d_zero d_zero g in
  d_lt (wm_sum DoubleN t) (wm_sum DoubleN s) = false /\ d_lt (wmean_set_mean DoubleN t) (wmean_set_mean DoubleN s) = false /\
  d_lt (wv_mean DoubleN (wvar_set_run DoubleN d_zero d_zero g)) (wv_mean DoubleN (wvar_set_run DoubleN d_zero d_zero h)) = false.
Proof. exact weighted_higher. Qed.
Print Assumptions C82_weighted.
Example C82_weighted_ex : HigherWeighted [(dbl 1 0, dbl 1 (-1)); (dbl 5 0, dbl 3 0)] [(dbl 2 0, dbl 1 (-1)); (dbl 5 0, dbl 3 0)] /\
  d_lt (wmean_set_mean DoubleN (wmean_set_run DoubleN d_zero d_zero [(dbl 1 0, dbl 1 (-1)); (dbl 5 0, dbl 3 0)]))
       (wmean_set_mean DoubleN (wmean_set_run DoubleN d_zero d_zero [(dbl 2 0, dbl 1 (-1)); (dbl 5 0, dbl 3 0)])) = true.
Proof. split; [repeat constructor | vm_compute; reflexivity]. Qed.

(** Rolling sum and lazy rolling mean: raising samples that are still in the window, whatever came before. *)
Theorem C82_window : forall N M zs xs ys, (1 <= M)%nat -> (length xs <= N)%nat -> Higher xs ys ->
  forall s t, rolling N M (zs ++ xs) s -> rolling N M (zs ++ ys) t ->
  d_lt (r_sum t) (r_sum s) = false /\ d_lt (ro_lazy_mean DoubleN N t) (ro_lazy_mean DoubleN N s) = false.
Proof. exact windows_higher. Qed.
Print Assumptions C82_window.
Example C82_window_ex : exists s t, rolling 2 1 ([dbl 7 0; dbl 1 60] ++ [dbl 1 0; dbl 2 0]) s /\ rolling 2 1 ([dbl 7 0; dbl 1 60] ++ [dbl 1 0; dbl 4 10]) t /\
  Higher [dbl 1 0; dbl 2 0] [dbl 1 0; dbl 4 10].
Proof. exact window_case. Qed.

(** A sample that has left the window: raising it can lower the rolling sum, the windows being the same. *)
Theorem C82_window_refuted : Higher lo4 hi4 /\
  exists s t, rolling 2 1 lo4 s /\ rolling 2 1 hi4 t /\ ro_window DoubleN 2 s = ro_window DoubleN 2 t /\ d_lt (r_sum t) (r_sum s) = true.
Proof. exact left_window. Qed.
Print Assumptions C82_window_refuted.

(** The default rolling mean: raising a sample of the window, here the first of 2, -2^54, lowers it. *)
Theorem C82_rolling_mean_refuted : Higher lo2 hi2 /\ exists s t, rolling 2 1 lo2 s /\ rolling 2 1 hi2 t /\ d_lt (r_mean t) (r_mean s) = true.
Proof. exact default_mean. Qed.
Print Assumptions C82_rolling_mean_refuted.

(** Smallest and largest sample, of samples that are numbers. *)
Theorem C82_extremes : forall xs ys, Forall (fun x => ~ nan x) xs -> Forall (fun y => ~ nan y) ys -> Higher xs ys ->
  d_lt (minimum ys) (minimum xs) = false /\ d_lt (maximum ys) (maximum xs) = false.
Proof. exact extremes_higher. Qed.
Print Assumptions C82_extremes.
Example C82_extremes_ex : Forall (fun x => ~ nan x) [dbl 1 0; d_opp d_inf] /\ Forall (fun y => ~ nan y) [dbl 3 0; d_one] /\ Higher [dbl 1 0; d_opp d_inf] [dbl 3 0; d_one].
Proof. repeat split; repeat constructor; discriminate. Qed.
