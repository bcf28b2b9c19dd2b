(** The statistics of doubles in two units. *)
From Coq Require Import List Bool Arith Lia ZArith Reals Lra.
From Flocq Require Import Core IEEE754.BinarySingleNaN.
From Verif Require Import Num ModelBasic ModelMinMax ModelRolling ModelTail ModelHeap ModelDouble SpecDouble SpecMirror SpecScale ProofDouble ProofDouble4 ProofMirror ProofMirror2 ProofMirror3 ProofMirror4 ProofScale ProofScale2 ProofScale3.
Import ListNotations.

(** Sums: a finite result means that nothing happened. *)
Definition honest (d : Z) (a : watched) (x : double) : Prop := fst a = x /\ (is_finite x = true -> snd a = true).
Lemma h_zero d : honest d (zero WatchedN) (zero DoubleN). Proof. split; reflexivity. Qed.
Lemma add_finite (x y : double) : is_finite (d_add x y) = true -> is_finite x = true /\ is_finite y = true.
Proof. destruct x as [sx|[]| |sx mx ex Bx], y as [sy|[]| |sy my ey By]; cbn; intros H; try discriminate; split; reflexivity. Qed.
Lemma sub_finite (x y : double) : is_finite (d_sub x y) = true -> is_finite x = true /\ is_finite y = true.
Proof. destruct x as [sx|[]| |sx mx ex Bx], y as [sy|[]| |sy my ey By]; cbn; intros H; try discriminate; split; reflexivity. Qed.
Lemma h_add d a b x y : honest d a b -> honest d x y -> honest d (add WatchedN a x) (add DoubleN b y).
Proof.
  intros [<- H1] [<- H2]. split; [reflexivity |]. intros F. cbn in F |- *. destruct (add_finite _ _ F) as [F1 F2]. now rewrite H1, H2, F.
Qed.
Lemma h_sub d a b x y : honest d a b -> honest d x y -> honest d (sub WatchedN a x) (sub DoubleN b y).
Proof.
  intros [<- H1] [<- H2]. split; [reflexivity |]. intros F. cbn in F |- *. destruct (sub_finite _ _ F) as [F1 F2]. now rewrite H1, H2, F.
Qed.
Lemma honest_all xs : Forall2 (honest 0) (map watch xs) xs.
Proof. induction xs; constructor; [split; [reflexivity | exact (fun H => H)] | assumption]. Qed.
Lemma scale_sums e xs ys : ScaledAll e xs ys ->
  (finite (sum_run DoubleN d_zero xs) -> finite (sum_run DoubleN d_zero ys) -> Scaled e (sum_run DoubleN d_zero xs) (sum_run DoubleN d_zero ys)) /\
  (finite (fst (kahan_run DoubleN d_zero xs)) -> finite (fst (kahan_run DoubleN d_zero ys)) -> Scaled e (fst (kahan_run DoubleN d_zero xs)) (fst (kahan_run DoubleN d_zero ys))).
Proof.
  intros F. apply watch_all in F. split; intros F1 F2.
  - destruct (unit_sum _ _ _ h_zero h_add 0 _ _ (honest_all xs)) as [E1 H1]. destruct (unit_sum _ _ _ h_zero h_add 0 _ _ (honest_all ys)) as [E2 H2].
    pose proof (unit_sum _ _ _ w_zero w_add_s e _ _ F (H1 F1) (H2 F2)) as Q. rewrite E1, E2 in Q. exact Q.
  - destruct (unit_kahan _ _ _ h_zero h_add h_sub 0 _ _ (honest_all xs)) as [E1 H1]. destruct (unit_kahan _ _ _ h_zero h_add h_sub 0 _ _ (honest_all ys)) as [E2 H2].
    pose proof (unit_kahan _ _ _ w_zero w_add_s w_sub_s e _ _ F (H1 F1) (H2 F2)) as Q. rewrite E1, E2 in Q. exact Q.
Qed.

Lemma both_same (d : Z) a b : both (same d) a b -> b = plain a.
Proof. destruct a, b; cbn; try contradiction; [intros <-; reflexivity | reflexivity]. Qed.
Notation W := WatchedN.
Notation W0 := (zero WatchedN).
(** Watching changes nothing. *)
Lemma watched_plain xs :
  lazy_mean xs = fst (mean_set_mean W (mean_set_run W W0 (map watch xs))) /\ immediate_mean xs = fst (im_mean W (imean_set_run W W0 (map watch xs))) /\
  immediate_variance xs = fst (vs_var W (var_set_run W W0 (map watch xs))) /\ lazy_variance_run DoubleN d_zero xs = plain (lazy_variance_run W W0 (map watch xs)) /\
  error_of_immediate_mean xs = fst (error_of_immediate_mean_run W w_sqrt (map watch xs)) /\ error_of_mean_run DoubleN d_sqrt xs = plain (error_of_mean_run W w_sqrt (map watch xs)) /\
  (forall N, moment_run DoubleN N d_zero xs = plain (moment_run W N W0 (map watch xs))) /\
  skewness_run DoubleN d_sqrt d_zero xs = plain (skewness_run W w_sqrt W0 (map watch xs)) /\ kurtosis_run DoubleN d_zero xs = plain (kurtosis_run W W0 (map watch xs)).
Proof.
  pose proof (same_all xs) as F.
  split; [symmetry; exact (unit_mean _ _ _ s_zero s_one s_add s_div 0 _ _ F) |].
  split; [symmetry; exact (unit_imean _ _ _ s_zero s_one s_add s_mul s_div 0 _ _ F) |].
  split; [symmetry; exact (proj2 (proj2 (unit_variance _ _ _ s_zero s_one s_add s_sub s_mul s_div 0 _ _ F))) |].
  split; [exact (both_same _ _ _ (unit_lazy_variance _ _ _ s_zero s_one s_add s_sub s_mul s_div 0 _ _ F)) |].
  split; [symmetry; exact (unit_error_immediate _ _ _ s_zero s_one s_add s_sub s_mul s_div 0 _ _ s_sqrt _ _ F) |].
  split; [exact (both_same _ _ _ (unit_error_lazy _ _ _ s_zero s_one s_add s_sub s_mul s_div 0 _ _ s_sqrt _ _ F)) |].
  split; [intros N; exact (both_same _ _ _ (unit_moment _ _ _ s_zero s_one s_add s_mul s_div 0 N _ _ F)) |].
  split; [exact (both_same _ _ _ (unit_skewness_run _ _ _ s_zero s_one s_add s_sub s_mul s_div 0 _ _ s_sqrt _ _ F)) |].
  exact (both_same _ _ _ (unit_kurtosis_run _ _ _ s_zero s_one s_add s_sub s_mul s_div 0 _ _ F)).
Qed.
Lemma watched_weighted h :
  wm_sum DoubleN (wmean_set_run DoubleN d_zero d_zero h) = fst (wm_sum W (wmean_set_run W W0 W0 (map watch2 h))) /\
  wmean_set_mean DoubleN (wmean_set_run DoubleN d_zero d_zero h) = fst (wmean_set_mean W (wmean_set_run W W0 W0 (map watch2 h))) /\
  fst (weighted_kahan_run DoubleN d_zero h) = fst (fst (weighted_kahan_run W W0 (map watch2 h))) /\
  wv_mean DoubleN (wvar_set_run DoubleN d_zero d_zero h) = fst (wv_mean W (wvar_set_run W W0 W0 (map watch2 h))) /\
  weighted_variance h = fst (wv_var W (wvar_set_run W W0 W0 (map watch2 h))) /\
  lazy_weighted_variance_run DoubleN d_zero h = plain (lazy_weighted_variance_run W W0 (map watch2 h)) /\
  (forall N, weighted_moment_run DoubleN N d_zero h = plain (weighted_moment_run W N W0 (map watch2 h))) /\
  weighted_skewness_run DoubleN d_sqrt d_zero h = plain (weighted_skewness_run W w_sqrt W0 (map watch2 h)) /\
  weighted_kurtosis_run DoubleN d_zero h = plain (weighted_kurtosis_run W W0 (map watch2 h)) /\
  cs_cov DoubleN (cov_set_run DoubleN d_zero d_zero h) = fst (cs_cov W (cov_set_run W W0 W0 (map watch2 h))).
Proof.
  pose proof (same_pairs h) as F. destruct (unit_wmean _ _ _ s_zero s_one s_add s_mul s_div 0 0 _ _ F) as [H1 H2]. destruct (unit_wvar _ _ _ s_zero s_one s_add s_sub s_mul s_div 0 0 _ _ F) as [H3 H4].
  split; [symmetry; exact H1 |]. split; [symmetry; exact H2 |].
  split; [symmetry; exact (unit_wkahan _ _ _ s_zero s_one s_add s_sub s_mul 0 0 _ _ F) |].
  split; [symmetry; exact H3 |]. split; [symmetry; exact H4 |].
  split; [exact (both_same _ _ _ (unit_lazy_wvariance _ _ _ s_zero s_one s_add s_sub s_mul s_div 0 0 _ _ F)) |].
  split; [intros N; exact (both_same _ _ _ (unit_wmoment _ _ _ s_zero s_one s_add s_mul s_div 0 0 N _ _ F)) |].
  split; [exact (both_same _ _ _ (unit_wskewness_run _ _ _ s_zero s_one s_add s_sub s_mul s_div 0 _ _ s_sqrt 0 _ _ F)) |].
  split; [exact (both_same _ _ _ (unit_wkurtosis_run _ _ _ s_zero s_one s_add s_sub s_mul s_div 0 0 _ _ F)) |].
  symmetry. exact (unit_covariance _ _ _ s_zero s_one s_add s_sub s_mul s_div 0 0 _ _ F).
Qed.
Lemma watched_triples h : wc_cov DoubleN (wcov_set_run DoubleN d_zero d_zero d_zero h) = fst (wc_cov W (wcov_set_run W W0 W0 W0 (map watch3 h))).
Proof. symmetry. exact (unit_wcovariance _ _ _ s_zero s_one s_add s_sub s_mul s_div 0 0 0 _ _ (same_triples h)). Qed.

(** The statistics. *)
Lemma both_scaled e a b : both (WScaled e) a b -> BothScaled e a b.
Proof. destruct a, b; exact (fun H => H). Qed.
Lemma scale_plain e xs ys : ScaledAll e xs ys ->
  let ws := map watch xs in let vs := map watch ys in
  ScaledIfCalm e (mean_set_mean W (mean_set_run W W0 ws)) (mean_set_mean W (mean_set_run W W0 vs)) /\
  ScaledIfCalm e (im_mean W (imean_set_run W W0 ws)) (im_mean W (imean_set_run W W0 vs)) /\
  ScaledIfCalm (e + e) (vs_var W (var_set_run W W0 ws)) (vs_var W (var_set_run W W0 vs)) /\
  BothScaled (e + e) (lazy_variance_run W W0 ws) (lazy_variance_run W W0 vs) /\
  ScaledIfCalm e (error_of_immediate_mean_run W w_sqrt ws) (error_of_immediate_mean_run W w_sqrt vs) /\
  BothScaled e (error_of_mean_run W w_sqrt ws) (error_of_mean_run W w_sqrt vs) /\
  (forall N, BothScaled (Z.of_nat N * e) (moment_run W N W0 ws) (moment_run W N W0 vs)) /\
  BothScaled 0 (skewness_run W w_sqrt W0 ws) (skewness_run W w_sqrt W0 vs) /\ BothScaled 0 (kurtosis_run W W0 ws) (kurtosis_run W W0 vs).
Proof.
  intros F. cbv zeta. apply watch_all in F.
  split; [exact (unit_mean _ _ _ w_zero w_one w_add_s w_div_s e _ _ F) |].
  split; [exact (unit_imean _ _ _ w_zero w_one w_add_s w_mul_s w_div_s e _ _ F) |].
  split; [exact (proj2 (proj2 (unit_variance _ _ _ w_zero w_one w_add_s w_sub_s w_mul_s w_div_s e _ _ F))) |].
  split; [exact (both_scaled _ _ _ (unit_lazy_variance _ _ _ w_zero w_one w_add_s w_sub_s w_mul_s w_div_s e _ _ F)) |].
  split; [exact (unit_error_immediate _ _ _ w_zero w_one w_add_s w_sub_s w_mul_s w_div_s e _ _ w_sqrt_scaled _ _ F) |].
  split; [exact (both_scaled _ _ _ (unit_error_lazy _ _ _ w_zero w_one w_add_s w_sub_s w_mul_s w_div_s e _ _ w_sqrt_scaled _ _ F)) |].
  split; [intros N; exact (both_scaled _ _ _ (unit_moment _ _ _ w_zero w_one w_add_s w_mul_s w_div_s e N _ _ F)) |].
  split; [exact (both_scaled _ _ _ (unit_skewness_run _ _ _ w_zero w_one w_add_s w_sub_s w_mul_s w_div_s e _ _ w_sqrt_scaled _ _ F)) |].
  exact (both_scaled _ _ _ (unit_kurtosis_run _ _ _ w_zero w_one w_add_s w_sub_s w_mul_s w_div_s e _ _ F)).
Qed.
Lemma scale_weighted d e h g : ScaledPairs d e h g ->
  let ws := map watch2 h in let vs := map watch2 g in
  ScaledIfCalm (d + e) (wm_sum W (wmean_set_run W W0 W0 ws)) (wm_sum W (wmean_set_run W W0 W0 vs)) /\
  ScaledIfCalm d (wmean_set_mean W (wmean_set_run W W0 W0 ws)) (wmean_set_mean W (wmean_set_run W W0 W0 vs)) /\
  ScaledIfCalm (d + e) (fst (weighted_kahan_run W W0 ws)) (fst (weighted_kahan_run W W0 vs)) /\
  ScaledIfCalm d (wv_mean W (wvar_set_run W W0 W0 ws)) (wv_mean W (wvar_set_run W W0 W0 vs)) /\
  ScaledIfCalm (d + d) (wv_var W (wvar_set_run W W0 W0 ws)) (wv_var W (wvar_set_run W W0 W0 vs)) /\
  BothScaled (d + d) (lazy_weighted_variance_run W W0 ws) (lazy_weighted_variance_run W W0 vs) /\
  (forall N, BothScaled (Z.of_nat N * d) (weighted_moment_run W N W0 ws) (weighted_moment_run W N W0 vs)) /\
  BothScaled 0 (weighted_skewness_run W w_sqrt W0 ws) (weighted_skewness_run W w_sqrt W0 vs) /\
  BothScaled 0 (weighted_kurtosis_run W W0 ws) (weighted_kurtosis_run W W0 vs).
Proof.
  intros F. cbv zeta. apply watch_pairs in F. destruct (unit_wmean _ _ _ w_zero w_one w_add_s w_mul_s w_div_s d e _ _ F) as [H1 H2]. destruct (unit_wvar _ _ _ w_zero w_one w_add_s w_sub_s w_mul_s w_div_s d e _ _ F) as [H3 H4].
  split; [exact H1 |]. split; [exact H2 |].
  split; [exact (unit_wkahan _ _ _ w_zero w_one w_add_s w_sub_s w_mul_s d e _ _ F) |].
  split; [exact H3 |]. split; [exact H4 |].
  split; [exact (both_scaled _ _ _ (unit_lazy_wvariance _ _ _ w_zero w_one w_add_s w_sub_s w_mul_s w_div_s d e _ _ F)) |].
  split; [intros N; exact (both_scaled _ _ _ (unit_wmoment _ _ _ w_zero w_one w_add_s w_mul_s w_div_s d e N _ _ F)) |].
  split; [exact (both_scaled _ _ _ (unit_wskewness_run _ _ _ w_zero w_one w_add_s w_sub_s w_mul_s w_div_s d _ _ w_sqrt_scaled e _ _ F)) |].
  exact (both_scaled _ _ _ (unit_wkurtosis_run _ _ _ w_zero w_one w_add_s w_sub_s w_mul_s w_div_s d e _ _ F)).
Qed.
Lemma scale_covariance d e h g : ScaledPairs d e h g ->
  ScaledIfCalm (e + d) (cs_cov W (cov_set_run W W0 W0 (map watch2 h))) (cs_cov W (cov_set_run W W0 W0 (map watch2 g))).
Proof. intros F. exact (unit_covariance _ _ _ w_zero w_one w_add_s w_sub_s w_mul_s w_div_s d e _ _ (watch_pairs _ _ _ _ F)). Qed.
Lemma scale_wcovariance d t e h g : ScaledTriples d t e h g ->
  ScaledIfCalm (t + d) (wc_cov W (wcov_set_run W W0 W0 W0 (map watch3 h))) (wc_cov W (wcov_set_run W W0 W0 W0 (map watch3 g))).
Proof. intros F. exact (unit_wcovariance _ _ _ w_zero w_one w_add_s w_sub_s w_mul_s w_div_s d e t _ _ (watch_triples _ _ _ _ _ F)). Qed.

Lemma watched_window xs ws : Forall2 (same 0) ws xs -> xs = map fst ws.
Proof. intros F. induction F as [|a b ws xs H F IH]; cbn; [reflexivity |]. now rewrite H, IH. Qed.
Lemma wx_window e ws vs : Forall2 (WX e) ws vs -> ScaledAll e (map fst ws) (map fst vs).
Proof. intros F. induction F as [|a b ws vs (_ & _ & H) F IH]; constructor; assumption. Qed.
Lemma watched_rolling N M xs s w : rolling N M xs s -> roll_run W N M W0 (map watch xs) = Some w ->
  ro_window DoubleN N s = map fst (ro_window W N w) /\ r_sum s = fst (ro_sum W w) /\ ro_lazy_mean DoubleN N s = fst (ro_lazy_mean W N w) /\ r_mean s = fst (ro_mean W w) /\
  ro_moment DoubleN N s = fst (ro_moment W N w) /\ ro_lazy_variance DoubleN N s = fst (ro_lazy_variance W N w) /\
  ro_lazy_variance_lazy_mean DoubleN N s = fst (ro_lazy_variance_lazy_mean W N w).
Proof.
  intros E1 E2. pose proof (unit_roll W DoubleN same same s_zero s_one s_add s_sub s_mul s_div (fun _ _ _ H => H) s_move (fun d m m' x y n H1 H2 => s_move d m m' m m' x y n H1 H1 H2) 0 N M _ _ (same_all xs)) as Q.
  pose proof (both_some _ _ _ _ _ Q E2 E1) as L. destruct (unit_roll_results W DoubleN same same s_zero s_one s_add s_sub s_mul s_div 0 N M _ _ L) as (H1 & H2 & H3 & H4 & H5 & H6 & H7).
  split; [exact (watched_window _ _ H1) |]. split; [symmetry; exact H2 |]. split; [symmetry; exact H3 |]. split; [symmetry; exact H4 |]. split; [symmetry; exact H5 |]. split; symmetry; [exact H6 | exact H7].
Qed.
Lemma scale_rolling e N M xs ys w v : ScaledAll e xs ys -> roll_run W N M W0 (map watch xs) = Some w -> roll_run W N M W0 (map watch ys) = Some v ->
  ScaledAll e (map fst (ro_window W N w)) (map fst (ro_window W N v)) /\
  ScaledIfCalm e (ro_sum W w) (ro_sum W v) /\ ScaledIfCalm e (ro_lazy_mean W N w) (ro_lazy_mean W N v) /\ ScaledIfCalm e (ro_mean W w) (ro_mean W v) /\
  ScaledIfCalm (Z.of_nat M * e) (ro_moment W N w) (ro_moment W N v) /\ ScaledIfCalm (e + e) (ro_lazy_variance W N w) (ro_lazy_variance W N v) /\
  ScaledIfCalm (e + e) (ro_lazy_variance_lazy_mean W N w) (ro_lazy_variance_lazy_mean W N v).
Proof.
  intros F E1 E2. pose proof (unit_roll W W WScaled WX w_zero w_one w_add_s w_sub_s w_mul_s w_div_s wx_r w_move w_move_self e N M _ _ (watch_scaled _ _ _ F)) as Q.
  pose proof (both_some _ _ _ _ _ Q E1 E2) as L. destruct (unit_roll_results W W WScaled WX w_zero w_one w_add_s w_sub_s w_mul_s w_div_s e N M _ _ L) as (H1 & H2).
  split; [exact (wx_window _ _ _ H1) | exact H2].
Qed.

(** Order statistics need no arithmetic. *)
Definition stretched (e : Z) (s : bool) (x y : double) : Prop := if s then Scaled 0 d_zero x /\ Scaled 0 d_zero y else Scaled e x y.
Lemma st_zero e s : stretched e s (zero DoubleN) (zero DoubleN).
Proof. destruct s; cbn; unfold Scaled, finite, val; cbn; repeat split; lra. Qed.
Lemma st_lt e s a b x y : stretched e s a b -> stretched e s x y -> ltb DoubleN b y = if s then ltb DoubleN x a else ltb DoubleN a x.
Proof.
  destruct s; cbn; [| apply scaled_lt]. intros [H1 H2] [H3 H4]. transitivity (d_lt d_zero d_zero); [exact (scaled_lt 0 _ _ _ _ H2 H4) | symmetry; exact (scaled_lt 0 _ _ _ _ H3 H1)].
Qed.
Lemma scale_tail (V : Type) H lr c nv (dV : V) e h g : Asking H -> ScaledOps e h g ->
  forall s, tail_run H (tail_pred DoubleN lr) (tail_init c nv d_zero dV) h = Ok s ->
  exists t, tail_run H (tail_pred DoubleN lr) (tail_init c nv d_zero dV) g = Ok t /\
    (forall l, tail_result H (tail_pred DoubleN lr) s = Ok l -> exists l', tail_result H (tail_pred DoubleN lr) t = Ok l' /\ ScaledAll e l l') /\
    forall j, tail_variate_result H (tail_pred DoubleN lr) t j = tail_variate_result H (tail_pred DoubleN lr) s j.
Proof.
  intros HA F s E. pose proof (turn_tail DoubleN (stretched e) (st_zero e) (st_lt e) V H HA false lr c nv dV h g F) as Q.
  destruct (like_out_ok _ _ _ _ Q E) as [t [Et L]]. exists t. split; [exact Et |]. split.
  - intros l El. exact (like_out_ok _ _ _ _ (turn_result DoubleN (stretched e) (st_lt e) V H HA false lr s t L) El).
  - intros j. symmetry. exact (turn_vresult DoubleN (stretched e) (st_lt e) V H HA false lr s t j L).
Qed.
Lemma minimum_one x : is_finite x = true -> minimum [x] = x.
Proof.
  intros F. change (minimum [x]) with (if d_lt x d_max then x else d_max). destruct (d_lt x d_max) eqn:E; [reflexivity |]. destruct (top_rank x) as [-> | ->]; try assumption; [now destruct x | reflexivity | discriminate].
Qed.
Lemma maximum_one x : is_finite x = true -> maximum [x] = x.
Proof.
  intros F. change (maximum [x]) with (if d_lt (d_opp d_max) x then x else d_opp d_max). destruct (d_lt (d_opp d_max) x) eqn:E; [reflexivity |]. destruct (bottom_rank x) as [-> | ->]; try assumption; [now destruct x | reflexivity | discriminate].
Qed.
Lemma scale_extremes e xs ys : ScaledAll e xs ys -> xs <> [] -> Scaled e (minimum xs) (minimum ys) /\ Scaled e (maximum xs) (maximum ys).
Proof.
  intros F N. destruct F as [|x y xs ys H F]; [contradiction |]. destruct H as (F1 & F2 & V). unfold finite in *.
  pose proof (minimum_one x F1) as A1. pose proof (minimum_one y F2) as A2. pose proof (maximum_one x F1) as B1. pose proof (maximum_one y F2) as B2.
  unfold minimum, maximum, min_run, max_run in *. cbn [fold_left] in *. rewrite A1, A2, B1, B2. split.
  - apply (fold_rel (Scaled e) (Scaled e)); [| exact F | repeat split; assumption]. intros a b u v H1 H2. unfold min_assign. cbn. rewrite (scaled_lt e u v a b) by assumption. now destruct (d_lt u a).
  - apply (fold_rel (Scaled e) (Scaled e)); [| exact F | repeat split; assumption]. intros a b u v H1 H2. unfold max_assign. cbn. rewrite (scaled_lt e a b u v) by assumption. now destruct (d_lt a u).
Qed.
