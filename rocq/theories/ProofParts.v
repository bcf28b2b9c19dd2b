(** Parts of a history and the whole (C87). *)
From Coq Require Import List Arith Field Lia Bool Permutation Sorted.
From Verif Require Import Num NumFacts ModelBasic ModelMinMax ModelTail SpecStats SpecTail SpecParts ProofBasic ProofBasic2 ProofBasic3 ProofMinMax ProofOrder ProofTail ProofTailTop.
Import ListNotations.

Section Parts.
Variable K : Num.
Hypothesis HK : FieldLaws K.
Local Notation T := (car K).
Local Notation "0" := (zero K) : num_scope.
Local Notation "1" := (one K) : num_scope.
Local Notation "x + y" := (add K x y) : num_scope.
Local Notation "x - y" := (sub K x y) : num_scope.
Local Notation "x * y" := (mul K x y) : num_scope.
Local Notation "x / y" := (div K x y) : num_scope.
Local Notation "# n" := (ofnat K n) (at level 2) : num_scope.
Local Open Scope num_scope.
Add Field Kfield87 : (fl_field K HK).

Lemma weight_app {A} (h g : list (A * T)) : TotalWeight K (h ++ g) = TotalWeight K h + TotalWeight K g.
Proof. unfold TotalWeight. apply (total_app K HK). Qed.

Lemma waverage_app {A} (f : A -> T) h g : TotalWeight K h <> 0 -> TotalWeight K g <> 0 -> TotalWeight K h + TotalWeight K g <> 0 ->
  waverage K f (h ++ g) = Pooled K (TotalWeight K h) (waverage K f h) (TotalWeight K g) (waverage K f g).
Proof. intros H1 H2 H3. unfold Pooled, waverage. rewrite weight_app, (total_app K HK). field. auto. Qed.

Lemma wcov_raw h : TotalWeight K h <> 0 ->
  WCovariance K h = waverage K (fun p => fst p * snd p) h - waverage K fst h * waverage K snd h.
Proof.
  intros HW. change (WCovariance K h) with (WSXY K h / TotalWeight K h). rewrite (WSXY_raw K HK h HW).
  unfold waverage. field. exact HW.
Qed.

Section Whole.
Variables (h g : list (T * T)).
Hypothesis (H1 : TotalWeight K h <> 0) (H2 : TotalWeight K g <> 0) (H3 : TotalWeight K h + TotalWeight K g <> 0).
Let d := WMean K g - WMean K h.

Lemma wmoment_app N : WMoment K N (h ++ g) = Pooled K (TotalWeight K h) (WMoment K N h) (TotalWeight K g) (WMoment K N g).
Proof. now apply waverage_app. Qed.
Lemma wmean_app : WMean K (h ++ g) = Pooled K (TotalWeight K h) (WMean K h) (TotalWeight K g) (WMean K g).
Proof. now apply waverage_app. Qed.
Lemma whole : TotalWeight K (h ++ g) <> 0.
Proof. now rewrite weight_app. Qed.
Lemma wvariance_app : WVariance K (h ++ g) = PooledVar K (TotalWeight K h) (WVariance K h) (TotalWeight K g) (WVariance K g) d.
Proof.
  rewrite (WVariance_raw K HK _ whole), (WVariance_raw K HK h H1), (WVariance_raw K HK g H2), wmoment_app, wmean_app.
  unfold d, PooledVar, PooledCov, Pooled. field. exact H3.
Qed.
Lemma wcentral3_app : WCentralMoment K 3 (h ++ g) =
  Pooled3 K (TotalWeight K h) (WVariance K h) (WCentralMoment K 3 h) (TotalWeight K g) (WVariance K g) (WCentralMoment K 3 g) d.
Proof.
  rewrite (wcentral3_raw K HK _ whole), (wcentral3_raw K HK h H1), (wcentral3_raw K HK g H2), (WVariance_raw K HK h H1), (WVariance_raw K HK g H2), !wmoment_app, wmean_app.
  unfold d, Pooled3, Pooled. cbn [ofnat power]. field. exact H3.
Qed.
Lemma wcentral4_app : WCentralMoment K 4 (h ++ g) =
  Pooled4 K (TotalWeight K h) (WVariance K h) (WCentralMoment K 3 h) (WCentralMoment K 4 h)
            (TotalWeight K g) (WVariance K g) (WCentralMoment K 3 g) (WCentralMoment K 4 g) d.
Proof.
  rewrite (wcentral4_raw K HK _ whole), (wcentral4_raw K HK h H1), (wcentral4_raw K HK g H2), (wcentral3_raw K HK h H1), (wcentral3_raw K HK g H2), (WVariance_raw K HK h H1), (WVariance_raw K HK g H2), !wmoment_app, wmean_app.
  unfold d, Pooled4, Pooled. cbn [ofnat power]. field. exact H3.
Qed.
End Whole.

Lemma wcovariance_app (h g : list (T * T * T)) : TotalWeight K h <> 0 -> TotalWeight K g <> 0 -> TotalWeight K h + TotalWeight K g <> 0 ->
  WCovariance K (h ++ g) = PooledCov K (TotalWeight K h) (WCovariance K h) (TotalWeight K g) (WCovariance K g)
    (waverage K fst g - waverage K fst h) (waverage K snd g - waverage K snd h).
Proof.
  intros H1 H2 H3. rewrite (wcov_raw (h ++ g)) by now rewrite weight_app. rewrite (wcov_raw h H1), (wcov_raw g H2), !waverage_app by assumption.
  unfold PooledCov, Pooled. field. exact H3.
Qed.

Lemma unit_app {A} (xs ys : list A) : unit_weights K (xs ++ ys) = unit_weights K xs ++ unit_weights K ys.
Proof. apply map_app. Qed.

Section Counted.
Variables (xs ys : list T).
Hypothesis (Hx : xs <> []) (Hy : ys <> []).
Let n := #(length xs).
Let m := #(length ys).
Lemma n0 : n <> 0. Proof. now apply (length_neq0 K HK). Qed.
Lemma m0 : m <> 0. Proof. now apply (length_neq0 K HK). Qed.
Lemma nm0 : n + m <> 0.
Proof. unfold n, m. rewrite <- (ofnat_add K HK), <- app_length. apply (length_neq0 K HK). destruct xs; [now destruct Hx | discriminate]. Qed.
Lemma app0 : xs ++ ys <> [].
Proof. destruct xs; [now destruct Hx | discriminate]. Qed.

Ltac by_units := rewrite <- ?(unit_WMean K HK), <- ?(unit_WMoment K HK), <- ?(unit_WCentralMoment K HK), unit_app.
Ltac sides := rewrite ?(unit_TW K HK); first [apply n0 | apply m0 | apply nm0].
Lemma mean_app : Mean K (xs ++ ys) = Pooled K n (Mean K xs) m (Mean K ys).
Proof. by_units. rewrite wmean_app by sides. now rewrite !(unit_TW K HK). Qed.
Lemma moment_app N : Moment K N (xs ++ ys) = Pooled K n (Moment K N xs) m (Moment K N ys).
Proof. by_units. rewrite wmoment_app by sides. now rewrite !(unit_TW K HK). Qed.
Lemma variance_app : Variance K (xs ++ ys) = PooledVar K n (Variance K xs) m (Variance K ys) (Mean K ys - Mean K xs).
Proof. unfold Variance. by_units. fold (WVariance K (unit_weights K xs ++ unit_weights K ys)). rewrite wvariance_app by sides. now rewrite !(unit_TW K HK). Qed.
Lemma central3_app : CentralMoment K 3 (xs ++ ys) =
  Pooled3 K n (Variance K xs) (CentralMoment K 3 xs) m (Variance K ys) (CentralMoment K 3 ys) (Mean K ys - Mean K xs).
Proof. unfold Variance. by_units. rewrite wcentral3_app by sides. now rewrite !(unit_TW K HK). Qed.
Lemma central4_app : CentralMoment K 4 (xs ++ ys) =
  Pooled4 K n (Variance K xs) (CentralMoment K 3 xs) (CentralMoment K 4 xs) m (Variance K ys) (CentralMoment K 3 ys) (CentralMoment K 4 ys) (Mean K ys - Mean K xs).
Proof. unfold Variance. by_units. rewrite wcentral4_app by sides. now rewrite !(unit_TW K HK). Qed.

Lemma parts_results N : (1 <= N)%nat ->
  let mean l := mean_set_mean K (mean_set_run K 0 l) in let var l := vs_var K (var_set_run K 0 l) in
  mean (xs ++ ys) = Pooled K n (mean xs) m (mean ys) /\
  im_mean K (imean_set_run K 0 (xs ++ ys)) = Pooled K n (im_mean K (imean_set_run K 0 xs)) m (im_mean K (imean_set_run K 0 ys)) /\
  var (xs ++ ys) = PooledVar K n (var xs) m (var ys) (mean ys - mean xs) /\
  (exists a b, moment_run K N 0 xs = Some a /\ moment_run K N 0 ys = Some b /\ moment_run K N 0 (xs ++ ys) = Some (Pooled K n a m b)) /\
  (exists u v, lazy_variance_run K 0 xs = Some u /\ lazy_variance_run K 0 ys = Some v /\
     lazy_variance_run K 0 (xs ++ ys) = Some (PooledVar K n u m v (mean ys - mean xs))).
Proof.
  intros HN mean var. unfold mean, var. rewrite !(mean_set_spec K HK), !(imean_run_spec K HK), !(var_run_spec K HK) by first [exact Hx | exact Hy | exact app0].
  split; [exact mean_app |]. split; [exact mean_app |]. split; [exact variance_app |]. split.
  - exists (Moment K N xs), (Moment K N ys). rewrite !(moment_run_spec K HK) by exact HN. now rewrite moment_app.
  - exists (Variance K xs), (Variance K ys). rewrite !(lazy_variance_run_spec K HK) by first [exact Hx | exact Hy | exact app0]. now rewrite variance_app.
Qed.

Lemma parts_shape sqrt : 
  let mean l := mean_set_mean K (mean_set_run K 0 l) in let var l := vs_var K (var_set_run K 0 l) in
  let third g l := g * (var l * sqrt (var l)) in let fourth k l := (k + #3) * (var l * var l) in let d := mean ys - mean xs in
  var xs * sqrt (var xs) <> 0 -> var ys * sqrt (var ys) <> 0 ->
  exists g1 g2 k1 k2, skewness_run K sqrt 0 xs = Some g1 /\ skewness_run K sqrt 0 ys = Some g2 /\
    kurtosis_run K 0 xs = Some k1 /\ kurtosis_run K 0 ys = Some k2 /\
    skewness_run K sqrt 0 (xs ++ ys) = Some (Pooled3 K n (var xs) (third g1 xs) m (var ys) (third g2 ys) d / (var (xs ++ ys) * sqrt (var (xs ++ ys)))) /\
    kurtosis_run K 0 (xs ++ ys) =
      Some (Pooled4 K n (var xs) (third g1 xs) (fourth k1 xs) m (var ys) (third g2 ys) (fourth k2 ys) d / (var (xs ++ ys) * var (xs ++ ys)) - #3).
Proof.
  intros mean var third fourth d. subst third fourth d. unfold mean, var. cbv zeta. rewrite !(mean_set_spec K HK), !(var_run_spec K HK) by first [exact Hx | exact Hy | exact app0].
  intros H1 H2. exists (CentralMoment K 3 xs / (Variance K xs * sqrt (Variance K xs))), (CentralMoment K 3 ys / (Variance K ys * sqrt (Variance K ys))),
    (CentralMoment K 4 xs / (Variance K xs * Variance K xs) - #3), (CentralMoment K 4 ys / (Variance K ys * Variance K ys) - #3).
  rewrite !(skewness_run_spec K HK), !(kurtosis_run_spec K HK) by first [exact Hx | exact Hy | exact app0].
  repeat (split; [reflexivity |]).
  assert (N : forall a b, a * b <> 0 -> a <> 0) by (intros a b H ->; apply H; ring).
  assert (S3 : forall c v, v * sqrt v <> 0 -> c / (v * sqrt v) * (v * sqrt v) = c).
  { intros c v H. assert (Q := N _ _ H). field. split; intros E; apply H; rewrite E; ring. }
  assert (S4 : forall c v, v <> 0 -> (c / (v * v) - #3 + #3) * (v * v) = c) by (intros c v H; field; exact H).
  rewrite !S3, !S4 by first [assumption | eapply N; eassumption]. rewrite central3_app, central4_app. now split.
Qed.
End Counted.

Lemma parts_covariance (h g : list (T * T)) : h <> [] -> g <> [] ->
  let cov l := cs_cov K (cov_set_run K 0 0 l) in let mean l := mean_set_mean K (mean_set_run K 0 l) in
  cov (h ++ g) = PooledCov K #(length h) (cov h) #(length g) (cov g) (mean (map fst g) - mean (map fst h)) (mean (map snd g) - mean (map snd h)).
Proof.
  intros Hh Hg cov mean. unfold cov, mean. assert (Ha : h ++ g <> []) by (destruct h; [now destruct Hh | discriminate]).
  rewrite !(cov_run_spec K HK), !(mean_set_spec K HK) by assumption.
  rewrite <- !(unit_WCovariance K HK), unit_app, wcovariance_app; rewrite ?(unit_TW K HK).
  - f_equal; f_equal; unfold Mean; rewrite <- ?(unit_WMean K HK); symmetry; rewrite ?(Mean_fst K), ?(Mean_snd K); unfold waverage, average; rewrite (unit_TW K HK), ?map_length, (total_map K); f_equal;
      unfold unit_weights; rewrite ?(total_map K); apply (total_ext K); intros; cbn; ring.
  - now apply (length_neq0 K HK).
  - now apply (length_neq0 K HK).
  - rewrite <- (ofnat_add K HK), <- app_length. now apply (length_neq0 K HK).
Qed.
End Parts.

Section PartsWeighted.
Variable K : Num.
Hypothesis HK : FieldLaws K.
Local Notation T := (car K).
Local Notation "0" := (zero K) : num_scope.
Local Notation "1" := (one K) : num_scope.
Local Notation "x + y" := (add K x y) : num_scope.
Local Notation "x - y" := (sub K x y) : num_scope.
Local Notation "x * y" := (mul K x y) : num_scope.
Local Notation "x / y" := (div K x y) : num_scope.
Local Notation "# n" := (ofnat K n) (at level 2) : num_scope.
Local Open Scope num_scope.
Add Field Kfield87w : (fl_field K HK).

Lemma weights_app {A} (h g : list (A * T)) : h <> [] -> g <> [] -> PrefixWeightsNonzero K (h ++ g) -> PrefixWeightsNonzero K g ->
  h ++ g <> [] /\ PrefixWeightsNonzero K h /\ TotalWeight K h <> 0 /\ TotalWeight K g <> 0 /\ TotalWeight K h + TotalWeight K g <> 0.
Proof.
  intros Hh Hg P Q. assert (Ha : h ++ g <> []) by (destruct h; [now destruct Hh | discriminate]). split; [exact Ha |].
  assert (Ph : PrefixWeightsNonzero K h) by (intros p q ->; apply (P p (q ++ g)); now rewrite app_assoc). split; [exact Ph |].
  split; [apply (Ph h []); [now rewrite app_nil_r | exact Hh] |]. split; [apply (Q g []); [now rewrite app_nil_r | exact Hg] |].
  rewrite <- (weight_app K HK). apply (P (h ++ g) []); [now rewrite app_nil_r | exact Ha].
Qed.

Lemma parts_weighted (h g : list (T * T)) sqrt N : h <> [] -> g <> [] -> (1 <= N)%nat -> PrefixWeightsNonzero K (h ++ g) -> PrefixWeightsNonzero K g ->
  let w1 := wm_W K (wmean_set_run K 0 0 h) in let w2 := wm_W K (wmean_set_run K 0 0 g) in
  let mean l := wmean_set_mean K (wmean_set_run K 0 0 l) in let imean l := wv_mean K (wvar_set_run K 0 0 l) in let var l := wv_var K (wvar_set_run K 0 0 l) in
  wm_W K (wmean_set_run K 0 0 (h ++ g)) = w1 + w2 /\
  wm_sum K (wmean_set_run K 0 0 (h ++ g)) = wm_sum K (wmean_set_run K 0 0 h) + wm_sum K (wmean_set_run K 0 0 g) /\
  mean (h ++ g) = Pooled K w1 (mean h) w2 (mean g) /\ imean (h ++ g) = Pooled K w1 (imean h) w2 (imean g) /\
  var (h ++ g) = PooledVar K w1 (var h) w2 (var g) (mean g - mean h) /\
  (exists a b, weighted_moment_run K N 0 h = Some a /\ weighted_moment_run K N 0 g = Some b /\ weighted_moment_run K N 0 (h ++ g) = Some (Pooled K w1 a w2 b)) /\
  (exists u v, lazy_weighted_variance_run K 0 h = Some u /\ lazy_weighted_variance_run K 0 g = Some v /\
     lazy_weighted_variance_run K 0 (h ++ g) = Some (PooledVar K w1 u w2 v (mean g - mean h))) /\
  (var h * sqrt (var h) <> 0 -> var g * sqrt (var g) <> 0 ->
   let third s l := s * (var l * sqrt (var l)) in let fourth k l := (k + #3) * (var l * var l) in let d := mean g - mean h in
   exists g1 g2 k1 k2, weighted_skewness_run K sqrt 0 h = Some g1 /\ weighted_skewness_run K sqrt 0 g = Some g2 /\
     weighted_kurtosis_run K 0 h = Some k1 /\ weighted_kurtosis_run K 0 g = Some k2 /\
     weighted_skewness_run K sqrt 0 (h ++ g) = Some (Pooled3 K w1 (var h) (third g1 h) w2 (var g) (third g2 g) d / (var (h ++ g) * sqrt (var (h ++ g)))) /\
     weighted_kurtosis_run K 0 (h ++ g) =
       Some (Pooled4 K w1 (var h) (third g1 h) (fourth k1 h) w2 (var g) (third g2 g) (fourth k2 g) d / (var (h ++ g) * var (h ++ g)) - #3)).
Proof.
  intros Hh Hg HN P Q. destruct (weights_app h g Hh Hg P Q) as (Ha & Ph & W1 & W2 & W3).
  destruct (weighted_all K HK (h ++ g) sqrt N Ha HN P) as (A1 & A2 & A3 & A4 & A5 & A6 & A7 & A8 & A9).
  destruct (weighted_all K HK h sqrt N Hh HN Ph) as (B1 & B2 & B3 & B4 & B5 & B6 & B7 & B8 & B9).
  destruct (weighted_all K HK g sqrt N Hg HN Q) as (C1 & C2 & C3 & C4 & C5 & C6 & C7 & C8 & C9).
  cbv beta zeta. rewrite A1, A2, A3, A4, A5, A6, A7, A8, A9, B1, B2, B3, B4, B5, B6, B7, B8, B9, C1, C2, C3, C4, C5, C6, C7, C8, C9.
  split; [apply (weight_app K HK) |]. split; [apply (total_app K HK) |]. split; [now apply (wmean_app K HK) |]. split; [now apply (wmean_app K HK) |].
  split; [now apply (wvariance_app K HK) |]. split; [exists (WMoment K N h), (WMoment K N g); now rewrite (wmoment_app K HK) |].
  split; [exists (WVariance K h), (WVariance K g); now rewrite (wvariance_app K HK) |].
  intros V1 V2. do 4 eexists. repeat (split; [reflexivity |]).
  assert (NN : forall a b, a * b <> 0 -> a <> 0) by (intros a b H ->; apply H; ring).
  assert (S3 : forall c v, v * sqrt v <> 0 -> c / (v * sqrt v) * (v * sqrt v) = c).
  { intros c v H. assert (Y := NN _ _ H). field. split; intros E; apply H; rewrite E; ring. }
  assert (S4 : forall c v, v <> 0 -> (c / (v * v) - #3 + #3) * (v * v) = c) by (intros c v H; field; exact H).
  rewrite !S3, !S4 by first [assumption | eapply NN; eassumption]. rewrite <- (wcentral3_app K HK), <- (wcentral4_app K HK) by assumption. now split.
Qed.

Lemma parts_weighted_covariance (h g : list (T * T * T)) : h <> [] -> g <> [] -> PrefixWeightsNonzero K (h ++ g) -> PrefixWeightsNonzero K g ->
  let cov l := wc_cov K (wcov_set_run K 0 0 0 l) in
  let samples l := map (fun e => (fst (fst e), snd e)) l in let variates l := map (fun e => (snd (fst e), snd e)) l in
  let mean l := wmean_set_mean K (wmean_set_run K 0 0 l) in let weight l := wm_W K (wmean_set_run K 0 0 l) in
  cov (h ++ g) = PooledCov K (weight (samples h)) (cov h) (weight (samples g)) (cov g)
    (mean (samples g) - mean (samples h)) (mean (variates g) - mean (variates h)).
Proof.
  intros Hh Hg P Q. destruct (weights_app h g Hh Hg P Q) as (Ha & Ph & W1 & W2 & W3). cbv beta zeta.
  rewrite !(wcov_run_spec K HK), !(wmean_set_spec K HK) by assumption. rewrite !(wmean_set_run_spec K HK). cbn [wm_W].
  rewrite (wcovariance_app K HK) by assumption.
  assert (E0 : forall l : list (T * T * T), 0 + TotalWeight K (map (fun e => (fst (fst e), snd e)) l) = TotalWeight K l).
  { intros l. unfold TotalWeight. rewrite (total_map K). change (0 + total K snd l = total K snd l). ring. }
  assert (E1 : forall l : list (T * T * T), WMean K (map (fun e => (fst (fst e), snd e)) l) = waverage K fst l).
  { intros l. unfold WMean, waverage, TotalWeight. now rewrite !(total_map K). }
  assert (E2 : forall l : list (T * T * T), WMean K (map (fun e => (snd (fst e), snd e)) l) = waverage K snd l).
  { intros l. unfold WMean, waverage, TotalWeight. now rewrite !(total_map K). }
  now rewrite !E0, !E1, !E2.
Qed.
End PartsWeighted.

Lemma parts_extremes (L : Limits) : OrderLaws L -> forall xs ys,
  min_run L (xs ++ ys) = min_assign L (min_run L xs) (min_run L ys) /\ max_run L (xs ++ ys) = max_assign L (max_run L xs) (max_run L ys).
Proof.
  intros HL xs ys. split.
  - unfold min_run. destruct (min_fold L HL (xs ++ ys) (min_init L)) as (I & U & A), (min_fold L HL xs (min_init L)) as (I1 & U1 & A1), (min_fold L HL ys (min_init L)) as (I2 & U2 & A2).
    cbv zeta in *. set (r := fold_left (min_assign L) (xs ++ ys) (min_init L)) in *. set (a := fold_left (min_assign L) xs (min_init L)) in *.
    set (b := fold_left (min_assign L) ys (min_init L)) in *.
    assert (Ra : lltb L a r = false) by (destruct I1 as [H | ->]; [apply A, in_or_app; now left | exact U]).
    assert (Rb : lltb L b r = false) by (destruct I2 as [H | ->]; [apply A, in_or_app; now right | exact U]).
    unfold min_assign. destruct (lltb L b a) eqn:E.
    + apply (ol_total L HL); [| exact Rb]. destruct I as [H | ->]; [| exact U2]. apply in_app_or in H as [H|H]; [| now apply A2].
      apply (ge_trans L HL r a b); [now apply A1 | now apply (lt_ge L HL)].
    + apply (ol_total L HL); [| exact Ra]. destruct I as [H | ->]; [| exact U1]. apply in_app_or in H as [H|H]; [now apply A1 |].
      apply (ge_trans L HL r b a); [now apply A2 | exact E].
  - unfold max_run. destruct (max_fold L HL (xs ++ ys) (max_init L)) as (I & U & A), (max_fold L HL xs (max_init L)) as (I1 & U1 & A1), (max_fold L HL ys (max_init L)) as (I2 & U2 & A2).
    cbv zeta in *. set (r := fold_left (max_assign L) (xs ++ ys) (max_init L)) in *. set (a := fold_left (max_assign L) xs (max_init L)) in *.
    set (b := fold_left (max_assign L) ys (max_init L)) in *.
    assert (Ra : lltb L r a = false) by (destruct I1 as [H | ->]; [apply A, in_or_app; now left | exact U]).
    assert (Rb : lltb L r b = false) by (destruct I2 as [H | ->]; [apply A, in_or_app; now right | exact U]).
    unfold max_assign. destruct (lltb L a b) eqn:E.
    + apply (ol_total L HL); [exact Rb |]. destruct I as [H | ->]; [| exact U2]. apply in_app_or in H as [H|H]; [| now apply A2].
      apply (ge_trans L HL b a r); [now apply (lt_ge L HL) | now apply A1].
    + apply (ol_total L HL); [exact Ra |]. destruct I as [H | ->]; [| exact U1]. apply in_app_or in H as [H|H]; [now apply A1 |].
      apply (ge_trans L HL a b r); [exact E | now apply A2].
Qed.

Section TailParts.
Context {A : Type}.
Variable before : A -> A -> bool.
Hypothesis SW : StrictWeak before.
Lemma filter_short (p : A -> bool) l a : In a l -> p a = false -> length (filter p l) < length l.
Proof.
  assert (F : forall l, length (filter p l) <= length l) by (induction l0 as [|x l0 IH]; cbn; [lia | destruct (p x); cbn; lia]).
  intros H Pa. induction l as [|x l IH]; [destruct H |]. cbn. destruct H as [->|H].
  - rewrite Pa. apply Nat.lt_succ_r, F.
  - specialize (IH H). destruct (p x); cbn; lia.
Qed.
Lemma filter_perm (p : A -> bool) l l' : Permutation l l' -> Permutation (filter p l) (filter p l').
Proof. induction 1; cbn; try (destruct (p x)); try (destruct (p y)); eauto using perm_swap, Permutation_trans. Qed.

Lemma better_half k xs t1 t2 t r1 r : IsTail before k xs t1 -> Permutation xs (t1 ++ r1) -> (forall a b, In a t1 -> In b r1 -> before b a = false) ->
  Permutation (t1 ++ t2) (t ++ r) -> (forall a b, In a t -> In b r -> before b a = false) -> length t <= k ->
  forall a b, In a t -> In a t2 -> In b r1 -> before b a = false.
Proof.
  intros (L1 & _) P1 R1 P R Lt a b Ha Ha2 Hb. destruct (before b a) eqn:E; [| reflexivity]. exfalso.
  assert (C : forall c, In c t1 -> before c a = true).
  { intros c Hc. destruct (before c a) eqn:F; [reflexivity |]. rewrite (sw_negtrans _ SW b c a (R1 c b Hc Hb) F) in E. discriminate. }
  assert (Lk : length t1 = k).
  { apply Permutation_length in P1. rewrite app_length in P1. destruct r1; [destruct Hb |]. cbn in P1. lia. }
  assert (F1 : filter (fun c => before c a) t1 = t1).
  { clear - C. induction t1 as [|c l IH]; [reflexivity |]. cbn. rewrite (C c) by now left. f_equal. apply IH. intros; apply C; now right. }
  assert (F2 : filter (fun c => before c a) r = []).
  { clear - R Ha. induction r as [|c l IH]; [reflexivity |]. cbn. rewrite (R a c Ha) by now left. apply IH. intros; apply R; [assumption | now right]. }
  apply (filter_perm (fun c => before c a)), Permutation_length in P. rewrite !filter_app, F1, F2, app_nil_r, app_length in P.
  assert (S := filter_short (fun c => before c a) t a Ha (sw_irrefl _ SW a)). lia.
Qed.

Lemma tail_parts k xs ys t1 t2 t : IsTail before k xs t1 -> IsTail before k ys t2 -> IsTail before k (t1 ++ t2) t -> IsTail before k (xs ++ ys) t.
Proof.
  intros H1 H2 H. assert (H1' := H1). assert (H2' := H2). destruct H1' as (L1 & S1 & r1 & P1 & R1), H2' as (L2 & S2 & r2 & P2 & R2), H as (L & S & r & P & R).
  split; [rewrite !app_length in *; lia |]. split; [exact S |]. exists (r ++ r1 ++ r2). split.
  - rewrite P1, P2. transitivity ((t1 ++ t2) ++ r1 ++ r2); [| rewrite P, <- app_assoc; reflexivity]. rewrite <- !app_assoc. apply Permutation_app_head. rewrite !app_assoc. apply Permutation_app_tail. apply Permutation_app_comm.
  - assert (Lt : length t <= k) by lia. intros a b Ha Hb. apply in_app_or in Hb as [Hb|Hb]; [now apply R |].
    assert (Ia : In a (t1 ++ t2)) by (apply (Permutation_in a (Permutation_sym P)), in_or_app; now left).
    apply in_app_or in Ia, Hb. destruct Ia as [Ia|Ia], Hb as [Hb|Hb].
    + now apply R1.
    + apply (better_half k ys t2 t1 t r2 r H2 P2 R2) with (a := a); try assumption. rewrite <- P. apply Permutation_app_comm.
    + now apply (better_half k xs t1 t2 t r1 r H1 P1 R1) with (a := a).
    + now apply R2.
Qed.
End TailParts.

Lemma parts_tail (K : Num) : OrderedLaws K -> forall (H : HeapOps), HeapContract H ->
  forall (V : Type) (lr : side) (k nv : nat) (dA : car K) (dV : V) (ops1 ops2 ops : list (tail_op (car K) V)),
  (0 < k)%nat -> WellFormed nv ops1 -> WellFormed nv ops2 -> WellFormed nv ops -> map fst (pushes ops) = map fst (pushes ops1) ++ map fst (pushes ops2) ->
  let shows o t := exists s, tail_run H (tail_pred K lr) (tail_init k nv dA dV) o = Ok s /\ tail_result H (tail_pred K lr) s = Ok t in
  exists t1 t2 t, shows ops1 t1 /\ shows ops2 t2 /\ shows ops t /\
    forall again, WellFormed nv again -> map fst (pushes again) = t1 ++ t2 -> shows again t.
Proof.
  intros HO H HC V lr k nv dA dV ops1 ops2 ops Hk W1 W2 W E shows.
  destruct (tail_sides K HO H HC V lr k nv dA dV ops1 Hk W1) as (s1 & t1 & A1 & A2 & A3).
  destruct (tail_sides K HO H HC V lr k nv dA dV ops2 Hk W2) as (s2 & t2 & B1 & B2 & B3).
  destruct (tail_sides K HO H HC V lr k nv dA dV ops Hk W) as (s & t & C1 & C2 & C3).
  exists t1, t2, t. split; [now exists s1 |]. split; [now exists s2 |]. split; [now exists s |]. intros again Wa Ea.
  destruct (tail_sides K HO H HC V lr k nv dA dV again Hk Wa) as (s' & t' & D1 & D2 & D3). exists s'. split; [exact D1 |]. rewrite D2. f_equal.
  assert (SW : StrictWeak (MoreExtreme K lr)).
  { assert (SP := ProofTailStats.pred_sw K HO lr). constructor; intros; unfold MoreExtreme in *.
    - destruct lr; apply (ord_irrefl K HO).
    - destruct lr; [apply (sw_trans _ SP a b c) | apply (sw_trans _ SP a b c)]; assumption.
    - destruct lr; [apply (sw_negtrans _ SP a b c) | apply (sw_negtrans _ SP a b c)]; assumption. }
  rewrite Ea in D3. assert (F := tail_parts (MoreExtreme K lr) SW k _ _ t1 t2 t' A3 B3 D3). rewrite <- E in F.
  apply (IsTail_unique (MoreExtreme K lr) SW k _ _ t' t) with (2 := Permutation_refl _) (3 := F); [| exact C3].
  intros a b _ _ X Y. unfold MoreExtreme in X, Y. destruct lr; [now apply (ord_total K HO) | symmetry; now apply (ord_total K HO)].
Qed.
