(** Every accumulator of the library reports in a set what it reports alone. *)

From Coq Require Import List Bool Arith Lia Field.
From Verif Require Import Num NumFacts ModelBasic SpecStats ProofBasic.
From Verif Require Import ModelMinMax ModelRolling ModelDensity ModelPSquare ModelTail ModelPot.
From Verif Require Import ModelFramework SpecFramework ProofFramework ProofFrameworkRef ProofFrameworkRun.
From Verif Require Import ModelLibrary ModelSets SpecSets ProofLibrary ProofSets ProofSetsTop.
From Verif Require Import ModelRollingSets ModelWhole SpecWhole ProofWhole1.
Import ListNotations.

(** ** What the estimators need *)
Definition near (t : ltag) : bool :=
  estimator t ||
  match t with t_count | t_sum_of_weights | t_sum_of_weights_kahan => true | _ => false end.

Lemma near_closed : forall a u d, near a = true -> In d (ldeps a) -> lfeature u = lfeature d -> near u = true.
Proof.
  intros a u d Ha Hd E; destruct a; try discriminate Ha; cbn in Hd;
  repeat (destruct Hd as [<- | Hd]; [cbn in E |]); try (destruct Hd; fail);
  destruct u; try discriminate E; reflexivity.
Qed.

Lemma near_needs : forall ts t u, Needs Library ts t u -> near (fst t) = true -> near (fst u) = true.
Proof.
  intros ts t u H; induction H as [a Ha | a c b Ha Hc Hr H IH]; intros Hb; [exact Hb |].
  apply IH; unfold Reads in Hr; apply in_map_iff in Hr; destruct Hr as [d [E Hd]].
  apply (near_closed (fst a) (fst c) d); try assumption; now symmetry.
Qed.

Lemma feature_idem : forall t, lfeature (lfeature t) = lfeature t.
Proof. intros t; destruct t; reflexivity. Qed.

Lemma provider_feature : forall ts d, lfeature (provider ts (lfeature d)) = lfeature d.
Proof.
  intros ts d; unfold provider.
  destruct (List.find (fun t => ltag_eqb (lfeature (fst t)) (lfeature d)) ts) as [t |] eqn:E.
  - apply find_some in E; destruct E as [_ E]; now apply ltag_eqb_eq in E.
  - apply feature_idem.
Qed.

Lemma provider_member : forall ts t, NoDup (map (ffeature Library) ts) -> In t ts ->
  provider ts (lfeature (fst t)) = fst t.
Proof.
  intros ts t N Ht; unfold provider.
  destruct (List.find (fun u => ltag_eqb (lfeature (fst u)) (lfeature (fst t))) ts) as [u |] eqn:E.
  - apply find_some in E; destruct E as [Hu E]; apply ltag_eqb_eq in E.
    assert (Eu : u = t) by (apply (single_same Library ts); assumption); now subst u.
  - exfalso; pose proof (find_none _ _ E t Ht) as Hf.
    change (ltag_eqb (lfeature (fst t)) (lfeature (fst t)) = false) in Hf.
    rewrite (proj2 (ltag_eqb_eq (lfeature (fst t)) (lfeature (fst t))) eq_refl) in Hf; discriminate Hf.
Qed.

Section Whole.
Variable K : Num.
Variable HK : FieldLaws K.
Variable A : Args K.
Variable sqrt : car K -> car K.
Local Notation T := (car K).
Local Notation B := (WholeSets K A sqrt).
Local Notation "0" := (zero K).
Local Notation "1" := (one K).
Local Notation "x + y" := (add K x y).
Local Notation lo := (a_lowest K A).
Local Notation hi := (a_highest K A).
Local Notation limits := (dens_limits K lo hi).
Local Notation dc := (a_density_cache K A).
Local Notation db := (a_density_bins K A).
Local Notation probs := (a_probabilities K A).
Local Notation cells := (a_cells K A).
Add Field Kf : (fl_field K HK).

Lemma samples_snoc : forall xs x, samples_of K (xs ++ [x]) = samples_of K xs ++ [p_sample x].
Proof. intros; unfold samples_of; now rewrite map_app. Qed.
Lemma weights_snoc : forall xs x, weights_of K (xs ++ [x]) = weights_of K xs ++ [p_weight x].
Proof. intros; unfold weights_of; now rewrite map_app. Qed.
Lemma weighted_snoc : forall xs x,
  weighted_samples K (xs ++ [x]) = weighted_samples K xs ++ [(p_sample x, p_weight x)].
Proof. intros; unfold weighted_samples; now rewrite map_app. Qed.
Lemma samples_length : forall xs, length (samples_of K xs) = length xs.
Proof. intros; unfold samples_of; now rewrite map_length. Qed.
Lemma weighted_length : forall xs, length (weighted_samples K xs) = length xs.
Proof. intros; unfold weighted_samples; now rewrite map_length. Qed.
Lemma weighted_fst : forall xs, map fst (weighted_samples K xs) = samples_of K xs.
Proof. intros; unfold weighted_samples, samples_of; rewrite map_map; reflexivity. Qed.
Lemma weighted_snd : forall xs, map snd (weighted_samples K xs) = weights_of K xs.
Proof. intros; unfold weighted_samples, weights_of; rewrite map_map; reflexivity. Qed.

(** *** Densities *)
Section Dens.
Variable E : Type.
Variable val amt : E -> T.
Variable den : nat -> T -> T.
Variable s0 : T.
Variable e0 : E.
Definition drun (es : list E) : outcome (dens K E) :=
  dens_run K E val amt den lo hi dc db (dens_init K E lo hi dc db s0 e0) (map DPush es).

Lemma drun_snoc : forall es e,
  drun (es ++ [e]) = obnd (drun es) (fun d => dens_push K E val amt lo hi dc db d e).
Proof.
  intros es e; unfold drun, dens_run; rewrite map_app, fold_left_app; cbn.
  destruct (fold_left _ _ _); reflexivity.
Qed.

Lemma drun_fields : forall es d, drun es = Ok d ->
  de_count K E d = length es /\ de_min K E d = min_run limits (map val es) /\
  de_max K E d = max_run limits (map val es) /\ de_wsum K E d = total K amt es.
Proof.
  induction es as [| e es IH] using rev_ind; intros d H.
  - injection H as <-; cbn; auto.
  - rewrite drun_snoc in H; destruct (drun es) as [d0 | |] eqn:E0; try discriminate H; cbn in H.
    destruct (IH d0 eq_refl) as (I1 & I2 & I3 & I4).
    unfold dens_push, dens_operate in H.
    destruct (if _ =? _ then _ else _) as [bins | |]; try discriminate H; injection H as <-; cbn.
    rewrite map_app; unfold min_run, max_run; rewrite !fold_left_app; cbn [fold_left map].
    rewrite app_length, (total_snoc K HK), I1, I2, I3, I4; cbn [length].
    repeat split; lia.
Qed.

Lemma drun_step : forall es e mn mx ws,
  mn = min_run limits (map val (es ++ [e])) -> mx = max_run limits (map val (es ++ [e])) ->
  (forall d, drun es = Ok d -> ws d = de_wsum K E d + amt e) ->
  obnd (drun es) (fun d => dens_operate K E val amt dc db (length (es ++ [e])) mn mx (ws d) d e)
  = drun (es ++ [e]).
Proof.
  intros es e mn mx ws -> -> Hw; rewrite drun_snoc.
  destruct (drun es) as [d | |] eqn:Ed; try reflexivity; cbn [obnd].
  destruct (drun_fields es d Ed) as (I1 & I2 & I3 & I4); unfold dens_push.
  rewrite (Hw d eq_refl), I1, I2, I3, map_app; unfold min_run, max_run; rewrite !fold_left_app.
  rewrite app_length, Nat.add_1_r; reflexivity.
Qed.
End Dens.

(** *** P-square *)
Section PSq.
Variable M : nat.
Variable weighted : bool.
Variable cum : nat.
Variable des : T -> list T -> list T -> outcome (list T).
Variable m0 : marks K.
Local Notation run es := (psq_run K M weighted cum des m0 es).
Definition mrun (es : list (T * T)) : outcome (marks K) := obnd (run es) (fun q => Ok (ps_marks K q)).

Lemma prun_snoc : forall es e,
  run (es ++ [e]) = obnd (run es) (fun s => psq_push K M weighted cum des s (fst e) (snd e)).
Proof. intros; unfold psq_run; now rewrite fold_left_app. Qed.

Lemma prun_fields : forall es q, run es = Ok q -> ps_count K q = length es /\ ps_wsum K q = total K snd es.
Proof.
  induction es as [| e es IH] using rev_ind; intros q H.
  - injection H as <-; cbn; auto.
  - rewrite prun_snoc in H; destruct (run es) as [q0 | |]; try discriminate H; cbn [obnd] in H.
    destruct (IH q0 eq_refl) as (I1 & I2); unfold psq_push in H.
    destruct (psq_operate _ _ _ _ _ _ _ _ _ _) as [m | |]; try discriminate H; injection H as <-.
    cbn [ps_count ps_wsum]; rewrite I1, I2, app_length, (total_snoc K HK); cbn [length]; split; [lia | reflexivity].
Qed.

Lemma mrun_step : forall es e W,
  (W = total K snd (es ++ [e]) \/ forall V V', des V = des V') ->
  obnd (mrun es) (fun m => psq_operate K M weighted cum des (length (es ++ [e])) W m (fst e) (snd e))
  = mrun (es ++ [e]).
Proof.
  intros es e W HW; unfold mrun; rewrite prun_snoc.
  destruct (run es) as [q | |] eqn:Eq; try reflexivity; cbn [obnd].
  destruct (prun_fields es q Eq) as (I1 & I2); unfold psq_push.
  rewrite I1, I2, app_length, Nat.add_1_r.
  replace (psq_operate K M weighted cum des (S (length es)) W (ps_marks K q) (fst e) (snd e))
    with (psq_operate K M weighted cum des (S (length es)) (total K snd es + snd e) (ps_marks K q) (fst e) (snd e)).
  - destruct (psq_operate _ _ _ _ _ _ _ _ _ _); reflexivity.
  - destruct HW as [-> | HW]; [now rewrite (total_snoc K HK) |].
    unfold psq_operate; now rewrite (HW (total K snd es + snd e) W).
Qed.

Lemma mrun_result : forall (C : Type) es (f : psq K -> outcome C) W,
  (W = total K snd es \/ forall q V, f q = f {| ps_count := ps_count K q; ps_wsum := V; ps_marks := ps_marks K q |}) ->
  obnd (mrun es) (fun m => f {| ps_count := length es; ps_wsum := W; ps_marks := m |}) = obnd (run es) f.
Proof.
  intros C es f W HW; unfold mrun; destruct (run es) as [q | |] eqn:Eq; try reflexivity; cbn [obnd].
  destruct (prun_fields es q Eq) as (I1 & I2).
  destruct HW as [-> | HW].
  - rewrite <- I1, <- I2; now destruct q.
  - rewrite (HW q W), I1; reflexivity.
Qed.
End PSq.

Lemma units_length : forall l : list T, length (units K l) = length l.
Proof. intros; unfold units; now rewrite map_length. Qed.
Lemma units_snoc : forall l x, units K (l ++ [x]) = units K l ++ [(x, 1)].
Proof. intros; unfold units; now rewrite map_app. Qed.

(** *** Tails *)
Lemma tail_snoc : forall sd xs x, TailState K A (xs ++ [x]) sd
  = obnd (TailState K A xs sd) (fun st => tail_push (a_heap K A) (tail_pred K sd) st (p_sample x) [x]).
Proof.
  intros sd xs x; unfold TailState, tail_run; rewrite map_app, fold_left_app; cbn.
  destruct (fold_left _ _ _); reflexivity.
Qed.

(** *** Peaks over threshold *)
Definition pushed (xs : list (pack K)) : list (pot_ops K) :=
  map (fun p => PPush K (p_sample p) (p_weight p)) xs.
Definition prun (sd : ModelTail.side) (xs : list (pack K)) : pot K :=
  fold_left (fun s p => pot_op K sd s (p_sample p)) xs (pot_init K sd 0 (a_threshold K A)).
Definition wrun (sd : ModelTail.side) (xs : list (pack K)) : wpot K :=
  fold_left (fun s p => wpot_op K sd s (p_sample p) (p_weight p)) xs (wpot_init K sd 0 0 (a_threshold K A)).

Lemma pot_session_pushed : forall sd xs,
  pot_session K (a_pow K A) sd 0 (a_threshold K A) (pushed xs) = (length xs, prun sd xs, []).
Proof.
  intros sd xs; induction xs as [| x xs IH] using rev_ind; [reflexivity |].
  unfold pot_session, pushed, prun in *; rewrite map_app, !fold_left_app, IH; cbn.
  now rewrite app_length, Nat.add_1_r.
Qed.
Lemma pot_fit_pushed : forall sd xs,
  last (pot_out K (a_pow K A) sd 0 (a_threshold K A) (pushed xs ++ [PExtract K])) UB
  = po_fit K (pot_extract K (a_pow K A) sd (prun sd xs) (length xs)).
Proof.
  intros sd xs; unfold pot_out.
  replace (pot_session K (a_pow K A) sd 0 (a_threshold K A) (pushed xs ++ [PExtract K]))
    with (pot_step K (a_pow K A) sd (pot_session K (a_pow K A) sd 0 (a_threshold K A) (pushed xs)) (PExtract K))
    by (unfold pot_session; now rewrite fold_left_app).
  rewrite pot_session_pushed; reflexivity.
Qed.
Lemma wpot_session_pushed : forall sd xs,
  wpot_session K (a_pow K A) sd 0 0 (a_threshold K A) (pushed xs)
  = (total K (fun w => w) (weights_of K xs), wrun sd xs, []).
Proof.
  intros sd xs; induction xs as [| x xs IH] using rev_ind; [reflexivity |].
  unfold wpot_session, pushed, wrun in *; rewrite map_app, !fold_left_app, IH; cbn.
  now rewrite weights_snoc, (total_snoc K HK).
Qed.
Lemma wpot_fit_pushed : forall sd xs,
  last (wpot_out K (a_pow K A) sd 0 0 (a_threshold K A) (pushed xs ++ [PExtract K])) UB
  = wo_fit K (wpot_extract K (a_pow K A) sd (wrun sd xs) (total K (fun w => w) (weights_of K xs))).
Proof.
  intros sd xs; unfold wpot_out.
  replace (wpot_session K (a_pow K A) sd 0 0 (a_threshold K A) (pushed xs ++ [PExtract K]))
    with (wpot_step K (a_pow K A) sd (wpot_session K (a_pow K A) sd 0 0 (a_threshold K A) (pushed xs)) (PExtract K))
    by (unfold wpot_session; now rewrite fold_left_app).
  rewrite wpot_session_pushed; reflexivity.
Qed.

(** ** The invariant *)
Variable prov : ltag -> ltag.
Hypothesis prov_feature : forall d, lfeature (prov (lfeature d)) = lfeature d.

Definition wcls (t : ltag) : Prop := near t = true /\ prov (lfeature t) = t.

Definition reports (u : ltag) (xs : list (pack K)) (a : value K (note K)) : Prop :=
  match u with
  | t_count => a = VNat (length xs)
  | t_sum_of_weights | t_sum_of_weights_kahan => a = VNum (total K (fun w => w) (weights_of K xs))
  | _ => estimator u = true -> a = VRest (Alone K A prov xs u)
  end.
Definition spec (f : ltag) (xs : list (pack K)) (a : value K (note K)) : Prop := reports (prov f) xs a.

Definition wgood (t : ltag) (xs : list (pack K)) (s : cell K (wcell K)) : Prop :=
  let ss := samples_of K xs in
  let ws := weighted_samples K xs in
  match t with
  | t_count => s = CNat (length xs)
  | t_sum_of_weights => s = CNum (total K (fun w => w) (weights_of K xs))
  | t_sum_of_weights_kahan => s = CPair (total K (fun w => w) (weights_of K xs)) 0
  | t_min => s = CRest (WNum (min_run limits ss))
  | t_max => s = CRest (WNum (max_run limits ss))
  | t_density => s = CRest (WDens (density_run K lo hi dc db 0 (map DPush ss)))
  | t_weighted_density => s = CRest (WWDens (weighted_density_run K lo hi dc db 0 (map DPush ws)))
  | t_p_square_quantile | t_p_square_quantile_for_median =>
      s = CRest (WMarks (mrun 5 false 0 (des_inc K (pq_inc K (pq_prob K A t))) (pq_init K (pq_prob K A t)) (units K ss)))
  | t_weighted_p_square_quantile | t_weighted_p_square_quantile_for_median =>
      s = CRest (WMarks (mrun 5 true 5 (wpq_des K (pq_prob K A t)) (wpq_init K) ws))
  | t_p_square_cumulative_distribution =>
      s = CRest (WMarks (mrun (Nat.add cells 1%nat) false 0 (des_inc K (cd_inc K cells)) (cd_init K cells) (units K ss)))
  | t_weighted_p_square_cumulative_distribution =>
      s = CRest (WMarks (mrun (Nat.add cells 1%nat) true cells (wcd_des K cells) (wcd_init K cells) ws))
  | t_extended_p_square =>
      s = CRest (WMarks (mrun (ext_markers K probs) false 0 (des_inc K (ext_incs K probs)) (ext_init K probs) (units K ss)))
  | t_weighted_extended_p_square =>
      s = CRest (WMarks (mrun (ext_markers K probs) true (ext_markers K probs) (wext_des K probs) (wext_init K probs) ws))
  | t_with_density_median | t_with_density_weighted_median => s = CRest (WMed (dmed_init K 0))
  | t_tail sd => s = CRest (WTail (TailState K A xs (lr_of sd)))
  | t_peaks_over_threshold sd => s = CRest (WPot (prun (lr_of sd) xs))
  | t_weighted_peaks_over_threshold sd => s = CRest (WWPot (wrun (lr_of sd) xs))
  | t_peaks_over_threshold_prob sd | t_weighted_peaks_over_threshold_prob sd =>
      s = CRest (WPPot (ppot_init K (lr_of sd) 0 (a_threshold_probability K A)))
  | _ => s = CRest WNone
  end.

Lemma wgood_init : forall t, wcls t -> wgood t [] (init Library B t).
Proof. intros t [Hn _]; destruct t; try discriminate Hn; reflexivity. Qed.

(** *** Reading *)
Local Notation W xs := (total K (fun w => w) (weights_of K xs)).
Ltac by_provider f := 
  intros xs a; unfold spec; pose proof (prov_feature f) as E; cbn in E; revert E;
  destruct (prov f); intros E; try discriminate E; cbn [reports].

Lemma read_count : forall xs a, spec t_count xs a -> wcount K a = length xs.
Proof. by_provider t_count; intros ->; reflexivity. Qed.
Lemma read_weights : forall xs a, spec t_sum_of_weights xs a -> wsum K a = W xs.
Proof. by_provider t_sum_of_weights; intros ->; reflexivity. Qed.
Lemma read_min : forall xs a, spec t_min xs a -> wnum K a = min_run limits (samples_of K xs).
Proof. by_provider t_min; intros H; rewrite (H eq_refl); reflexivity. Qed.
Lemma read_max : forall xs a, spec t_max xs a -> wnum K a = max_run limits (samples_of K xs).
Proof. by_provider t_max; intros H; rewrite (H eq_refl); reflexivity. Qed.
Lemma read_hist : forall xs a, spec t_density xs a -> whist K a = Hist K A xs (prov t_density).
Proof. by_provider t_density; intros H; rewrite (H eq_refl); reflexivity. Qed.
Lemma read_dist : forall xs a, spec t_p_square_cumulative_distribution xs a ->
  whist K a = Dist K A xs (prov t_p_square_cumulative_distribution).
Proof. by_provider t_p_square_cumulative_distribution; intros H; rewrite (H eq_refl); reflexivity. Qed.
Lemma read_ext : forall xs a, spec t_extended_p_square xs a ->
  wlist K a = Extended K A xs (prov t_extended_p_square).
Proof. by_provider t_extended_p_square; intros H; rewrite (H eq_refl); reflexivity. Qed.
Lemma read_med : forall xs a, spec t_p_square_quantile_for_median xs a ->
  wout K a = PQuantile K A xs t_p_square_quantile_for_median.
Proof. by_provider t_p_square_quantile_for_median; intros H; rewrite (H eq_refl); reflexivity. Qed.
Lemma read_wmed : forall xs a, spec t_weighted_p_square_quantile_for_median xs a ->
  wout K a = PQuantile K A xs t_weighted_p_square_quantile_for_median.
Proof. by_provider t_weighted_p_square_quantile_for_median; intros H; rewrite (H eq_refl); reflexivity. Qed.
Lemma read_tail : forall xs a, spec t_abstract_tail xs a -> wtail K a = TailSamples K A xs (prov t_abstract_tail).
Proof. by_provider t_abstract_tail; intros H; rewrite (H eq_refl); reflexivity. Qed.
Lemma read_packs : forall xs a, spec t_abstract_tail xs a -> wpacks K a = TailCalls K A xs (prov t_abstract_tail).
Proof. by_provider t_abstract_tail; intros H; rewrite (H eq_refl); reflexivity. Qed.
Lemma read_tw : forall xs a, spec t_abstract_tail_weights xs a ->
  wlist K a = TailWeights K A prov xs (prov t_abstract_tail_weights).
Proof. by_provider t_abstract_tail_weights; intros H; rewrite (H eq_refl); reflexivity. Qed.
Lemma read_tv : forall xs a, spec t_abstract_tail_variate xs a ->
  wvectors K a = TailVariates K A prov xs (prov t_abstract_tail_variate).
Proof. by_provider t_abstract_tail_variate; intros H; rewrite (H eq_refl); reflexivity. Qed.
Lemma read_nctm : forall xs a, spec t_abstract_non_coherent_tail_mean xs a ->
  wfun K a = TailMean K A prov xs (prov t_abstract_non_coherent_tail_mean).
Proof. by_provider t_abstract_non_coherent_tail_mean; intros H; rewrite (H eq_refl); reflexivity. Qed.
Lemma read_fit : forall xs a, spec t_abstract_peaks_over_threshold xs a ->
  wfit K a = Fit K A prov xs (prov t_abstract_peaks_over_threshold).
Proof. by_provider t_abstract_peaks_over_threshold; intros H; rewrite (H eq_refl); reflexivity. Qed.
Lemma read_quantile : forall xs a, spec t_quantile xs a -> wfun K a = Quantile K A prov xs (prov t_quantile).
Proof. by_provider t_quantile; intros H; rewrite (H eq_refl); reflexivity. Qed.

(** *** Steps *)
Lemma total_units : forall (l : list (pack K)), total K snd (weighted_samples K l) = W l.
Proof.
  intros l; induction l as [| x l IH] using rev_ind; [reflexivity |].
  now rewrite weighted_snoc, weights_snoc, !(total_snoc K HK), IH.
Qed.

Ltac plain_marks E xs x :=
  refine (f_equal (fun o => CRest (WMarks o)) _);
  rewrite (read_count _ _ (E t_count ltac:(cbn; tauto)));
  rewrite <- (samples_length (xs ++ [x])), <- (units_length (samples_of K (xs ++ [x]))), samples_snoc, units_snoc;
  refine (mrun_step _ _ _ _ _ (units K (samples_of K xs)) (p_sample x, 1) 0 _); right; reflexivity.
Ltac weighted_marks E xs x :=
  refine (f_equal (fun o => CRest (WMarks o)) _);
  rewrite (read_count _ _ (E t_count ltac:(cbn; tauto))), (read_weights _ _ (E t_sum_of_weights ltac:(cbn; tauto)));
  rewrite <- (weighted_length (xs ++ [x])), <- (total_units (xs ++ [x])), weighted_snoc;
  refine (mrun_step _ _ _ _ _ (weighted_samples K xs) (p_sample x, p_weight x) _ _); left; reflexivity.

Lemma wgood_step : forall t xs x s r, wcls t -> True -> wgood t xs s ->
  (lon_push t = true -> forall d, In d (lconsults t) -> spec (lfeature d) (xs ++ [x]) (r (lfeature d))) ->
  wgood t (xs ++ [x]) (step Library B t r x s).
Proof.
  intros t xs x s r [Hn Hp] _ G Hr.
  assert (E : lon_push t = true -> forall f, In f (map lfeature (lconsults t)) -> spec f (xs ++ [x]) (r f)).
  { intros H f Hf; apply in_map_iff in Hf; destruct Hf as [d [<- Hd]]; now apply Hr. }
  clear Hr.
  destruct t; try discriminate Hn; cbn [wgood] in *; subst s; try reflexivity;
    try (specialize (E eq_refl)).
  - refine (f_equal CNat _); rewrite app_length, Nat.add_1_r; reflexivity.
  - refine (f_equal (fun o => CRest (WNum o)) _).
    rewrite samples_snoc; unfold min_run; now rewrite fold_left_app.
  - refine (f_equal (fun o => CRest (WNum o)) _).
    rewrite samples_snoc; unfold max_run; now rewrite fold_left_app.
  - refine (f_equal CNum _); now rewrite weights_snoc, (total_snoc K HK).
  - refine (eq_trans (f_equal (fun q => CPair (fst q) (snd q)) (kahan_exact K HK (W xs) (p_weight x))) _).
    cbn [fst snd]; now rewrite weights_snoc, (total_snoc K HK).
  - refine (f_equal (fun o => CRest (WDens o)) _).
    rewrite (read_count _ _ (E t_count ltac:(cbn; tauto))), (read_min _ _ (E t_min ltac:(cbn; tauto))),
      (read_max _ _ (E t_max ltac:(cbn; tauto))).
    rewrite <- (samples_length (xs ++ [x])), samples_snoc.
    refine (drun_step T (fun x => x) (fun _ => 1) (fun n _ => ofnat K n) 0 0 (samples_of K xs) (p_sample x) _ _
              (fun d => de_wsum K T d + 1) _ _ _); [now rewrite map_id | now rewrite map_id | reflexivity].
  - refine (f_equal (fun o => CRest (WWDens o)) _).
    rewrite (read_count _ _ (E t_count ltac:(cbn; tauto))), (read_min _ _ (E t_min ltac:(cbn; tauto))),
      (read_max _ _ (E t_max ltac:(cbn; tauto))), (read_weights _ _ (E t_sum_of_weights ltac:(cbn; tauto))).
    rewrite <- (weighted_length (xs ++ [x])), <- weighted_fst, <- (total_units (xs ++ [x])), weighted_snoc.
    refine (drun_step (T * T) fst snd (fun _ w => w) 0 (0, 0) (weighted_samples K xs) (p_sample x, p_weight x) _ _
              (fun d => _) _ _ _); [reflexivity | reflexivity |].
    intros d Hd; destruct (drun_fields (T * T) fst snd (fun _ w => w) 0 (0, 0) _ _ Hd) as (_ & _ & _ & ->).
    now rewrite (total_snoc K HK).
  - plain_marks E xs x.
  - plain_marks E xs x.
  - weighted_marks E xs x.
  - weighted_marks E xs x.
  - plain_marks E xs x.
  - weighted_marks E xs x.
  - plain_marks E xs x.
  - weighted_marks E xs x.
  - refine (f_equal (fun o => CRest (WTail o)) _); symmetry; apply tail_snoc.
  - refine (f_equal (fun o => CRest (WPot o)) _); unfold prun; now rewrite fold_left_app.
  - refine (f_equal (fun o => CRest (WWPot o)) _); unfold wrun; now rewrite fold_left_app.
Qed.

Lemma dens_result_now : forall E val amt den s0 (e0 : E) es cnt W,
  (forall d, drun E val amt den s0 e0 es = Ok d -> dens_now K (cnt d) (W d) d = d) ->
  obnd (drun E val amt den s0 e0 es) (fun d => Ok (dens_result K E den (dens_now K (cnt d) (W d) d)))
  = obnd (drun E val amt den s0 e0 es) (fun d => Ok (dens_result K E den d)).
Proof.
  intros E val amt den s0 e0 es cnt W H; destruct (drun _ _ _ _ _ _ es) as [d | |]; try reflexivity.
  cbn [obnd]; now rewrite (H d eq_refl).
Qed.

Ltac learn E f lem := try (let X := fresh "R" in pose proof (lem _ _ (E f ltac:(cbn; tauto))) as X).
Ltac read_all E :=
  learn E t_count read_count; learn E t_sum_of_weights read_weights; learn E t_density read_hist;
  learn E t_p_square_cumulative_distribution read_dist; learn E t_extended_p_square read_ext;
  learn E t_p_square_quantile_for_median read_med; learn E t_weighted_p_square_quantile_for_median read_wmed;
  learn E t_abstract_tail read_tail; learn E t_abstract_tail read_packs;
  learn E t_abstract_tail_weights read_tw; learn E t_abstract_tail_variate read_tv;
  learn E t_abstract_non_coherent_tail_mean read_nctm; learn E t_abstract_peaks_over_threshold read_fit;
  learn E t_quantile read_quantile;
  cbn [xresult WholeRest wresult];
  repeat match goal with X : ?a = _ |- context [?a] => rewrite X; clear X end.

Ltac plain_marks_result E xs :=
  read_all E; cbn [Alone PQuantile Dist Extended];
  first [refine (f_equal NHist _) | refine (f_equal NList _) | refine (f_equal NOut _)];
  rewrite <- (samples_length xs), <- (units_length (samples_of K xs));
  refine (mrun_result _ _ _ _ _ _ (units K (samples_of K xs)) _ _ _); right; reflexivity.
Ltac weighted_marks_result E xs :=
  read_all E; cbn [Alone PQuantile Dist Extended];
  first [refine (f_equal NHist _) | refine (f_equal NList _) | refine (f_equal NOut _)];
  rewrite <- (weighted_length xs), <- (total_units xs);
  refine (mrun_result _ _ _ _ _ _ (weighted_samples K xs) _ _ _); left; reflexivity.

Lemma wgood_result : forall t xs s r, wcls t -> True -> wgood t xs s ->
  (forall d, In d (lconsults t) -> spec (lfeature d) xs (r (lfeature d))) ->
  spec (lfeature t) xs (result Library B t r s).
Proof.
  intros t xs s r [Hn Hp] _ G Hr.
  assert (E : forall f, In f (map lfeature (lconsults t)) -> spec f xs (r f)).
  { intros f Hf; apply in_map_iff in Hf; destruct Hf as [d [<- Hd]]; now apply Hr. }
  clear Hr; unfold spec; rewrite Hp; clear Hp.
  destruct t; try discriminate Hn; cbn [wgood reports] in *; subst s; try reflexivity;
    try (intros Hn'; discriminate Hn'); try (intros _; refine (f_equal VRest _)).
  - read_all E; refine (f_equal NHist _).
    refine (dens_result_now T (fun x => x) (fun _ => 1) (fun n _ => ofnat K n) 0 0 (samples_of K xs)
              (fun _ => length xs) (fun d => de_wsum K T d) _).
    intros d Hd; destruct (drun_fields _ _ _ _ _ _ _ _ Hd) as (Hc & _).
    rewrite samples_length in Hc; destruct d; cbn in Hc; subst; reflexivity.
  - read_all E; refine (f_equal NHist _).
    refine (dens_result_now (T * T) fst snd (fun _ w => w) 0 (0, 0) (weighted_samples K xs)
              (fun d => de_count K (T * T) d) (fun _ => W xs) _).
    intros d Hd; destruct (drun_fields _ _ _ _ _ _ _ _ Hd) as (_ & _ & _ & Hw).
    rewrite total_units in Hw; destruct d; cbn in Hw; subst; reflexivity.
  - plain_marks_result E xs.
  - plain_marks_result E xs.
  - weighted_marks_result E xs.
  - weighted_marks_result E xs.
  - plain_marks_result E xs.
  - weighted_marks_result E xs.
  - plain_marks_result E xs.
  - weighted_marks_result E xs.
  - read_all E; reflexivity.
  - read_all E; reflexivity.
  - read_all E; reflexivity.
  - read_all E; reflexivity.
  - read_all E; reflexivity.
  - read_all E; reflexivity.
  - read_all E; reflexivity.
  - read_all E; reflexivity.
  - read_all E; reflexivity.
  - read_all E; reflexivity.
  - read_all E; reflexivity.
  - read_all E; reflexivity.
  - read_all E; reflexivity.
  - read_all E; reflexivity.
  - read_all E; reflexivity.
  - read_all E; reflexivity.
  - read_all E; reflexivity.
  - read_all E; reflexivity.
  - read_all E; reflexivity.
  - read_all E; reflexivity.
  - read_all E; reflexivity.
  - read_all E; refine (f_equal NFit _); symmetry; apply pot_fit_pushed.
  - read_all E; reflexivity.
  - read_all E; refine (f_equal NFit _); symmetry; apply wpot_fit_pushed.
  - read_all E; reflexivity.
  - read_all E; reflexivity.
  - read_all E; reflexivity.
  - read_all E; reflexivity.
  - read_all E; reflexivity.
  - read_all E; reflexivity.
  - read_all E; reflexivity.
  - read_all E; reflexivity.
  - read_all E; reflexivity.
Qed.
End Whole.

(** ** The theorem *)
Theorem whole_answers : forall K (A : Args K) sqrt, FieldLaws K ->
  forall enum, Enumeration Library enum -> forall W fs,
  let ts := make_tuple Library enum W fs in
  let B := WholeSets K A sqrt in
  Compiles W ts -> NoRollingClash ts ->
  forall es, SafeDrops fs ts (dropped_tags Library B es) ->
  forall r t, Live Library fs ts (dropped_tags Library B es) r -> Needs Library ts r t ->
  estimator (fst t) = true ->
  read Library B (history Library B (construct Library B enum W fs) es) (lfeature (fst t))
  = VRest (Alone K A (provider ts) (samples Library B es) (fst t)).
Proof.
  intros K A sqrt HK enum He W fs ts B Hc Hr es HS r t HL HN Hb.
  assert (N : NoDup (map (ffeature Library) ts)) by (apply built_single; assumption || exact library_laws).
  assert (It : In t ts) by now apply needs_member in HN.
  assert (Nt : near (fst t) = true) by (unfold near; now rewrite Hb).
  assert (H : spec K A (provider ts) (lfeature (fst t)) (samples Library B es)
                (read Library B (history Library B (construct Library B enum W fs) es) (lfeature (fst t)))).
  { apply (correct_history Library B library_laws lconsults lon_push
           (sets_read_only K sqrt (WholeRest K A) (whole_reads_only K A))
           (fun _ => True) (wgood K A) (spec K A (provider ts)) (wcls (provider ts))) with (t := t); try assumption; try exact I.
    - intros; exact I.
    - now apply wgood_init.
    - apply wgood_step; try assumption; apply provider_feature.
    - apply wgood_result; try assumption; apply provider_feature.
    - now apply library_supplied.
    - now apply library_push_ordered.
    - intros u Hu; split; [now apply (near_needs ts t) | apply provider_member; [assumption |]].
      now apply needs_member in Hu.
    - now apply (safe_never B enum He W fs es HS r). }
  unfold spec in H; rewrite (provider_member ts t N It) in H.
  destruct (fst t); try discriminate Hb; now apply H.
Qed.
