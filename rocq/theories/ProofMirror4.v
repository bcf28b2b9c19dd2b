(** C84: the statistics of doubles in a mirror. *)
From Coq Require Import ZArith List Bool Reals Lra Lia Arith.
From Flocq Require Import Core IEEE754.BinarySingleNaN.
From Verif Require Import Num ModelBasic ModelMinMax ModelRolling ModelTail ModelHeap ModelDouble SpecDouble SpecMirror
  ProofKahan ProofDouble ProofDouble2 ProofDoubleVariance3 ProofDouble4 ProofDouble5 ProofMonotone ProofMirror ProofMirror2 ProofMirror3.
Import ListNotations.
Local Open Scope R_scope.

Lemma d_lt_asym (x y : double) : d_lt x y = true -> d_lt y x = false.
Proof.
  intros H. destruct (is_nan x) eqn:Nx; [rewrite lt_nan_l in H by exact Nx; discriminate |]. destruct (is_nan y) eqn:Ny; [rewrite lt_nan_r in H by exact Ny; discriminate |].
  apply lt_rank_true in H; try assumption. apply lt_rank_false; try assumption. lra.
Qed.

(** Squares are the same on both sides, bit for bit. *)
Lemma square_sign (x : double) : Bsign (d_mul x x) = false.
Proof.
  destruct (is_finite x) eqn:F; [| destruct x as [|[]| |]; try discriminate; reflexivity].
  pose proof (Bmult_correct 53 1024 prec_pos prec_max mode_NE x x) as C. rewrite round_is in C. fold (d_mul x x) in C.
  destruct (Rlt_bool_spec (Rabs (b64_round (B2R x * B2R x))) (bpow radix2 1024)) as [L | L].
  - destruct C as (_ & C2 & C3). rewrite F in C2. rewrite C3; [apply xorb_nilpotent |]. apply fin_not_nan, C2.
  - apply overflow_inf in C. rewrite C. cbn. apply xorb_nilpotent.
Qed.
Lemma plus_same (x y : double) : Turned false x y -> Bsign x = false -> Bsign y = false -> y = x.
Proof.
  intros [-> | (F1 & F2 & V1 & V2)] S1 S2; [reflexivity |]. unfold finite in *. destruct (zero_is x F1 V1) as [s ->]. destruct (zero_is y F2 V2) as [t ->]. cbn in *. congruence.
Qed.
Lemma square_same s (x y : double) : Turned s x y -> d_mul y y = d_mul x x.
Proof. intros H. apply plus_same; [| apply square_sign ..]. rewrite <- (xorb_nilpotent s). now apply mul_turned. Qed.
Lemma squares_same s xs ys : TurnedAll s xs ys -> map (fun x => d_mul x x) ys = map (fun x => d_mul x x) xs.
Proof. intros F. induction F as [|x y xs ys H F IH]; [reflexivity |]. cbn [map]. rewrite IH, (square_same _ _ _ H). reflexivity. Qed.
Lemma sqrt_turned (x y : double) : Turned false x y -> Turned false (d_sqrt x) (d_sqrt y).
Proof.
  intros [-> | (F1 & F2 & V1 & V2)]; [apply turned_refl |]. unfold finite in *. destruct (zero_is x F1 V1) as [s ->]. destruct (zero_is y F2 V2) as [t ->]. right. repeat split.
Qed.

Definition t_zero := turned_zero. Definition t_refl := turned_refl. Definition t_add := add_turned. Definition t_sub := sub_turned.
Lemma t_mul (s t : bool) (a b x y : car DoubleN) : Turned s a b -> Turned t x y -> Turned (xorb s t) (mul DoubleN a x) (mul DoubleN b y).
Proof. exact (mul_turned s t a b x y). Qed.
Lemma t_div s (a b c : car DoubleN) : Turned s a b -> Turned s (div DoubleN a c) (div DoubleN b c).
Proof. exact (div_turned s a b c). Qed.

Lemma mirror_means turn xs ys : TurnedAll turn xs ys ->
  Turned turn (sum_run DoubleN d_zero xs) (sum_run DoubleN d_zero ys) /\ Turned turn (fst (kahan_run DoubleN d_zero xs)) (fst (kahan_run DoubleN d_zero ys)) /\
  Turned turn (lazy_mean xs) (lazy_mean ys) /\ Turned turn (immediate_mean xs) (immediate_mean ys).
Proof.
  intros F. split; [apply (turn_sum DoubleN Turned t_zero t_add turn), F |]. split; [apply (turn_kahan DoubleN Turned t_zero t_add t_sub turn), F |].
  split; [apply (turn_mean DoubleN Turned t_zero t_add t_div turn), F | apply (turn_imean DoubleN Turned t_refl t_zero t_add t_mul t_div turn), F].
Qed.
Lemma some_inj {A : Type} (x y : A) : Some x = Some y -> x = y.
Proof. congruence. Qed.
Lemma both_some {A B : Type} (Q : A -> B -> Prop) o p a b : both Q o p -> o = Some a -> p = Some b -> Q a b.
Proof. intros H -> ->. exact H. Qed.
Lemma mirror_moment turn N xs ys a b : TurnedAll turn xs ys -> moment_run DoubleN N d_zero xs = Some a -> moment_run DoubleN N d_zero ys = Some b ->
  Turned (turn && Nat.odd N) a b.
Proof. intros F. apply both_some, (turn_moment DoubleN Turned t_zero t_add t_mul t_div turn N), F. Qed.

Lemma mirror_variances turn xs ys : TurnedAll turn xs ys ->
  Unturned (immediate_variance xs) (immediate_variance ys) /\
  Unturned (error_of_immediate_mean xs) (error_of_immediate_mean ys) /\
  lazy_variance_run DoubleN d_zero ys = lazy_variance_run DoubleN d_zero xs.
Proof.
  intros F. pose proof (turn_variance DoubleN Turned t_refl t_zero t_add t_sub t_mul t_div turn _ _ F) as V. split; [exact V |]. split.
  - unfold error_of_immediate_mean, error_of_immediate_mean_run, error_of_mean_result. cbv zeta. change (zero DoubleN) with d_zero in *.
    assert (C : forall zs, vs_count DoubleN (var_set_run DoubleN d_zero zs) = length zs).
    { intros zs. induction zs as [|z zs IH] using rev_ind; [reflexivity |]. unfold var_set_run in *. rewrite fold_left_app, app_length, Nat.add_1_r. cbn. f_equal. exact IH. }
    assert (C2 : vs_count DoubleN (var_set_run DoubleN d_zero ys) = vs_count DoubleN (var_set_run DoubleN d_zero xs)) by (rewrite !C; symmetry; exact (Forall2_length _ _ _ F)).
    rewrite C2. apply sqrt_turned. apply (div_turned false). exact V.
  - rewrite !ProofDoubleVariance3.lazy_is. pose proof (squares_same _ _ _ F) as E. pose proof (Forall2_length _ _ _ F) as L. cbn [mul car DoubleN] in *.
    rewrite E, <- L. do 2 f_equal.
    apply (square_same turn). apply (div_turned turn). apply (turn_sum DoubleN Turned t_zero t_add turn), F.
Qed.

Lemma second_same Ns xs ys a b turn : TurnedAll turn xs ys -> mom_set_run DoubleN (2%nat :: Ns) d_zero xs = Some a -> mom_set_run DoubleN (2%nat :: Ns) d_zero ys = Some b ->
  mom_set_moment DoubleN b 0 = mom_set_moment DoubleN a 0.
Proof.
  intros F Ea Eb. destruct (second DoubleN Ns xs a Ea) as [Ca [la La]]. destruct (second DoubleN Ns ys b Eb) as [Cb [lb Lb]].
  unfold mom_set_moment. rewrite La, Lb, Ca, Cb. cbn [nth_error]. do 2 f_equal; [exact (f_equal (sum_run DoubleN d_zero) (squares_same _ _ _ F)) | symmetry; exact (Forall2_length _ _ _ F)].
Qed.
Lemma mirror_shape turn xs ys : TurnedAll turn xs ys ->
  (forall a b, skewness_run DoubleN d_sqrt d_zero xs = Some a -> skewness_run DoubleN d_sqrt d_zero ys = Some b -> Turned turn a b) /\
  (forall a b, kurtosis_run DoubleN d_zero xs = Some a -> kurtosis_run DoubleN d_zero ys = Some b -> Unturned a b).
Proof.
  intros F. split; intros a b.
  - unfold skewness_run. pose proof (turn_mom DoubleN Turned t_zero t_add t_mul turn [2%nat; 3%nat] xs ys F) as H. change (zero DoubleN) with d_zero in H.
    pose proof (second_same [3%nat] xs ys) as S2. destruct (mom_set_run DoubleN _ d_zero xs) as [p|], (mom_set_run DoubleN _ d_zero ys) as [q|]; try discriminate. cbn [both] in H.
    specialize (S2 p q turn F eq_refl eq_refl). pose proof (turn_moments DoubleN Turned t_div turn _ _ _ H 0%nat _ eq_refl) as M2. pose proof (turn_moments DoubleN Turned t_div turn _ _ _ H 1%nat _ eq_refl) as M3.
    pose proof (turn_mom_mean DoubleN Turned t_div turn _ _ _ H) as M. destruct (mom_set_moment DoubleN p 0) as [m2|]; [| discriminate]. rewrite S2 in M2 |- *.
    cbn in M2, M3. rewrite andb_false_r in M2. rewrite andb_true_r in M3.
    destruct (mom_set_moment DoubleN p 1), (mom_set_moment DoubleN q 1); try discriminate. cbn in M3. intros E1 E2. apply some_inj in E1. apply some_inj in E2. subst a b.
    apply (skewness_formula DoubleN Turned t_refl t_add t_sub t_mul t_div turn); [exact M3 | exact M2 | exact M |].
    unfold lazy_variance_result. f_equal. exact (square_same _ _ _ M).
  - unfold kurtosis_run. pose proof (turn_mom DoubleN Turned t_zero t_add t_mul turn [2%nat; 3%nat; 4%nat] xs ys F) as H. change (zero DoubleN) with d_zero in H.
    pose proof (second_same [3%nat; 4%nat] xs ys) as S2. destruct (mom_set_run DoubleN _ d_zero xs) as [p|], (mom_set_run DoubleN _ d_zero ys) as [q|]; try discriminate. cbn [both] in H.
    specialize (S2 p q turn F eq_refl eq_refl). pose proof (turn_moments DoubleN Turned t_div turn _ _ _ H 0%nat _ eq_refl) as M2. pose proof (turn_moments DoubleN Turned t_div turn _ _ _ H 1%nat _ eq_refl) as M3.
    pose proof (turn_moments DoubleN Turned t_div turn _ _ _ H 2%nat _ eq_refl) as M4.
    pose proof (turn_mom_mean DoubleN Turned t_div turn _ _ _ H) as M. destruct (mom_set_moment DoubleN p 0) as [m2|]; [| discriminate]. rewrite S2 in M2 |- *.
    cbn in M2, M3, M4. rewrite andb_false_r in M2, M4. rewrite andb_true_r in M3.
    destruct (mom_set_moment DoubleN p 1), (mom_set_moment DoubleN q 1); try discriminate. destruct (mom_set_moment DoubleN p 2), (mom_set_moment DoubleN q 2); try discriminate.
    cbn in M3, M4. intros E1 E2. apply some_inj in E1. apply some_inj in E2. subst a b.
    apply (kurtosis_formula DoubleN Turned t_refl t_add t_sub t_mul t_div turn); [exact M4 | exact M3 | exact M2 | exact M |].
    unfold lazy_variance_result. f_equal. exact (square_same _ _ _ M).
Qed.

(** With weights. *)
Lemma mirror_weighted turn h g : TurnedWeighted turn h g ->
  let s := wmean_set_run DoubleN d_zero d_zero h in let t := wmean_set_run DoubleN d_zero d_zero g in
  Turned turn (wm_sum DoubleN s) (wm_sum DoubleN t) /\ Turned turn (wmean_set_mean DoubleN s) (wmean_set_mean DoubleN t) /\
  Turned turn (fst (weighted_kahan_run DoubleN d_zero h)) (fst (weighted_kahan_run DoubleN d_zero g)) /\
  Turned turn (wv_mean DoubleN (wvar_set_run DoubleN d_zero d_zero h)) (wv_mean DoubleN (wvar_set_run DoubleN d_zero d_zero g)) /\
  Unturned (weighted_variance h) (weighted_variance g) /\
  (forall a b, lazy_weighted_variance_run DoubleN d_zero h = Some a -> lazy_weighted_variance_run DoubleN d_zero g = Some b -> Unturned a b) /\
  (forall N a b, weighted_moment_run DoubleN N d_zero h = Some a -> weighted_moment_run DoubleN N d_zero g = Some b -> Turned (turn && Nat.odd N) a b).
Proof.
  intros F. cbv zeta. destruct (turn_wmean DoubleN Turned t_refl t_zero t_add t_mul t_div turn h g F) as [A B]. split; [exact A |]. split; [exact B |].
  split; [exact (turn_wkahan DoubleN Turned t_refl t_zero t_add t_sub t_mul turn h g F) |].
  destruct (turn_wvar DoubleN Turned t_refl t_zero t_add t_sub t_mul t_div turn h g F) as [C D]. split; [exact C |]. split; [exact D |].
  split; [intros a b; apply both_some, (turn_lazy_wvariance DoubleN Turned t_refl t_zero t_add t_sub t_mul t_div turn h g F) |].
  intros N a b. apply both_some, (turn_wmoment DoubleN Turned t_refl t_zero t_add t_mul t_div turn N h g F).
Qed.
Lemma wsquares_same turn h g : TurnedWeighted turn h g -> wsquares DoubleN g = wsquares DoubleN h /\ weigh DoubleN g = weigh DoubleN h.
Proof.
  intros F. split.
  - unfold wsquares. generalize (mul DoubleN (zero DoubleN) (one DoubleN)). induction F as [|[x w] [y v] h g [E1 E2] F IH]; intros z; [reflexivity |].
    cbn [fold_left fst snd] in *. subst v. pose proof (square_same _ _ _ E1) as Q. rewrite IH. cbn [mul DoubleN]. rewrite Q. reflexivity.
  - unfold weigh. f_equal. induction F as [|e f h g [_ E] F IH]; [reflexivity |]. cbn [map]. f_equal; [exact E | exact IH].
Qed.
Lemma wsecond_same Ns h g a b turn : TurnedWeighted turn h g -> wmom_set_run DoubleN (2%nat :: Ns) d_zero d_zero h = Some a -> wmom_set_run DoubleN (2%nat :: Ns) d_zero d_zero g = Some b ->
  wmom_set_moment DoubleN b 0 = wmom_set_moment DoubleN a 0.
Proof.
  intros F Ea Eb. destruct (wsecond DoubleN Ns h a Ea) as [Ca [la La]]. destruct (wsecond DoubleN Ns g b Eb) as [Cb [lb Lb]].
  destruct (wsquares_same _ _ _ F) as [Q W]. unfold wmom_set_moment. rewrite La, Lb, Ca, Cb. cbn [nth_error]. rewrite Q, W. reflexivity.
Qed.
Lemma mirror_weighted_shape turn h g : TurnedWeighted turn h g ->
  (forall a b, weighted_skewness_run DoubleN d_sqrt d_zero h = Some a -> weighted_skewness_run DoubleN d_sqrt d_zero g = Some b -> Turned turn a b) /\
  (forall a b, weighted_kurtosis_run DoubleN d_zero h = Some a -> weighted_kurtosis_run DoubleN d_zero g = Some b -> Unturned a b).
Proof.
  intros F. split; intros a b.
  - unfold weighted_skewness_run. pose proof (turn_wmom DoubleN Turned t_refl t_zero t_add t_mul turn [2%nat; 3%nat] h g F) as H. change (zero DoubleN) with d_zero in *.
    pose proof (wsecond_same [3%nat] h g) as S2. destruct (wmom_set_run DoubleN _ d_zero d_zero h) as [p|], (wmom_set_run DoubleN _ d_zero d_zero g) as [q|]; try discriminate. cbn [both] in H.
    specialize (S2 p q turn F eq_refl eq_refl). pose proof (turn_wmoments DoubleN Turned t_div turn _ _ _ H 0%nat _ eq_refl) as M2. pose proof (turn_wmoments DoubleN Turned t_div turn _ _ _ H 1%nat _ eq_refl) as M3.
    pose proof (turn_wmom_mean DoubleN Turned t_div turn _ _ _ H) as M. destruct (wmom_set_moment DoubleN p 0) as [m2|]; [| discriminate]. rewrite S2 in M2 |- *.
    cbn in M2, M3. rewrite andb_false_r in M2. rewrite andb_true_r in M3.
    destruct (wmom_set_moment DoubleN p 1), (wmom_set_moment DoubleN q 1); try discriminate. cbn in M3. intros E1 E2. apply some_inj in E1. apply some_inj in E2. subst a b.
    apply (skewness_formula DoubleN Turned t_refl t_add t_sub t_mul t_div turn); [exact M3 | exact M2 | exact M |].
    unfold lazy_variance_result. f_equal. exact (square_same _ _ _ M).
  - unfold weighted_kurtosis_run. pose proof (turn_wmom DoubleN Turned t_refl t_zero t_add t_mul turn [2%nat; 3%nat; 4%nat] h g F) as H. change (zero DoubleN) with d_zero in *.
    pose proof (wsecond_same [3%nat; 4%nat] h g) as S2. destruct (wmom_set_run DoubleN _ d_zero d_zero h) as [p|], (wmom_set_run DoubleN _ d_zero d_zero g) as [q|]; try discriminate. cbn [both] in H.
    specialize (S2 p q turn F eq_refl eq_refl). pose proof (turn_wmoments DoubleN Turned t_div turn _ _ _ H 0%nat _ eq_refl) as M2. pose proof (turn_wmoments DoubleN Turned t_div turn _ _ _ H 1%nat _ eq_refl) as M3.
    pose proof (turn_wmoments DoubleN Turned t_div turn _ _ _ H 2%nat _ eq_refl) as M4.
    pose proof (turn_wmom_mean DoubleN Turned t_div turn _ _ _ H) as M. destruct (wmom_set_moment DoubleN p 0) as [m2|]; [| discriminate]. rewrite S2 in M2 |- *.
    cbn in M2, M3, M4. rewrite andb_false_r in M2, M4. rewrite andb_true_r in M3.
    destruct (wmom_set_moment DoubleN p 1), (wmom_set_moment DoubleN q 1); try discriminate. destruct (wmom_set_moment DoubleN p 2), (wmom_set_moment DoubleN q 2); try discriminate.
    cbn in M3, M4. intros E1 E2. apply some_inj in E1. apply some_inj in E2. subst a b.
    apply (kurtosis_formula DoubleN Turned t_refl t_add t_sub t_mul t_div turn); [exact M4 | exact M3 | exact M2 | exact M |].
    unfold lazy_variance_result. f_equal. exact (square_same _ _ _ M).
Qed.

Lemma mirror_covariance turn turnv h g : TurnedPairs turn turnv h g ->
  Turned (xorb turn turnv) (cs_cov DoubleN (cov_set_run DoubleN d_zero d_zero h)) (cs_cov DoubleN (cov_set_run DoubleN d_zero d_zero g)).
Proof. exact (turn_covariance DoubleN Turned t_refl t_zero t_add t_sub t_mul t_div turn turnv h g). Qed.
Lemma mirror_wcovariance turn turnv h g : TurnedTriples turn turnv h g ->
  Turned (xorb turn turnv) (wc_cov DoubleN (wcov_set_run DoubleN d_zero d_zero d_zero h)) (wc_cov DoubleN (wcov_set_run DoubleN d_zero d_zero d_zero g)).
Proof. exact (turn_wcovariance DoubleN Turned t_refl t_zero t_add t_sub t_mul t_div turn turnv h g). Qed.

Lemma mirror_rolling turn N M xs ys s t : TurnedAll turn xs ys -> rolling N M xs s -> rolling N M ys t ->
  TurnedAll turn (ro_window DoubleN N s) (ro_window DoubleN N t) /\
  Turned turn (r_sum s) (r_sum t) /\ Turned turn (ro_lazy_mean DoubleN N s) (ro_lazy_mean DoubleN N t) /\ Turned turn (r_mean s) (r_mean t) /\
  Turned (turn && Nat.odd M) (ro_moment DoubleN N s) (ro_moment DoubleN N t) /\
  Unturned (r_variance N s) (r_variance N t) /\ Unturned (ro_lazy_variance DoubleN N s) (ro_lazy_variance DoubleN N t) /\
  Unturned (ro_lazy_variance_lazy_mean DoubleN N s) (ro_lazy_variance_lazy_mean DoubleN N t).
Proof.
  intros F Es Et. apply (turn_roll_results DoubleN Turned t_refl t_zero t_sub t_mul t_div turn N M).
  exact (both_some _ _ _ _ _ (turn_roll DoubleN Turned t_zero t_add t_sub t_mul t_div lt_turned sub_swap sub_add add_sub d_lt_asym turn N M xs ys F) Es Et).
Qed.

Lemma like_out_ok {A B : Type} (Q : A -> B -> Prop) o p a : like_out Q o p -> o = Ok a -> exists b, p = Ok b /\ Q a b.
Proof. intros L ->. destruct p; cbn in L; try contradiction. eauto. Qed.
(** The left tail is the right tail of the mirror. *)
Lemma mirror_tail (V : Type) H lr c nv (dV : V) h g : Asking H -> TurnedOps true h g ->
  forall s, tail_run H (tail_pred DoubleN lr) (tail_init c nv d_zero dV) h = Ok s ->
  exists t, tail_run H (tail_pred DoubleN (opposite lr)) (tail_init c nv d_zero dV) g = Ok t /\
    (forall l, tail_result H (tail_pred DoubleN lr) s = Ok l -> exists l', tail_result H (tail_pred DoubleN (opposite lr)) t = Ok l' /\ TurnedAll true l l') /\
    forall j, tail_variate_result H (tail_pred DoubleN (opposite lr)) t j = tail_variate_result H (tail_pred DoubleN lr) s j.
Proof.
  intros HA F s E. pose proof (turn_tail DoubleN Turned t_zero lt_turned V H HA true lr c nv dV h g F) as Q.
  destruct (like_out_ok _ _ _ _ Q E) as [t [Et L]]. exists t. split; [exact Et |]. split.
  - intros l El. exact (like_out_ok _ _ _ _ (turn_result DoubleN Turned lt_turned V H HA true lr s t L) El).
  - intros j. symmetry. exact (turn_vresult DoubleN Turned lt_turned V H HA true lr s t j L).
Qed.

(** The smallest is the largest of the mirror. *)
Lemma mirror_extremes xs ys : TurnedAll true xs ys -> Mirrored (minimum xs) (maximum ys) /\ Mirrored (maximum xs) (minimum ys).
Proof.
  intros F. split.
  - unfold minimum, maximum, min_run, max_run. apply (fold_rel (Turned true) (Turned true)); [| exact F | left; reflexivity].
    intros a b x y H1 H2. unfold min_assign, max_assign. cbn [lltb DoubleL]. pose proof (lt_turned true _ _ _ _ H1 H2) as L. cbn in L. rewrite L. destruct (d_lt x a); assumption.
  - unfold minimum, maximum, min_run, max_run. apply (fold_rel (Turned true) (Turned true)); [| exact F | left; symmetry; apply opp_opp].
    intros a b x y H1 H2. unfold min_assign, max_assign. cbn [lltb DoubleL]. pose proof (lt_turned true _ _ _ _ H2 H1) as L. cbn in L. rewrite L. destruct (d_lt a x); assumption.
Qed.
