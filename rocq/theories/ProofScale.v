(** Scaling by powers of two commutes with rounding where nothing underflows. *)
From Coq Require Import ZArith List Bool Reals Lra Lia Arith.
From Flocq Require Import Core Plus_error Mult_error IEEE754.BinarySingleNaN.
From Verif Require Import Num ModelDouble SpecDouble ProofKahan ProofDouble ProofDouble2 ProofDouble4 ProofMonotone ProofMirror SpecScale.
Import ListNotations.
Local Open Scope R_scope.

Notation pow2 := (bpow radix2).
Definition fits : R -> Prop := generic_format radix2 (FLT_exp (-1074) 53).
Lemma flx_scale (x : R) e : round radix2 (FLX_exp 53) ZnearestE (x * pow2 e) = round radix2 (FLX_exp 53) ZnearestE x * pow2 e.
Proof.
  destruct (Req_dec x 0) as [-> | Z]; [rewrite Rmult_0_l, round_0 by apply valid_rnd_N; lra |].
  unfold round, scaled_mantissa, cexp, F2R. cbn [Fnum Fexp]. rewrite mag_mult_bpow by exact Z.
  replace (FLX_exp 53 (mag radix2 x + e)) with (FLX_exp 53 (mag radix2 x) + e)%Z by (unfold FLX_exp; lia).
  rewrite !bpow_plus. set (c := FLX_exp 53 (mag radix2 x)).
  replace (x * pow2 e * pow2 (- (c + e))) with (x * pow2 (- c)); [ring |].
  rewrite Z.opp_add_distr, bpow_plus. replace (x * pow2 e * (pow2 (- c) * pow2 (- e))) with (x * pow2 (- c) * (pow2 e * pow2 (- e))) by ring.
  rewrite <- bpow_plus, Z.add_opp_diag_r. cbn [bpow]. ring.
Qed.
Lemma round_scale (r : R) e : pow2 (-1022) <= Rabs r -> pow2 (-1022) <= Rabs (pow2 e * r) -> b64_round (pow2 e * r) = pow2 e * b64_round r.
Proof.
  intros H1 H2. unfold b64_round. rewrite !round_FLT_FLX by assumption. rewrite Rmult_comm, flx_scale. ring.
Qed.
Lemma fits_scale (r : R) e : fits r -> pow2 (-1022) <= Rabs (pow2 e * r) -> fits (pow2 e * r).
Proof.
  intros F L. apply generic_format_FLT_FLX; [exact L |]. rewrite Rmult_comm. apply mult_bpow_exact_FLX. apply generic_format_FLX_FLT with (-1074)%Z, F.
Qed.
Lemma fits_round r : fits r -> b64_round r = r.
Proof. intros F. apply round_generic; [apply valid_rnd_N | exact F]. Qed.
Lemma val_fits (x : double) : fits (B2R x).
Proof. apply generic_format_B2R. Qed.
Lemma scale_back e r : pow2 (- e) * (pow2 e * r) = r.
Proof. rewrite <- Rmult_assoc, <- bpow_plus, Z.add_opp_diag_l. cbn [bpow]. ring. Qed.
(** Sums never underflow. *)
Lemma round_plus (a x b y : R) e : fits a -> fits x -> fits b -> fits y -> b = pow2 e * a -> y = pow2 e * x -> b64_round (b + y) = pow2 e * b64_round (a + x).
Proof.
  intros Fa Fx Fb Fy Eb Ey. assert (E : b + y = pow2 e * (a + x)) by (rewrite Eb, Ey; ring).
  assert (small : forall u v, fits u -> fits v -> Rabs (u + v) < pow2 (-1022) -> fits (u + v)).
  { intros u v Fu Fv L. apply FLT_format_plus_small; [reflexivity | exact Fu | exact Fv |]. apply Rlt_le. eapply Rlt_trans; [exact L |]. apply bpow_lt. lia. }
  destruct (Rlt_or_le (Rabs (a + x)) (pow2 (-1022))) as [L1 | L1], (Rlt_or_le (Rabs (b + y)) (pow2 (-1022))) as [L2 | L2].
  - rewrite !fits_round by (apply small; assumption). exact E.
  - rewrite (fits_round (a + x)) by (apply small; assumption). rewrite E in *. apply fits_round, fits_scale; [apply small; assumption | exact L2].
  - rewrite (fits_round (b + y)) by (apply small; assumption). rewrite E. f_equal. symmetry. apply fits_round.
    rewrite <- (scale_back e (a + x)) in L1 |- *. apply fits_scale; [rewrite <- E; apply small; assumption | exact L1].
  - rewrite E in *. apply round_scale; assumption.
Qed.
Lemma scaled_add e (a b x y : double) : Scaled e a b -> Scaled e x y -> finite (d_add a x) -> finite (d_add b y) -> Scaled e (d_add a x) (d_add b y).
Proof.
  intros (Fa & Fb & Vb) (Fx & Fy & Vy) F1 F2. unfold Scaled, finite, val in *. repeat split; try assumption.
  destruct (add_cases a x Fa Fx) as [(_ & E1 & _) | (E1 & _)]; [| rewrite E1 in F1; discriminate].
  destruct (add_cases b y Fb Fy) as [(_ & E2 & _) | (E2 & _)]; [| rewrite E2 in F2; discriminate].
  rewrite E1, E2. apply round_plus; try apply val_fits; assumption.
Qed.
Lemma sub_val (x y : double) : is_finite x = true -> is_finite y = true -> is_finite (d_sub x y) = true -> B2R (d_sub x y) = b64_round (B2R x - B2R y).
Proof.
  intros Fx Fy F. pose proof (Bminus_correct 53 1024 prec_pos prec_max mode_NE x y Fx Fy) as H.
  rewrite round_is in H. destruct (Rlt_bool_spec (Rabs (b64_round (B2R x - B2R y))) (pow2 1024)) as [L | L]; [apply H |].
  destruct H as [H _]. apply overflow_inf in H. fold (d_sub x y) in H. rewrite H in F. discriminate.
Qed.
Lemma scaled_sub e (a b x y : double) : Scaled e a b -> Scaled e x y -> finite (d_sub a x) -> finite (d_sub b y) -> Scaled e (d_sub a x) (d_sub b y).
Proof.
  intros (Fa & Fb & Vb) (Fx & Fy & Vy) F1 F2. unfold Scaled, finite, val in *. repeat split; try assumption.
  rewrite !sub_val by assumption. unfold Rminus. apply round_plus; try apply generic_format_opp; try apply val_fits; try assumption. rewrite Vy. ring.
Qed.
(** Products and quotients. *)
Lemma large_val (x : double) r : large x = true -> is_finite x = true -> B2R x = b64_round r -> pow2 (-1022) <= Rabs r.
Proof.
  unfold large. intros L F E. assert (N : is_finite smallest_normal = true) by (vm_compute; reflexivity).
  assert (V : B2R smallest_normal = pow2 (-1022)).
  { unfold smallest_normal. change (B2R (dbl 1 (-1022))) with (B2R (binary_normalize 53 1024 prec_pos prec_max mode_NE 1 (-1022) false)).
    pose proof (binary_normalize_correct 53 1024 prec_pos prec_max mode_NE 1 (-1022) false) as C. cbv zeta in C. rewrite round_is in C.
    assert (X : F2R (Float radix2 1 (-1022)) = pow2 (-1022)) by (unfold F2R; cbn [Fnum Fexp]; ring). rewrite X in C.
    assert (G : b64_round (pow2 (-1022)) = pow2 (-1022)) by (apply fits_round, generic_format_bpow; unfold FLT_exp; lia). rewrite G in C.
    rewrite Rlt_bool_true in C; [apply C |]. rewrite Rabs_pos_eq by apply bpow_ge_0. apply bpow_lt. lia. }
  assert (FA : is_finite (d_abs x) = true) by (destruct x; try discriminate; reflexivity).
  apply lt_true in L; try assumption. rewrite V in L. unfold d_abs in L. rewrite B2R_Babs, E in L.
  destruct (Rle_or_lt (pow2 (-1022)) (Rabs r)) as [H | H]; [exact H |]. exfalso.
  assert (A : Rabs (b64_round r) <= pow2 (-1022)).
  { apply (abs_round_le_generic radix2 (FLT_exp (-1074) 53) ZnearestE); [apply generic_format_bpow; unfold FLT_exp; lia | lra]. }
  lra.
Qed.
Lemma is_zero_val (x : double) : is_zero x = true -> B2R x = 0.
Proof. destruct x; try discriminate. reflexivity. Qed.
Lemma val_is_zero (x : double) : is_finite x = true -> B2R x = 0 -> is_zero x = true.
Proof. intros F E. destruct (zero_is x F E) as [s ->]. reflexivity. Qed.
Lemma mul_val (x y : double) : is_finite x = true -> is_finite y = true -> is_finite (d_mul x y) = true -> B2R (d_mul x y) = b64_round (B2R x * B2R y).
Proof.
  intros Fx Fy F. pose proof (Bmult_correct 53 1024 prec_pos prec_max mode_NE x y) as H.
  rewrite round_is in H. destruct (Rlt_bool_spec (Rabs (b64_round (B2R x * B2R y))) (pow2 1024)) as [L | L]; [apply H |].
  apply overflow_inf in H. fold (d_mul x y) in H. rewrite H in F. discriminate.
Qed.
Lemma div_val (x y : double) : is_finite x = true -> B2R y <> 0 -> is_finite (d_div x y) = true -> B2R (d_div x y) = b64_round (B2R x / B2R y).
Proof.
  intros Fx Z F. pose proof (Bdiv_correct 53 1024 prec_pos prec_max mode_NE x y Z) as H.
  rewrite round_is in H. destruct (Rlt_bool_spec (Rabs (b64_round (B2R x / B2R y))) (pow2 1024)) as [L | L]; [apply H |].
  apply overflow_inf in H. fold (d_div x y) in H. rewrite H in F. discriminate.
Qed.

(** The relation between watched numbers: if neither raised the flag, one is the scaled other. *)
Definition WScaled (e : Z) (a b : watched) : Prop := snd a = true -> snd b = true -> Scaled e (fst a) (fst b).
Ltac flags := repeat match goal with H : _ && _ = true |- _ => apply andb_true_iff in H as [? ?] end.
Lemma w_add_scaled e a b x y : WScaled e a b -> WScaled e x y -> WScaled e (w_add a x) (w_add b y).
Proof. unfold WScaled, w_add. cbn [fst snd]. intros H1 H2 F1 F2. flags. apply scaled_add; auto. Qed.
Lemma w_sub_scaled e a b x y : WScaled e a b -> WScaled e x y -> WScaled e (w_sub a x) (w_sub b y).
Proof. unfold WScaled, w_sub. cbn [fst snd]. intros H1 H2 F1 F2. flags. apply scaled_sub; auto. Qed.
Lemma pow2_pos e : 0 < pow2 e. Proof. apply bpow_gt_0. Qed.
Lemma w_mul_scaled d e a b x y : WScaled d a b -> WScaled e x y -> WScaled (d + e) (w_mul a x) (w_mul b y).
Proof.
  unfold WScaled, w_mul. cbn [fst snd]. intros H1 H2 F1 F2. flags. destruct H1 as (Fa & Fb & Vb); [assumption .. |]. destruct H2 as (Fx & Fy & Vy); [assumption .. |].
  unfold Scaled, finite, val in *. repeat split; try assumption. rewrite !mul_val by assumption.
  assert (E : B2R (fst b) * B2R (fst y) = pow2 (d + e) * (B2R (fst a) * B2R (fst x))) by (rewrite Vb, Vy, bpow_plus; ring).
  destruct (Req_dec (B2R (fst a) * B2R (fst x)) 0) as [Z | Z].
  { rewrite E, Z, Rmult_0_r, round_zero. ring. }
  assert (Z1 : forall u v : double, B2R u * B2R v <> 0 -> is_zero u = false /\ is_zero v = false).
  { intros u v N. split; [destruct (is_zero u) eqn:Q | destruct (is_zero v) eqn:Q]; try reflexivity; apply is_zero_val in Q; exfalso; apply N; rewrite Q; ring. }
  assert (Z' : B2R (fst b) * B2R (fst y) <> 0) by (rewrite E; apply Rmult_integral_contrapositive_currified; [pose proof (pow2_pos (d + e)); lra | exact Z]).
  destruct (Z1 _ _ Z) as [Q1 Q2]. destruct (Z1 _ _ Z') as [Q3 Q4].
  repeat match goal with H : _ || _ = true |- _ => rewrite ?Q1, ?Q2, ?Q3, ?Q4, !orb_false_r in H end.
  rewrite E. apply round_scale; [| rewrite <- E]; [apply (large_val (d_mul (fst a) (fst x))) | apply (large_val (d_mul (fst b) (fst y)))]; try assumption; apply mul_val; assumption.
Qed.
Lemma w_div_scaled d e a b x y : WScaled d a b -> WScaled e x y -> WScaled (d - e) (w_div a x) (w_div b y).
Proof.
  unfold WScaled, w_div. cbn [fst snd]. intros H1 H2 F1 F2. flags. destruct H1 as (Fa & Fb & Vb); [assumption .. |]. destruct H2 as (Fx & Fy & Vy); [assumption .. |].
  unfold Scaled, finite, val in *. repeat split; try assumption.
  assert (Zx : B2R (fst x) <> 0) by (intros Z; apply val_is_zero in Z; [rewrite Z in *; discriminate | assumption]).
  assert (Zy : B2R (fst y) <> 0) by (intros Z; apply val_is_zero in Z; [rewrite Z in *; discriminate | assumption]).
  rewrite !div_val by assumption.
  assert (E : B2R (fst b) / B2R (fst y) = pow2 (d - e) * (B2R (fst a) / B2R (fst x))).
  { rewrite Vb, Vy. unfold Zminus. rewrite bpow_plus, bpow_opp. pose proof (pow2_pos e). field. split; [exact Zx | lra]. }
  destruct (Req_dec (B2R (fst a)) 0) as [Z | Z].
  { rewrite E, Z. unfold Rdiv. rewrite Rmult_0_l, Rmult_0_r, round_zero. ring. }
  assert (Z' : B2R (fst b) <> 0) by (rewrite Vb; apply Rmult_integral_contrapositive_currified; [pose proof (pow2_pos d); lra | exact Z]).
  assert (Q1 : is_zero (fst a) = false) by (destruct (is_zero (fst a)) eqn:Q; [apply is_zero_val in Q; contradiction | reflexivity]).
  assert (Q2 : is_zero (fst b) = false) by (destruct (is_zero (fst b)) eqn:Q; [apply is_zero_val in Q; contradiction | reflexivity]).
  repeat match goal with H : _ || _ = true |- _ => rewrite ?Q1, ?Q2, !orb_false_r in H end.
  rewrite E. apply round_scale; [| rewrite <- E]; [apply (large_val (d_div (fst a) (fst x))) | apply (large_val (d_div (fst b) (fst y)))]; try assumption; apply div_val; assumption.
Qed.
(** Square roots. *)
Lemma sqrt_val (x : double) : is_finite (d_sqrt x) = true -> B2R (d_sqrt x) = b64_round (sqrt (B2R x)) /\ 0 <= B2R x.
Proof.
  intros F. pose proof (Bsqrt_correct 53 1024 prec_pos prec_max mode_NE x) as [H _]. rewrite round_is in H. fold (d_sqrt x) in H. split; [exact H |].
  destruct x as [s|[]| |[] m e B]; try discriminate; cbn; try lra. unfold F2R. cbn. pose proof (bpow_gt_0 radix2 e). pose proof (IZR_lt 0 (Z.pos m) eq_refl). nra.
Qed.
Lemma root_large (x : double) : 0 < B2R x -> pow2 (-1022) <= sqrt (B2R x).
Proof.
  intros P. apply Rle_trans with (pow2 (-538)); [apply bpow_le; lia |]. apply Rsqr_incr_0_var; [| apply sqrt_pos]. rewrite Rsqr_sqrt by lra. unfold Rsqr. rewrite <- bpow_plus.
  pose proof (val_fits x) as F. assert (L : pow2 (-1074) <= Rabs (B2R x)).
  { apply (FLT_format_B2R 53 1024) in F || idtac. pose proof (abs_B2R_ge_emin 53 1024 x) as G. apply G. destruct x as [|[]| |]; try reflexivity; cbn in P; lra. }
  rewrite Rabs_pos_eq in L by lra. eapply Rle_trans; [| exact L]. apply bpow_le. lia.
Qed.
Lemma w_sqrt_scaled e a b : WScaled (e + e) a b -> WScaled e (w_sqrt a) (w_sqrt b).
Proof.
  unfold WScaled, w_sqrt. cbn [fst snd]. intros H F1 F2. flags. destruct H as (Fa & Fb & Vb); [assumption .. |].
  unfold Scaled, finite, val in *. repeat split; try assumption. destruct (sqrt_val (fst a)) as [E1 P1]; [assumption |]. destruct (sqrt_val (fst b)) as [E2 P2]; [assumption |].
  rewrite E1, E2, Vb. rewrite bpow_plus. replace (pow2 e * pow2 e * B2R (fst a)) with (Rsqr (pow2 e) * B2R (fst a)) by (unfold Rsqr; ring).
  rewrite sqrt_mult, sqrt_Rsqr by (try apply Rle_0_sqr; try apply bpow_ge_0; assumption).
  destruct P1 as [P1 | P1]; [| rewrite <- P1, sqrt_0, Rmult_0_r, round_zero; ring].
  assert (P3 : 0 < B2R (fst b)) by (rewrite Vb; apply Rmult_lt_0_compat; [apply bpow_gt_0 | exact P1]).
  assert (Q : sqrt (B2R (fst b)) = pow2 e * sqrt (B2R (fst a))).
  { rewrite Vb, bpow_plus. replace (pow2 e * pow2 e * B2R (fst a)) with (Rsqr (pow2 e) * B2R (fst a)) by (unfold Rsqr; ring).
    rewrite sqrt_mult, sqrt_Rsqr by (try apply Rle_0_sqr; try apply bpow_ge_0; lra). reflexivity. }
  apply round_scale; [rewrite Rabs_pos_eq by apply sqrt_pos; now apply root_large |].
  rewrite <- Q, Rabs_pos_eq by apply sqrt_pos. now apply root_large.
Qed.
