(** Weighted sums of doubles; one step of the immediate weighted mean in real numbers. *)
From Coq Require Import ZArith List Bool Reals Lra Lia Arith Psatz.
From Flocq Require Import Core IEEE754.BinarySingleNaN.
From Verif Require Import Num NumFacts ModelBasic ModelRounding ModelDouble SpecStats SpecDouble SpecDoubleWeighted ProofBasic ProofBasic2 ProofKahan ProofDouble ProofDouble2 ProofDouble3 ProofDoubleVariance ProofDoubleVariance2 ProofDoubleCovariance.
Import ListNotations.
Local Open Scope R_scope.

Definition products (h : list (double * double)) : list double := map (fun p => d_mul (fst p) (snd p)) h.
Lemma wmean_set_is h : wmean_set_run DoubleN d_zero d_zero h = {| wm_W := sum_run DoubleN d_zero (map snd h); wm_sum := sum_run DoubleN d_zero (products h) |}.
Proof.
  induction h as [|p h IH] using rev_ind; [reflexivity |].
  unfold wmean_set_run in *. rewrite fold_left_app. cbn [fold_left]. rewrite IH. unfold products. rewrite !map_app. cbn [map]. rewrite !sum_snoc. reflexivity.
Qed.
Lemma products_error h : Forall finite (products h) ->
  Rabs (ExactSum (products h) - ExactWeightedSum h) <= roundoff * WeightedMagnitude h + INR (length h) * tiny /\
  Magnitude (products h) <= (1 + roundoff) * WeightedMagnitude h + INR (length h) * tiny.
Proof.
  induction h as [|[x w] h IH]; intros F.
  - unfold ExactSum, ExactWeightedSum, WeightedMagnitude, Magnitude. cbn. rewrite Rminus_0_r, Rabs_R0. lra.
  - inversion F as [|? ? F0 F1]; subst. destruct (IH F1) as [I1 I2]. cbn [fst snd] in F0. destruct (mul_fin _ _ F0) as (_ & _ & E).
    assert (N := round_near (val x * val w)). unfold near in N. fold (val x) (val w) (val (d_mul x w)) in E. rewrite <- E in N.
    change (ExactSum (products ((x, w) :: h))) with (val (d_mul x w) + ExactSum (products h)). change (Magnitude (products ((x, w) :: h))) with (Rabs (val (d_mul x w)) + Magnitude (products h)).
    change (ExactWeightedSum ((x, w) :: h)) with (val x * val w + ExactWeightedSum h). change (WeightedMagnitude ((x, w) :: h)) with (Rabs (val x * val w) + WeightedMagnitude h).
    cbn [length]. rewrite S_INR. assert (B := close_bound _ _ _ _ N (Rle_refl _)).
    split; [| lra]. apply Rabs_le_inv in N. apply Rabs_le_inv in I1. apply Rabs_le. lra.
Qed.
Lemma weighted_magnitude_nonneg h : 0 <= WeightedMagnitude h.
Proof.
  induction h as [|[x w] h IH]; [unfold WeightedMagnitude; cbn; lra |].
  change (WeightedMagnitude ((x, w) :: h)) with (Rabs (val x * val w) + WeightedMagnitude h). assert (P := Rabs_pos (val x * val w)). lra.
Qed.
Lemma weighted_sum_error (h : list (double * double)) : finite (wm_sum DoubleN (wmean_set_run DoubleN d_zero d_zero h)) ->
  Rabs (val (wm_sum DoubleN (wmean_set_run DoubleN d_zero d_zero h)) - ExactWeightedSum h)
    <= ((1 + roundoff) ^ length h - 1) * WeightedMagnitude h + (1 + roundoff) ^ length h * INR (length h) * tiny.
Proof.
  rewrite wmean_set_is. cbn [wm_sum]. intros F. destruct h as [|p h].
  { unfold ExactWeightedSum, WeightedMagnitude. cbn. rewrite Rminus_0_r, Rabs_R0. lra. }
  set (g := p :: h) in *. destruct (products_error g (sum_finite_all _ F)) as [P1 P2].
  assert (L : length (products g) = length g) by apply map_length.
  assert (E : Rabs (val (sum_run DoubleN d_zero (products g)) - ExactSum (products g)) <= ((1 + roundoff) ^ (length g - 1) - 1) * Magnitude (products g)) by (rewrite <- L; exact (sum_error _ F)).
  assert (Hu := roundoff_small). assert (Ht := tiny_pos). assert (M0 := weighted_magnitude_nonneg g). assert (n0 := pos_INR (length g)).
  assert (Q : (1 + roundoff) ^ length g = (1 + roundoff) * (1 + roundoff) ^ (length g - 1)) by (replace (length g) with (S (length g - 1)) at 1 by (unfold g; cbn; lia); reflexivity).
  rewrite Q. clear Q. assert (G := pow_ge_1 (length g - 1)). set (q := (1 + roundoff) ^ (length g - 1)) in *.
  assert (T := close_trans _ _ _ _ _ E P1). eapply Rle_trans; [exact T |].
  assert (A : (q - 1) * Magnitude (products g) <= (q - 1) * ((1 + roundoff) * WeightedMagnitude g + INR (length g) * tiny)) by (apply Rmult_le_compat_l; lra).
  assert (0 <= INR (length g) * tiny) by (apply Rmult_le_pos; lra). set (nt := INR (length g) * tiny) in *. set (M := WeightedMagnitude g) in *.
  assert (0 <= q * roundoff * nt) by (apply Rmult_le_pos; [apply Rmult_le_pos |]; lra). replace ((1 + roundoff) * q * INR (length g) * tiny) with (q * nt + q * roundoff * nt) by (unfold nt; ring). lra.
Qed.
Lemma weights_magnitude c h : Weights c h -> Magnitude (map snd h) = ExactWeight h /\ 0 <= ExactWeight h.
Proof.
  intros W. unfold ExactWeight. induction W as [|[x w] h [_ [P _]] W IH]; [unfold Magnitude, ExactSum; cbn; lra |]. cbn [map snd] in *.
  change (Magnitude (w :: map snd h)) with (Rabs (val w) + Magnitude (map snd h)). change (ExactSum (w :: map snd h)) with (val w + ExactSum (map snd h)).
  rewrite Rabs_pos_eq by exact P. lra.
Qed.
Lemma weight_sum_error (h : list (double * double)) : Forall (fun p => 0 <= val (snd p)) h -> finite (wm_W DoubleN (wmean_set_run DoubleN d_zero d_zero h)) ->
  Rabs (val (wm_W DoubleN (wmean_set_run DoubleN d_zero d_zero h)) - ExactWeight h) <= ((1 + roundoff) ^ (length h - 1) - 1) * ExactWeight h.
Proof.
  rewrite wmean_set_is. cbn [wm_W]. intros W F. assert (E := sum_error _ F). rewrite map_length in E.
  assert (M : Magnitude (map snd h) = ExactWeight h); [| eapply Rle_trans; [exact E |]; right; exact (f_equal (Rmult _) M)].
  clear - W. unfold ExactWeight. induction W as [|[x w] h P W IH]; [reflexivity |]. cbn [map snd] in *.
  change (Magnitude (w :: map snd h)) with (Rabs (val w) + Magnitude (map snd h)). change (ExactSum (w :: map snd h)) with (val w + ExactSum (map snd h)).
  rewrite Rabs_pos_eq by exact P. rewrite IH. reflexivity.
Qed.

(** ** One step of the immediate weighted mean *)
Section Step.
  Variables A u t th : R.
  Hypotheses (HA : 0 < A) (Hu : 0 < u <= / 1000) (Ht : 0 <= t) (Hth : 0 <= th <= / 100).
  Variables W w V' V : R.
  Hypotheses (HW : 0 <= W) (Hw : 0 <= w) (HWw : 0 < W + w) (HV : Rabs (V - W) <= th * W).
  Let Vw := V + w.
  Hypotheses (HV' : Rabs (V' - Vw) <= u * Rabs Vw) (HtA : 1000 * t <= u * A) (HtV : 1000 * t <= u * (A * Vw)).
  Lemma V_pos : 0 <= V /\ 0 < Vw.
  Proof. unfold Vw. apply Rabs_le_inv in HV. split; nra. Qed.
  Lemma wmean_arg m d a p s x :
    Rabs m <= 1.1 * A -> Rabs x <= A -> Rabs (d - (V' - w)) <= u * Rabs (V' - w) -> near u t a (m * d) -> near u t p (x * w) -> Rabs (s - (a + p)) <= u * Rabs (a + p) ->
    0 < V' /\ Rabs (s / V') <= 1.3 * A /\ Rabs (s / V' - (m * V + x * w) / Vw) <= 7 * u * A.
  Proof.
    intros Hm Hx Hd Ha Hp Hs. destruct V_pos as [V0 Vp].
    rewrite (Rabs_pos_eq Vw) in HV' by lra. assert (HV1 := Rabs_le_inv _ _ HV').
    assert (uV : u * Vw <= / 1000 * Vw) by (apply Rmult_le_compat_r; lra). assert (uV0 : 0 <= u * Vw) by nra.
    assert (P' : 0 < V') by lra. assert (AV : 0 < A * Vw) by nra. assert (uAV : u * (A * Vw) <= / 1000 * (A * Vw)) by (apply Rmult_le_compat_r; lra). assert (uAV0 : 0 <= u * (A * Vw)) by nra.
    assert (Vl : V <= Vw) by (unfold Vw; lra). assert (wl : w <= Vw) by (unfold Vw; lra).
    assert (D0 : Rabs (V' - w) <= 1.001 * Vw) by (apply Rabs_le; unfold Vw in *; lra).
    assert (D1 : u * Rabs (V' - w) <= u * (1.001 * Vw)) by (apply Rmult_le_compat_l; lra).
    assert (D2 : Rabs (d - V) <= 2.01 * (u * Vw)) by (apply Rabs_le_inv in Hd; apply Rabs_le; unfold Vw in *; lra).
    assert (D3 : Rabs d <= 1.01 * Vw) by (apply Rabs_le_inv in D2; apply Rabs_le; lra).
    assert (M0 : Rabs (m * d) <= 1.12 * (A * Vw)).
    { rewrite Rabs_mult. apply Rle_trans with (1.1 * A * (1.01 * Vw)); [apply Rmult_le_compat; auto using Rabs_pos | lra]. }
    assert (A1 := near_le u t a _ _ (Rlt_le _ _ (proj1 Hu)) Ha M0).
    assert (A2 : Rabs (m * d - m * V) <= 2.22 * (u * (A * Vw))).
    { replace (m * d - m * V) with (m * (d - V)) by ring. rewrite Rabs_mult. apply Rle_trans with (1.1 * A * (2.01 * (u * Vw))); [apply Rmult_le_compat; auto using Rabs_pos | lra]. }
    assert (A3 := close_trans _ _ _ _ _ A1 A2).
    assert (X0 : Rabs (x * w) <= A * w) by (rewrite Rabs_mult, (Rabs_pos_eq w) by lra; apply Rmult_le_compat_r; lra).
    assert (X0' : A * w <= A * Vw) by (apply Rmult_le_compat_l; lra).
    assert (P1 := near_le u t p _ _ (Rlt_le _ _ (proj1 Hu)) Hp (Rle_trans _ _ _ X0 X0')).
    assert (Q0 : Rabs (m * V + x * w) <= 1.1 * (A * Vw)).
    { eapply Rle_trans; [apply Rabs_triang |]. assert (Rabs (m * V) <= 1.1 * A * V) by (rewrite Rabs_mult, (Rabs_pos_eq V) by lra; apply Rmult_le_compat_r; lra). unfold Vw. nra. }
    assert (Q1 : Rabs (a + p - (m * V + x * w)) <= 4.4 * (u * (A * Vw))).
    { apply Rabs_le_inv in A3. apply Rabs_le_inv in P1. apply Rabs_le. lra. }
    assert (Q2 := close_bound _ _ _ _ Q1 Q0).
    assert (S0 : u * Rabs (a + p) <= u * (1.11 * (A * Vw))) by (apply Rmult_le_compat_l; lra).
    assert (S1 : Rabs (s - (m * V + x * w)) <= 5.52 * (u * (A * Vw))).
    { apply Rabs_le_inv in Q1. apply Rabs_le_inv in Hs. apply Rabs_le. lra. }
    assert (S2 := close_bound _ _ _ _ S1 Q0). assert (S3 : Rabs s <= 1.11 * (A * Vw)) by lra.
    split; [exact P' |].
    assert (V'l : 0.999 * Vw <= V') by lra.
    assert (R1 : Rabs (s / V') <= 1.3 * A).
    { unfold Rdiv. rewrite Rabs_mult, (Rabs_pos_eq (/ V')) by (left; apply Rinv_0_lt_compat; lra). apply Rmult_le_reg_r with V'; [lra |]. rewrite Rmult_assoc, Rinv_l by lra. nra. }
    split; [exact R1 |].
    assert (R2 : Rabs (s / V' - s / Vw) <= 1.3 * (u * A)).
    { replace (s / V' - s / Vw) with (s / V' * ((Vw - V') / Vw)) by (field; lra). rewrite Rabs_mult.
      assert (Rabs ((Vw - V') / Vw) <= u).
      { unfold Rdiv. rewrite Rabs_mult, (Rabs_pos_eq (/ Vw)) by (left; apply Rinv_0_lt_compat; lra). apply Rmult_le_reg_r with Vw; [lra |]. rewrite Rmult_assoc, Rinv_l by lra. rewrite Rabs_minus_sym. lra. }
      apply Rle_trans with (1.3 * A * u); [apply Rmult_le_compat; auto using Rabs_pos | lra]. }
    assert (R3 : Rabs (s / Vw - (m * V + x * w) / Vw) <= 5.52 * (u * A)).
    { replace (s / Vw - (m * V + x * w) / Vw) with ((s - (m * V + x * w)) * / Vw) by (field; lra). rewrite Rabs_mult, (Rabs_pos_eq (/ Vw)) by (left; apply Rinv_0_lt_compat; lra).
      apply Rmult_le_reg_r with Vw; [lra |]. rewrite Rmult_assoc, Rinv_l by lra. lra. }
    assert (R4 := close_trans _ _ _ _ _ R2 R3). assert (0 <= u * A) by nra. lra.
  Qed.
  Lemma wmean_shift m M x G : Rabs (m - M) <= 2 * A * th + G -> 0 <= G -> Rabs M <= A -> Rabs x <= A ->
    Rabs ((m * V + x * w) / Vw - (M * W + x * w) / (W + w)) <= 2 * A * th + G.
  Proof.
    intros Hm HG HM Hx. destruct V_pos as [V0 Vp].
    set (l := V / Vw). assert (L : 0 <= l <= 1).
    { unfold l. split; [apply Rmult_le_pos; [lra | left; apply Rinv_0_lt_compat; lra] |]. apply Rmult_le_reg_r with Vw; [lra |]. unfold Rdiv. rewrite Rmult_assoc, Rinv_l by lra. unfold Vw. lra. }
    assert (L1 : 1 - l = w / Vw) by (unfold l, Vw in *; field; lra).
    replace ((m * V + x * w) / Vw - (M * W + x * w) / (W + w)) with (l * (m - M) + (l - W / (W + w)) * (M - x)) by (unfold l, Vw in *; field; lra).
    assert (D : Rabs (l - W / (W + w)) <= th * (1 - l)).
    { rewrite L1. replace (l - W / (W + w)) with ((V - W) * / (W + w) * (w / Vw)) by (unfold l, Vw in *; field; lra).
      assert (B : 0 <= w / Vw) by (apply Rmult_le_pos; [lra | left; apply Rinv_0_lt_compat; lra]).
      rewrite Rabs_mult, (Rabs_pos_eq (w / Vw)) by exact B. apply Rmult_le_compat_r; [exact B |].
      rewrite Rabs_mult, (Rabs_pos_eq (/ (W + w))) by (left; apply Rinv_0_lt_compat; lra). apply Rmult_le_reg_r with (W + w); [lra |]. rewrite Rmult_assoc, Rinv_l by lra. nra. }
    assert (E : Rabs (M - x) <= 2 * A) by (apply Rabs_le_inv in HM; apply Rabs_le_inv in Hx; apply Rabs_le; lra).
    eapply Rle_trans; [apply Rabs_triang |]. rewrite !Rabs_mult, (Rabs_pos_eq l) by lra.
    assert (F1 : l * Rabs (m - M) <= l * (2 * A * th + G)) by (apply Rmult_le_compat_l; lra).
    assert (F2 : Rabs (l - W / (W + w)) * Rabs (M - x) <= th * (1 - l) * (2 * A)) by (apply Rmult_le_compat; auto using Rabs_pos). nra.
  Qed.
End Step.
