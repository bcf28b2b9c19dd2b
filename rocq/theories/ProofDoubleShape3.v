(** The accuracy of the skewness and the kurtosis of doubles, continued: the quotients. *)
From Coq Require Import ZArith List Bool Reals Lra Lia Arith Psatz.
From Flocq Require Import Core IEEE754.BinarySingleNaN.
From Verif Require Import Num NumFacts ModelBasic ModelRolling ModelRounding ModelDouble SpecStats SpecDouble SpecDoubleVariance SpecDoubleMoment SpecDoubleShape ProofBasic ProofBasic2 ProofKahan ProofDouble ProofDouble2 ProofDouble3 ProofDouble4 ProofDoubleEx
  ProofDoubleVariance ProofDoubleVariance2 ProofDoubleVariance3 ProofDoubleVariance4 ProofDoubleMoment ProofDoubleMoment2 ProofDoubleRolling3 ProofDoubleRolling4 ProofDoubleError ProofDoubleShape ProofDoubleShape2.
Import ListNotations.
Local Open Scope R_scope.

Lemma relative_mult x X y Y p q : 0 < X -> 0 < Y -> Rabs (x - X) <= p * X -> Rabs (y - Y) <= q * Y -> Rabs (x * y - X * Y) <= (p + q + p * q) * (X * Y).
Proof.
  intros PX PY HX HY. assert (B := close_bound _ _ _ Y HY ltac:(rewrite Rabs_pos_eq; lra)). assert (C := close_mult _ _ _ _ _ _ X _ HX HY ltac:(rewrite Rabs_pos_eq; lra) B).
  eapply Rle_trans; [exact C |]. right. ring.
Qed.
Lemma relative_round m y Y p : (-1000 <= m)%Z -> bpow radix2 m <= y -> 0 < Y -> Rabs (y - Y) <= p * Y -> Rabs (b64_round y - Y) <= (p + 1.001 * roundoff * (1 + p)) * Y.
Proof.
  intros M H P E. assert (R := round_relative m y M H). assert (C := close_trans _ _ _ _ _ R E). assert (Hu := roundoff_small).
  assert (Hy : y <= (1 + p) * Y) by (apply Rabs_le_inv in E; lra). assert (1.001 * roundoff * y <= 1.001 * roundoff * ((1 + p) * Y)) by (apply Rmult_le_compat_l; lra). lra.
Qed.

Section Quotients.
  Variables (k : Z) (h V : R) (d : double).
  Hypothesis K : (-200 <= k <= 200)%Z.
  Hypothesis Hh : roundoff <= h <= / 8192.
  Let W := up k 2.
  Hypothesis HV : 1000 * (h * W) <= V <= W.
  Hypothesis Fd : finite d.
  Hypothesis Ed : Rabs (val d - V) <= 17.1 * (h * W).
  Let Hu := roundoff_small.
  Let us := roundoff_tiny.
  Let PW : 0 < W. Proof. apply up_pos. Qed.
  Let uW : roundoff * W <= h * W. Proof. apply Rmult_le_compat_r; lra. Qed.
  Let uW0 : 0 < roundoff * W. Proof. apply Rmult_lt_0_compat; lra. Qed.
  Let PV : 0 < V. Proof. lra. Qed.
  Let rho := 17.1 * (h * W) / V.
  Let RV : rho * V = 17.1 * (h * W). Proof. unfold rho. field. lra. Qed.
  Let R0 : 0 <= rho <= 0.0171.
  Proof. split; [apply Rmult_le_reg_r with V | apply Rmult_le_reg_r with V]; lra. Qed.
  Let Ed' : Rabs (val d - V) <= rho * V. Proof. lra. Qed.
  Let Dlow : bpow radix2 (-53 + (k + k)) <= val d.
  Proof.
    assert (E : bpow radix2 (-53 + (k + k)) = roundoff * W) by (rewrite bpow_plus, roundoff_is; unfold b64_u, W, up; f_equal; f_equal; lia). rewrite E.
    assert (rho * V <= 0.0171 * V) by (apply Rmult_le_compat_r; lra). apply Rabs_le_inv in Ed'. lra.
  Qed.
  Let Dhigh : val d <= bpow radix2 (1 + (k + k)).
  Proof.
    rewrite bpow_plus. change (bpow radix2 1) with 2. replace (bpow radix2 (k + k)) with W by (unfold W, up; f_equal; lia).
    assert (rho * V <= 0.0171 * V) by (apply Rmult_le_compat_r; lra). apply Rabs_le_inv in Ed'. lra.
  Qed.
  Let eta := 2.03 * rho + 2.2 * roundoff.
  Let E0 : 0 <= eta <= 0.04. Proof. unfold eta. lra. Qed.
  Let D0 : 0 < val d. Proof. eapply Rlt_le_trans; [apply bpow_gt_0 | exact Dlow]. Qed.

  (** The two denominators. *)
  Lemma square_denominator : finite (d_mul d d) /\ Rabs (val (d_mul d d) - V * V) <= eta * (V * V).
  Proof.
    assert (G := relative_mult _ _ _ _ _ _ PV PV Ed' Ed').
    assert (L : bpow radix2 (-106 + 4 * k) <= val d * val d <= bpow radix2 (2 + 4 * k)).
    { replace (-106 + 4 * k)%Z with ((-53 + (k + k)) + (-53 + (k + k)))%Z by lia. replace (2 + 4 * k)%Z with ((1 + (k + k)) + (1 + (k + k)))%Z by lia. rewrite (bpow_plus _ (-53 + (k + k)) (-53 + (k + k))), (bpow_plus _ (1 + (k + k)) (1 + (k + k))).
      split; apply Rmult_le_compat; try apply bpow_ge_0; lra. }
    destruct (round_range (-106 + 4 * k) (2 + 4 * k) _ ltac:(lia) ltac:(lia) ltac:(lia) L) as [L1 _]. destruct (mul_ok d d Fd Fd L1) as [F Vm]. fold (val (d_mul d d)) (val d) in Vm. split; [exact F |]. rewrite Vm.
    assert (VV : 0 < V * V) by (apply Rmult_lt_0_compat; lra).
    eapply Rle_trans; [exact (relative_round (-106 + 4 * k) _ _ _ ltac:(lia) (proj1 L) VV G) |]. apply Rmult_le_compat_r; [lra |]. unfold eta.
    assert (rho * rho <= 0.0171 * rho) by (apply Rmult_le_compat_r; lra). assert (roundoff * (1 + (rho + rho + rho * rho)) <= roundoff * 1.04) by (apply Rmult_le_compat_l; lra). lra.
  Qed.
  Let s := sqrt V.
  Let ss : s * s = V. Proof. apply sqrt_sqrt. lra. Qed.
  Let s0 : 0 < s. Proof. apply sqrt_lt_R0. exact PV. Qed.
  Lemma root_denominator : finite (d_mul d (d_sqrt d)) /\ Rabs (val (d_mul d (d_sqrt d)) - V * s) <= eta * (V * s).
  Proof.
    destruct (sqrt_ok d Fd ltac:(lra)) as [Fr Vr].
    assert (G : Rabs (sqrt (val d) - s) <= rho * s).
    { apply Rmult_le_reg_r with s; [exact s0 |]. rewrite Rmult_assoc, ss. eapply Rle_trans; [exact (root_gap_times (val d) V ltac:(lra) ltac:(lra)) | exact Ed']. }
    assert (L : bpow radix2 (-27 + k) <= sqrt (val d) <= bpow radix2 (1 + k)).
    { split; [rewrite <- (sqrt_square (bpow radix2 (-27 + k))) by apply bpow_ge_0 | rewrite <- (sqrt_square (bpow radix2 (1 + k))) by apply bpow_ge_0]; rewrite <- bpow_plus; apply sqrt_le_1; try apply bpow_ge_0; try lra.
      - eapply Rle_trans; [| exact Dlow]. apply bpow_le. lia.
      - eapply Rle_trans; [exact Dhigh |]. apply bpow_le. lia. }
    assert (G1 := relative_round (-27 + k) _ _ _ ltac:(lia) (proj1 L) s0 G). rewrite <- Vr in G1. set (p := rho + 1.001 * roundoff * (1 + rho)) in *.
    destruct (round_range (-27 + k) (1 + k) _ ltac:(lia) ltac:(lia) ltac:(lia) L) as [_ Lr]. rewrite <- Vr in Lr.
    assert (Hr : val (d_sqrt d) <= bpow radix2 (1 + k)).
    { rewrite Vr. apply round_le_generic; [apply FLT_exp_valid; reflexivity | apply valid_rnd_N | apply generic_format_bpow; unfold FLT_exp; lia | apply L]. }
    assert (Pp : rho <= p <= rho + 1.02 * roundoff) by (unfold p; assert (roundoff * (1 + rho) <= roundoff * 1.0171) by (apply Rmult_le_compat_l; lra); assert (0 <= roundoff * (1 + rho)) by (apply Rmult_le_pos; lra); lra).
    assert (G2 := relative_mult _ _ _ _ _ _ PV s0 Ed' G1).
    assert (L2 : bpow radix2 (-80 + 3 * k) <= val d * val (d_sqrt d) <= bpow radix2 (2 + 3 * k)).
    { replace (-80 + 3 * k)%Z with ((-53 + (k + k)) + (-27 + k))%Z by lia. replace (2 + 3 * k)%Z with ((1 + (k + k)) + (1 + k))%Z by lia. rewrite (bpow_plus _ (-53 + (k + k)) (-27 + k)), (bpow_plus _ (1 + (k + k)) (1 + k)).
      assert (0 < bpow radix2 (-27 + k)) by apply bpow_gt_0. split; apply Rmult_le_compat; try apply bpow_ge_0; lra. }
    destruct (round_range (-80 + 3 * k) (2 + 3 * k) _ ltac:(lia) ltac:(lia) ltac:(lia) L2) as [L3 _]. destruct (mul_ok d (d_sqrt d) Fd Fr L3) as [F Vm]. fold (val (d_mul d (d_sqrt d))) (val d) (val (d_sqrt d)) in Vm. split; [exact F |]. rewrite Vm.
    assert (VS : 0 < V * s) by (apply Rmult_lt_0_compat; lra).
    eapply Rle_trans; [exact (relative_round (-80 + 3 * k) _ _ _ ltac:(lia) (proj1 L2) VS G2) |]. apply Rmult_le_compat_r; [lra |]. unfold eta. clearbody p.
    assert (rho * p <= 0.0171 * p) by (apply Rmult_le_compat_r; lra). assert (roundoff * (1 + (rho + p + rho * p)) <= roundoff * 1.04) by (apply Rmult_le_compat_l; lra). lra.
  Qed.

  (** A quotient of at most [5 W / V] does not overflow. *)
  Let quotient_fits q : Rabs q * V <= 5 * W -> Rabs q <= bpow radix2 53.
  Proof.
    intros H. apply Rmult_le_reg_r with (roundoff * W); [exact uW0 |]. assert (E : bpow radix2 53 * (roundoff * W) = W) by (rewrite roundoff_is; unfold b64_u; rewrite <- Rmult_assoc, <- bpow_plus; change (53 + -53)%Z with 0%Z; cbn [bpow]; ring).
    rewrite E. assert (Rabs q * (1000 * (roundoff * W)) <= Rabs q * V) by (apply Rmult_le_compat_l; [apply Rabs_pos | lra]). lra.
  Qed.
  Let fits r : Rabs r <= bpow radix2 54 -> Rabs (b64_round r) < bpow radix2 1024.
  Proof. intros H. eapply Rle_lt_trans; [apply round_abs; [| exact H]; apply generic_format_bpow; unfold FLT_exp; lia | apply bpow_lt; lia]. Qed.
  Let t0 : 0 <= tiny /\ 1000 * tiny <= roundoff.
  Proof. split; [rewrite tiny_is; apply Rmult_le_pos; [lra | apply bpow_ge_0] | assert (T := tiny_low 0 ltac:(lia)); cbn [bpow] in T; lra]. Qed.

  Lemma skewness_quotient n N : finite n -> Rabs (val n - N) <= 85 * (h * up k 3) -> Rabs N <= 2 * up k 1 * V ->
    let g := d_div n (d_mul d (d_sqrt d)) in finite g /\ Rabs (val g - N / (V * s)) * (V * s) <= 170 * (h * up k 3).
  Proof.
    intros Fn En BN. cbv zeta. destruct root_denominator as [FF EF]. set (f := d_mul d (d_sqrt d)) in *. clearbody f.
    assert (PB := up_pos k 1). set (B := up k 1) in *. assert (E3 : up k 3 = W * B) by (change 3%nat with (2 + 1)%nat; apply up_add). rewrite E3 in *.
    assert (WB : W = B * B) by (unfold W; change 2%nat with (1 + 1)%nat; apply up_add).
    assert (VS : 0 < V * s) by (apply Rmult_lt_0_compat; lra). assert (BV : 0 < B * V) by (apply Rmult_lt_0_compat; lra).
    assert (hWB : 1000 * (h * (W * B)) <= B * V) by (replace (1000 * (h * (W * B))) with (B * (1000 * (h * W))) by ring; apply Rmult_le_compat_l; lra).
    assert (sB : s <= B) by (unfold s; rewrite <- (sqrt_square B) by lra; rewrite <- WB; apply sqrt_le_1; lra).
    destruct (quotient_gap (V * s) (val f) N (val n) eta _ _ VS E0 EF En BN) as (F0 & Q1 & Q2).
    set (q := val n / val f) in *.
    assert (Q3 : Rabs q * (V * s) <= 2.2 * (B * V)) by lra.
    assert (Q4 : Rabs q * s <= 2.2 * B) by (apply Rmult_le_reg_r with V; [exact PV | lra]).
    assert (Q5 : Rabs q * V <= 5 * W).
    { rewrite <- ss, <- Rmult_assoc, WB. apply Rle_trans with (2.2 * B * B); [apply Rmult_le_compat; try lra; apply Rmult_le_pos; [apply Rabs_pos | lra] |]. assert (0 < B * B) by (apply Rmult_lt_0_compat; lra). lra. }
    assert (Q6 := quotient_fits q Q5). assert (L : Rabs (b64_round q) < bpow radix2 1024) by (apply fits; eapply Rle_trans; [exact Q6 | apply bpow_le; lia]).
    destruct (div_ok n f) as [Fg Vg]; [fold (val f); lra | exact Fn | exact L |]. fold (val (d_div n f)) (val n) (val f) in Vg. fold q in Vg. split; [exact Fg |]. rewrite Vg.
    assert (R := round_near q). unfold near in R.
    assert (uB : roundoff * (B * V) <= h * (W * B)).
    { replace (h * (W * B)) with (h * W * B) by ring. replace (roundoff * (B * V)) with (roundoff * V * B) by ring. apply Rmult_le_compat_r; [lra |]. apply Rmult_le_compat; lra. }
    assert (VB : V * s <= W * B) by (apply Rmult_le_compat; lra).
    assert (T : tiny * (V * s) <= / 1000 * (h * (W * B))).
    { destruct t0. apply Rle_trans with (/ 1000 * h * (W * B)); [| lra]. apply Rmult_le_compat; lra. }
    assert (X : (2 * B * V + 85 * (h * (W * B))) * (1.05 * eta) <= 2.085 * B * (V * (1.05 * eta))).
    { replace (2.085 * B * (V * (1.05 * eta))) with (2.085 * (B * V) * (1.05 * eta)) by ring. apply Rmult_le_compat_r; lra. }
    assert (Y : V * (1.05 * eta) = 1.05 * (2.03 * (17.1 * (h * W)) + 2.2 * (roundoff * V))) by (unfold eta; rewrite <- RV; ring). rewrite Y in X.
    apply Rle_trans with (roundoff * (Rabs q * (V * s)) + tiny * (V * s) + Rabs (q - N / (V * s)) * (V * s)).
    - replace (roundoff * (Rabs q * (V * s)) + tiny * (V * s) + Rabs (q - N / (V * s)) * (V * s)) with ((roundoff * Rabs q + tiny + Rabs (q - N / (V * s))) * (V * s)) by ring.
      apply Rmult_le_compat_r; [lra |]. apply (close_trans _ q); [exact R | lra].
    - assert (0 < roundoff * (B * V)) by (apply Rmult_lt_0_compat; lra). assert (roundoff * (Rabs q * (V * s)) <= roundoff * (2.2 * (B * V))) by (apply Rmult_le_compat_l; lra). lra.
  Qed.

  Lemma kurtosis_quotient n N : finite n -> Rabs (val n - N) <= 260 * (h * up k 4) -> Rabs N <= (2 * up k 1) ^ 2 * V ->
    let g := d_sub (d_div n (d_mul d d)) (ofnat DoubleN 3) in finite g /\ Rabs (val g - (N / (V * V) - 3)) * (V * V) <= 450 * (h * up k 4).
  Proof.
    intros Fn En BN. cbv zeta. destruct square_denominator as [FF EF]. set (f := d_mul d d) in *. clearbody f.
    assert (E4 : up k 4 = W * W) by (change 4%nat with (2 + 2)%nat; apply up_add). rewrite E4 in *.
    assert (WB : W = up k 1 * up k 1) by (unfold W; change 2%nat with (1 + 1)%nat; apply up_add).
    assert (BN' : Rabs N <= 4 * (W * V)) by (rewrite WB; eapply Rle_trans; [exact BN | right; ring]). clear BN WB.
    assert (VV : 0 < V * V) by (apply Rmult_lt_0_compat; lra). assert (WV : 0 < W * V) by (apply Rmult_lt_0_compat; lra).
    assert (hWW : 1000 * (h * (W * W)) <= W * V) by (replace (1000 * (h * (W * W))) with (W * (1000 * (h * W))) by ring; apply Rmult_le_compat_l; lra).
    destruct (quotient_gap (V * V) (val f) N (val n) eta _ _ VV E0 EF En BN') as (F0 & Q1 & Q2).
    set (q := val n / val f) in *.
    assert (Q3 : Rabs q * (V * V) <= 4.48 * (W * V)) by lra.
    assert (Q5 : Rabs q * V <= 5 * W) by (apply Rmult_le_reg_r with V; [exact PV | lra]).
    assert (Q6 := quotient_fits q Q5). assert (L : Rabs (b64_round q) < bpow radix2 1024) by (apply fits; eapply Rle_trans; [exact Q6 | apply bpow_le; lia]).
    destruct (div_ok n f) as [Fg Vg]; [fold (val f); lra | exact Fn | exact L |]. fold (val (d_div n f)) (val n) (val f) in Vg. fold q in Vg.
    assert (R := round_near q). unfold near in R. rewrite <- Vg in R. set (r := d_div n f) in *. clearbody r.
    assert (Br : Rabs (val r) <= bpow radix2 53) by (rewrite Vg; apply round_abs; [apply generic_format_bpow; unfold FLT_exp; lia | exact Q6]).
    destruct (ofnat_exact 3 ltac:(lia)) as [F3 V3]. fold (val (ofnat DoubleN 3)) in V3. replace (INR 3) with 3 in V3 by (cbn; lra).
    assert (L3 : Rabs (b64_round (B2R r - B2R (ofnat DoubleN 3))) < bpow radix2 1024).
    { apply fits. fold (val r) (val (ofnat DoubleN 3)). rewrite V3. change (bpow radix2 54) with (IZR (2 ^ 54)). change (bpow radix2 53) with (IZR (2 ^ 53)) in Br. cbn in *. apply Rabs_le_inv in Br. apply Rabs_le. lra. }
    destruct (sub_ok r (ofnat DoubleN 3) Fg F3 L3) as [Fs Vs]. fold (val (d_sub r (ofnat DoubleN 3))) (val r) (val (ofnat DoubleN 3)) in Vs. rewrite V3 in Vs. split; [exact Fs |]. rewrite Vs.
    assert (Z := round_near (val r - 3)). unfold near in Z.
    assert (Br' : Rabs (val r - 3) <= 1.01 * Rabs q + tiny + 3).
    { assert (H := Rabs_pos q). assert (roundoff * Rabs q <= 0.01 * Rabs q) by (apply Rmult_le_compat_r; lra). assert (Hq := Rle_abs q). assert (Hq' := Rle_abs (- q)). rewrite Rabs_Ropp in Hq'.
      apply Rabs_le_inv in R. apply Rabs_le. destruct t0. lra. }
    assert (C : Rabs (b64_round (val r - 3) - (N / (V * V) - 3)) <= roundoff * (1.01 * Rabs q + tiny + 3) + tiny + (roundoff * Rabs q + tiny) + Rabs (q - N / (V * V))).
    { assert (roundoff * Rabs (val r - 3) <= roundoff * (1.01 * Rabs q + tiny + 3)) by (apply Rmult_le_compat_l; lra).
      assert (A := Rle_abs (q - N / (V * V))). assert (A' := Rle_abs (- (q - N / (V * V)))). rewrite Rabs_Ropp in A'. apply Rabs_le_inv in R. apply Rabs_le_inv in Z. apply Rabs_le. lra. }
    assert (VW : W * V <= W * W) by (apply Rmult_le_compat_l; lra). assert (V2 : V * V <= W * V) by (apply Rmult_le_compat_r; lra). assert (uh : roundoff * (W * W) <= h * (W * W)) by (apply Rmult_le_compat_r; lra).
    assert (uWV : roundoff * (W * V) <= roundoff * (W * W)) by (apply Rmult_le_compat_l; lra). assert (uVV : roundoff * (V * V) <= roundoff * (W * V)) by (apply Rmult_le_compat_l; lra).
    assert (T : tiny * (V * V) <= / 1000 * (roundoff * (V * V))) by (destruct t0; rewrite <- (Rmult_assoc (/ 1000)); apply Rmult_le_compat_r; lra).
    assert (T2 : roundoff * tiny * (V * V) <= tiny * (V * V)) by (destruct t0; apply Rmult_le_compat_r; [lra |]; rewrite <- (Rmult_1_l tiny) at 2; apply Rmult_le_compat_r; lra).
    assert (X : (4 * (W * V) + 260 * (h * (W * W))) * (1.05 * eta) <= 4.26 * W * (V * (1.05 * eta))).
    { replace (4.26 * W * (V * (1.05 * eta))) with (4.26 * (W * V) * (1.05 * eta)) by ring. apply Rmult_le_compat_r; lra. }
    assert (Y : V * (1.05 * eta) = 1.05 * (2.03 * (17.1 * (h * W)) + 2.2 * (roundoff * V))) by (unfold eta; rewrite <- RV; ring). rewrite Y in X.
    eapply Rle_trans; [apply Rmult_le_compat_r; [lra | exact C] |]. assert (0 < roundoff * (V * V)) by (apply Rmult_lt_0_compat; lra).
    assert (U : roundoff * (Rabs q * (V * V)) <= roundoff * (4.48 * (W * V))) by (apply Rmult_le_compat_l; lra). lra.
  Qed.
End Quotients.

(** ** The results *)
Section Results.
  Variables (k : Z) (xs : list double).
  Hypothesis Hfew : Few xs.
  Hypothesis NE : xs <> [].
  Hypothesis K : (-200 <= k <= 200)%Z.
  Hypothesis HW : Within (powerRZ 2 k) xs.
  Hypothesis HV : 1000 * INR (length xs) * roundoff * powerRZ 2 (2 * k) <= ExactVariance xs.
  Let h := INR (length xs) * roundoff.
  Let Hu := roundoff_small.
  Let Hh : roundoff <= h <= / 8192.
  Proof. assert (n1 := one_le xs NE). assert (F := few_samples _ Hfew). unfold h. split; [rewrite <- (Rmult_1_l roundoff) at 1; apply Rmult_le_compat_r; lra | exact F]. Qed.
  Let up_is j : up k j = powerRZ 2 (Z.of_nat j * k). Proof. rewrite <- (bpow_powerRZ radix2). unfold up. f_equal. lia. Qed.
  Let HV' : 1000 * (h * up k 2) <= ExactVariance xs <= up k 2.
  Proof.
    split; [rewrite up_is; unfold h; eapply Rle_trans; [| exact HV]; right; change (Z.of_nat 2) with 2%Z; ring |]. destruct (exact_variance_within _ xs NE HW) as [_ H].
    change 2%nat with (1 + 1)%nat. rewrite up_add. rewrite up_is. change (Z.of_nat 1) with 1%Z. rewrite Z.mul_1_l. exact H.
  Qed.
  Lemma skewness_accurate : exists g, skewness_run DoubleN d_sqrt d_zero xs = Some g /\ finite g /\
    Rabs (val g - ExactSkewness xs) * sqrt (ExactVariance xs) ^ 3 <= 170 * INR (length xs) * roundoff * powerRZ 2 (3 * k).
  Proof.
    eexists. split; [exact (skewness_is xs) |]. destruct (below_app k xs K Hfew NE HW) as (Fd & _ & Ed). destruct (third_app k xs K Hfew NE HW) as (Fn & _ & En). fold h in Ed, En.
    assert (B := central_powers _ 1 xs NE HW). replace (powerRZ 2 k) with (up k 1) in B by (rewrite up_is; f_equal; lia). rewrite pow_1 in B.
    destruct (skewness_quotient k h _ _ K Hh HV' Fd Ed _ _ Fn En B) as [F E]. split; [exact F |].
    assert (P : 0 < ExactVariance xs) by (assert (0 < h * up k 2) by (apply Rmult_lt_0_compat; [lra | apply up_pos]); lra).
    unfold ExactSkewness. replace (sqrt (ExactVariance xs) ^ 3) with (ExactVariance xs * sqrt (ExactVariance xs)) by (rewrite <- (sqrt_sqrt (ExactVariance xs)) at 1 by lra; ring).
    eapply Rle_trans; [exact E |]. right. rewrite up_is. unfold h. change (Z.of_nat 3) with 3%Z. ring.
  Qed.
  Lemma kurtosis_accurate : exists g, kurtosis_run DoubleN d_zero xs = Some g /\ finite g /\
    Rabs (val g - ExactKurtosis xs) * ExactVariance xs ^ 2 <= 450 * INR (length xs) * roundoff * powerRZ 2 (4 * k).
  Proof.
    eexists. split; [exact (kurtosis_is xs) |]. destruct (below_app k xs K Hfew NE HW) as (Fd & _ & Ed). destruct (fourth_app k xs K Hfew NE HW) as (Fn & _ & En). fold h in Ed, En.
    assert (B := central_powers _ 2 xs NE HW). replace (powerRZ 2 k) with (up k 1) in B by (rewrite up_is; f_equal; lia).
    destruct (kurtosis_quotient k h _ _ K Hh HV' Fd Ed _ _ Fn En B) as [F E]. split; [exact F |].
    unfold ExactKurtosis. replace (ExactVariance xs ^ 2) with (ExactVariance xs * ExactVariance xs) by ring.
    eapply Rle_trans; [exact E |]. right. rewrite up_is. unfold h. change (Z.of_nat 4) with 4%Z. ring.
  Qed.
End Results.

(** ** Example *)
Lemma sevens_shape_ok : let xs := [dbl 7 0; dbl (-3) 0; dbl 7 0] in
  Few xs /\ xs <> [] /\ Within (powerRZ 2 3) xs /\ 1000 * INR (length xs) * roundoff * powerRZ 2 (2 * 3) <= ExactVariance xs /\ ExactVariance xs = 200 / 9.
Proof.
  cbv zeta. destruct sevens_ok as (F & _ & _ & W & _ & V). split; [exact F |]. split; [discriminate |]. assert (us := roundoff_tiny).
  split; [replace (powerRZ 2 3) with 8 by (change (powerRZ 2 3) with (2 ^ 3); ring); exact W |]. split; [| exact V]. rewrite V. change (length [dbl 7 0; dbl (-3) 0; dbl 7 0]) with 3%nat. replace (INR 3) with 3 by (cbn; lra). replace (powerRZ 2 (2 * 3)) with 64 by (change (powerRZ 2 (2 * 3)) with (2 ^ 6); ring). lra.
Qed.

(** ** Samples close to each other *)
Definition close1 := dbl 1073741824 0. (* 2^30 *)
Definition close2 := dbl 1073741825 0. (* 2^30 + 1 *)
Lemma close_samples_nan : finite close1 /\ finite close2 /\ val close1 = 2 ^ 30 /\ val close2 = 2 ^ 30 + 1 /\ ExactVariance [close1; close2] = / 4 /\
  (exists g, skewness_run DoubleN d_sqrt d_zero [close1; close2] = Some g /\ nan g) /\ (exists g, kurtosis_run DoubleN d_zero [close1; close2] = Some g /\ nan g).
Proof.
  destruct (shown_value close1 4503599627370496 (-22) ltac:(vm_compute; reflexivity)) as [F1 E1]. destruct (shown_value close2 4503599631564800 (-22) ltac:(vm_compute; reflexivity)) as [F2 E2].
  assert (V1 : val close1 = 2 ^ 30) by (rewrite E1; cbn; lra). assert (V2 : val close2 = 2 ^ 30 + 1) by (rewrite E2; cbn; lra).
  split; [exact F1 |]. split; [exact F2 |]. split; [exact V1 |]. split; [exact V2 |]. split.
  { rewrite exact_variance_SS. unfold SS. rewrite !S2_cons. unfold ExactMean, ExactSum. change (S2 []) with 0. change (total RN val [close1; close2]) with (val close1 + (val close2 + 0)).
    change (length [close1; close2]) with 2%nat. replace (INR 2) with 2 by (cbn; lra). rewrite V1, V2. field. }
  split; [rewrite skewness_is | rewrite kurtosis_is]; eexists; (split; [reflexivity | vm_compute; reflexivity]).
Qed.
