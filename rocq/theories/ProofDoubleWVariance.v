(** The accuracy of immediate weighted variances of doubles: one step in real numbers. *)
From Coq Require Import Reals Lra Psatz.
From Flocq Require Import Core.Raux.
From Verif Require Import ProofDoubleVariance.
Local Open Scope R_scope.

Lemma abs_div y r e c : 0 < c -> Rabs (y - r) <= e * c -> Rabs (y / c - r / c) <= e.
Proof.
  intros C H. replace (y / c - r / c) with ((y - r) * / c) by (field; lra). rewrite Rabs_mult, (Rabs_pos_eq (/ c)) by (left; apply Rinv_0_lt_compat; lra).
  apply Rmult_le_reg_r with c; [lra |]. rewrite Rmult_assoc, Rinv_l by lra. lra.
Qed.
Lemma abs_quot y e c : 0 < c -> Rabs y <= e * c -> Rabs (y / c) <= e.
Proof. intros C H. replace (y / c) with (y / c - 0 / c) by (field; lra). apply abs_div; [exact C |]. rewrite Rminus_0_r. exact H. Qed.
Lemma abs_scale c y e : 0 <= c -> Rabs y <= e -> Rabs (c * y) <= c * e.
Proof. intros C H. rewrite Rabs_mult, (Rabs_pos_eq c) by exact C. apply Rmult_le_compat_l; assumption. Qed.

Section Step.
  (** [A] bounds the samples, [nu] is the number of samples times the roundoff, [th] the relative error of the total
      weight [V] before the step, [rho] bounds the weight in terms of the total. *)
  Variables A u t nu th rho W0 w V V' D : R.
  Hypotheses (HA : 0 < A) (Hu : 0 < u <= / 2000) (Ht : 0 <= t) (Hnu : u <= nu <= / 2000) (Hth : 0 <= th <= / 1000)
    (Hrho : 1 <= rho) (Hru : rho * nu <= / 1000)
    (HW0 : 0 < W0) (Hw : 0 <= w <= rho * W0) (HV : Rabs (V - W0) <= th * W0)
    (HV' : Rabs (V' - (V + w)) <= u * Rabs (V + w)) (HD : Rabs (D - (V' - w)) <= u * Rabs (V' - w)).
  Let Q := A * A.
  Hypotheses (Ht1 : 1000 * t <= u * Q) (Ht2 : 1000 * t <= u * (Q * W0)) (Ht3 : 1000 * (t * rho) <= u * Q).
  Let W := W0 + w.
  Let l := W0 / W.
  Let HQ : 0 < Q. Proof. unfold Q. nra. Qed.
  Let HW : 0 < W. Proof. unfold W. lra. Qed.
  Let Hl : 0 <= l <= 1.
  Proof.
    unfold l. split; [apply Rmult_le_pos; [lra | left; apply Rinv_0_lt_compat; lra] |].
    apply Rmult_le_reg_r with W; [lra |]. unfold Rdiv. rewrite Rmult_assoc, Rinv_l by lra. unfold W. lra.
  Qed.
  Let lW : l * W = W0. Proof. unfold l. field. lra. Qed.
  Let lw : (1 - l) * W = w. Proof. replace ((1 - l) * W) with (W - l * W) by ring. rewrite lW. unfold W. ring. Qed.
  Let ruW : u * W <= / 500 * W0.
  Proof. unfold W. assert (u * w <= / 1000 * W0); [| nra]. apply Rle_trans with (u * (rho * W0)); [apply Rmult_le_compat_l; lra |].
    replace (u * (rho * W0)) with (rho * u * W0) by ring. apply Rmult_le_compat_r; [lra |]. nra. Qed.

  Lemma weight_before : 0.999 * W0 <= V <= 1.001 * W0 /\ 0.998 * W <= V' <= 1.002 * W /\ Rabs (V' - (V + w)) <= 1.002 * (u * W) /\ 0.99 * W0 <= D <= 1.01 * W0 /\ Rabs (D - V) <= 2.1 * (u * W).
  Proof.
    assert (H := Rabs_le_inv _ _ HV). assert (th * W0 <= / 1000 * W0) by (apply Rmult_le_compat_r; lra).
    assert (V1 : 0.999 * W0 <= V <= 1.001 * W0) by lra. split; [exact V1 |].
    assert (Vw : 0.999 * W <= V + w <= 1.001 * W) by (unfold W; lra).
    rewrite (Rabs_pos_eq (V + w)) in HV' by lra. assert (uV : u * (V + w) <= 1.001 * (u * W)) by nra.
    assert (H' := Rabs_le_inv _ _ HV'). assert (uW0 : 0 <= u * W) by nra. assert (uWs : u * W <= / 2000 * W) by nra.
    assert (V2 : 0.998 * W <= V' <= 1.002 * W) by lra.
    assert (E1 : Rabs (V' - w) <= 1.01 * W) by (apply Rabs_le; split; [| lra]; assert (w <= W) by (unfold W; lra); lra).
    assert (uE : u * Rabs (V' - w) <= 1.01 * (u * W)) by nra. assert (HD' := Rabs_le_inv _ _ HD).
    split; [lra |]. split; [apply Rabs_le; lra |]. split; [| apply Rabs_le; lra]. lra.
  Qed.

  Lemma ratio_close : Rabs (D / V' - l) <= 1.1 * (th * (1 - l)) + 3.6 * u.
  Proof.
    destruct weight_before as (V1 & V2 & V3 & D1 & D2).
    replace (D / V' - l) with (((D - V) - l * (V' - (V + w)) + (1 - l) * (V - W0) + ((1 - l) * W0 - l * w)) / V').
    2:{ field. lra. }
    replace ((1 - l) * W0 - l * w) with 0 by (rewrite <- lW, <- lw; ring).
    apply abs_quot; [lra |].
    assert (B1 : Rabs (l * (V' - (V + w))) <= 1.002 * (u * W)).
    { eapply Rle_trans; [apply (abs_scale l _ _ (proj1 Hl) V3) |]. assert (0 <= 1.002 * (u * W)) by nra. nra. }
    assert (B2 : Rabs ((1 - l) * (V - W0)) <= (1 - l) * (th * W0)) by (apply abs_scale; [lra | exact HV]).
    apply Rabs_le_inv in B1. apply Rabs_le_inv in B2. apply Rabs_le_inv in D2.
    assert (X : (1 - l) * (th * W0) <= (1 - l) * th * W) by (rewrite Rmult_assoc; apply Rmult_le_compat_l; [lra |]; apply Rmult_le_compat_l; [lra | unfold W; lra]).
    assert (Y : 3.2 * (u * W) + (1 - l) * th * W <= (1.1 * (th * (1 - l)) + 3.6 * u) * V').
    { assert (0 <= th * (1 - l)) by (apply Rmult_le_pos; lra). set (c := th * (1 - l)) in *. replace ((1 - l) * th) with c by (unfold c; ring). nra. }
    apply Rabs_le. lra.
  Qed.

  Lemma first_part v VV E a b : 0 <= VV <= Q -> Rabs (v - VV) <= E -> E <= / 10 * Q -> near u t a (v * D) -> near u t b (a / V') ->
    Rabs (b - l * VV) <= l * E + 1.3 * (th * Q * (1 - l)) + 8 * (u * Q) /\ Rabs (a / V') <= 1.2 * Q /\ Rabs b <= 1.3 * Q.
  Proof.
    intros HVV Hv HE Ha Hb. destruct weight_before as (V1 & V2 & V3 & D1 & D2). assert (R := ratio_close).
    assert (E0 : 0 <= E) by (eapply Rle_trans; [apply Rabs_pos | exact Hv]).
    assert (Bv : Rabs v <= 1.1 * Q) by (assert (C := close_bound _ _ _ Q Hv ltac:(apply Rabs_le; lra)); lra).
    assert (uQ : 0 < u * Q) by nra. assert (uQs : u * Q <= / 2000 * Q) by nra.
    (* v D / V' against l VV *)
    assert (P1 : Rabs (v * (D / V') - l * VV) <= l * E + 1.1 * Q * (1.1 * (th * (1 - l)) + 3.6 * u)).
    { replace (v * (D / V') - l * VV) with (l * (v - VV) + v * (D / V' - l)) by ring. eapply Rle_trans; [apply Rabs_triang |].
      apply Rplus_le_compat; [apply abs_scale; [lra | exact Hv] |]. rewrite Rabs_mult. apply Rmult_le_compat; auto using Rabs_pos. }
    assert (R0 : 0 < D / V' <= 1.02).
    { split; [apply Rdiv_lt_0_compat; lra |]. assert (U := Rle_abs (D / V' - l)). assert (0 <= th * (1 - l) <= / 1000) by (split; [apply Rmult_le_pos; lra | nra]). lra. }
    assert (P2 : Rabs (v * (D / V')) <= 1.13 * Q) by (rewrite Rabs_mult, (Rabs_pos_eq (D / V')) by lra; assert (0 <= Rabs v) by apply Rabs_pos; nra).
    (* the product *)
    assert (tV : 1000 * t <= 1.1 * (u * Q) * V').
    { eapply Rle_trans; [exact Ht2 |]. assert (W0 <= 1.1 * V') by (unfold W in V2; lra). assert (u * Q * W0 <= u * Q * (1.1 * V')) by (apply Rmult_le_compat_l; lra). lra. }
    assert (P3 : Rabs (a / V' - v * (D / V')) <= u * (1.13 * Q) + 0.0011 * (u * Q)).
    { replace (v * (D / V')) with ((v * D) / V') by (field; lra). apply abs_div; [lra |]. eapply Rle_trans; [exact Ha |].
      assert (X : Rabs (v * D) <= 1.13 * Q * V').
      { replace (v * D) with (v * (D / V') * V') by (field; lra). rewrite Rabs_mult, (Rabs_pos_eq V') by lra. apply Rmult_le_compat_r; lra. }
      assert (u * Rabs (v * D) <= u * (1.13 * Q * V')) by (apply Rmult_le_compat_l; lra). lra. }
    assert (P4 := close_bound _ _ _ _ P3 P2). assert (P5 : Rabs (a / V') <= 1.2 * Q) by lra.
    assert (P6 := near_le _ _ _ _ _ (Rlt_le _ _ (proj1 Hu)) Hb P5). assert (P7 := close_bound _ _ _ _ P6 P5).
    split; [| split; [exact P5 | lra]].
    assert (P8 := close_trans _ _ _ _ _ P6 (close_trans _ _ _ _ _ P3 P1)). eapply Rle_trans; [exact P8 |].
    assert (0 <= th * Q * (1 - l)) by (apply Rmult_le_pos; [apply Rmult_le_pos |]; lra).
    replace (1.1 * Q * (1.1 * (th * (1 - l)) + 3.6 * u)) with (1.21 * (th * Q * (1 - l)) + 3.96 * (u * Q)) by lra. lra.
  Qed.

  Lemma second_part x m M M0 y q r s : Rabs x <= A -> Rabs M0 <= A -> M * W = M0 * W0 + x * w -> Rabs (m - M) <= 12 * nu * A ->
    Rabs (y - (x - m)) <= u * Rabs (x - m) -> near u t q (y * y) -> near u t r (q * w) -> near u t s (r / D) ->
    Rabs (s - (x - M) * (x - M) * w / W0) <= (1 - l) * (62 * (nu * Q) + 4.5 * (th * Q)) + 16 * (u * Q) /\ Rabs (r / D) <= 1.3 * Q /\ Rabs s <= 1.4 * Q /\ Rabs y <= 2.1 * A.
  Proof.
    intros Hx HM0 EM Hm Hy Hq Hr Hs. destruct weight_before as (V1 & V2 & V3 & D1 & D2).
    assert (uQ : 0 < u * Q) by nra. assert (uQs : u * Q <= / 2000 * Q) by nra. assert (nuQ : 0 < nu * Q) by nra. assert (nuQs : nu * Q <= / 2000 * Q) by nra.
    assert (nuA : nu * A <= / 2000 * A) by nra. assert (uA : u * A <= nu * A) by nra. assert (uA0 : 0 < u * A) by nra.
    assert (Eg : x - M = l * (x - M0)).
    { apply Rmult_eq_reg_r with W; [| lra]. rewrite Rmult_minus_distr_r, EM. replace (l * (x - M0) * W) with (l * W * (x - M0)) by ring. rewrite lW. unfold W. ring. }
    assert (Bd : Rabs (x - M0) <= 2 * A) by (apply Rabs_le_inv in Hx; apply Rabs_le_inv in HM0; apply Rabs_le; lra).
    assert (Bg : Rabs (x - M) <= 2 * A * l) by (rewrite Eg, Rmult_comm; rewrite Rmult_comm; eapply Rle_trans; [apply (abs_scale l _ _ (proj1 Hl) Bd) |]; lra).
    assert (Bg' : Rabs (x - M) <= 2 * A) by nra.
    assert (Bm : Rabs (x - m) <= 2.01 * A).
    { replace (x - m) with ((x - M) - (m - M)) by ring. eapply Rle_trans; [apply Rabs_triang |]. rewrite Rabs_Ropp. lra. }
    assert (Ey : Rabs (y - (x - M)) <= 15 * nu * A).
    { replace (y - (x - M)) with ((y - (x - m)) - (m - M)) by ring. eapply Rle_trans; [apply Rabs_triang |]. rewrite Rabs_Ropp.
      assert (u * Rabs (x - m) <= u * (2.01 * A)) by (apply Rmult_le_compat_l; lra). lra. }
    assert (By : Rabs y <= 2.1 * A) by (assert (C := close_bound _ _ _ _ Ey Bg'); lra).
    set (g := x - M) in *. set (k := w / W0). assert (Hk : 0 <= k) by (apply Rmult_le_pos; [lra | left; apply Rinv_0_lt_compat; lra]).
    assert (kl : k * l = 1 - l). { unfold k. replace (w / W0 * l) with (w * (l / W0)) by (unfold Rdiv; ring). replace (l / W0) with (/ W) by (unfold l; field; lra). rewrite <- lw. field. lra. }
    assert (k1 : k = (1 - l) * (1 + k)) by (rewrite Rmult_plus_distr_l, Rmult_1_r; replace ((1 - l) * k) with (k - k * l) by ring; rewrite kl; ring).
    assert (Hkr : k <= rho). { unfold k. apply Rmult_le_reg_r with W0; [lra |]. unfold Rdiv. rewrite Rmult_assoc, Rinv_l by lra. lra. }
    assert (knu : (1 + k) * nu <= / 500) by nra.
    (* the square, and its share *)
    assert (S1 : Rabs (y * y - g * g) <= 2 * (2 * A * l) * (15 * nu * A) + (15 * nu * A) * (15 * nu * A)).
    { replace (y * y - g * g) with (2 * g * (y - g) + (y - g) * (y - g)) by ring. eapply Rle_trans; [apply Rabs_triang |].
      rewrite !Rabs_mult. rewrite (Rabs_pos_eq 2) by lra. apply Rplus_le_compat; apply Rmult_le_compat; auto using Rabs_pos; try (apply Rmult_le_pos; auto using Rabs_pos; lra). lra. }
    assert (S2 : Rabs (k * (y * y) - k * (g * g)) <= (1 - l) * (60.5 * (nu * Q))).
    { replace (k * (y * y) - k * (g * g)) with (k * (y * y - g * g)) by ring. eapply Rle_trans; [apply (abs_scale k _ _ Hk S1) |].
      replace (k * (2 * (2 * A * l) * (15 * nu * A) + 15 * nu * A * (15 * nu * A))) with (60 * (nu * Q) * (k * l) + 225 * (nu * Q) * (k * nu)) by (unfold Q; ring).
      rewrite kl. assert (X : k * nu <= (1 - l) * / 500).
      { rewrite k1. replace ((1 - l) * (1 + k) * nu) with ((1 - l) * ((1 + k) * nu)) by ring. apply Rmult_le_compat_l; lra. }
      assert (Y : 225 * (nu * Q) * (k * nu) <= 225 * (nu * Q) * ((1 - l) * / 500)) by (apply Rmult_le_compat_l; lra). assert (0 <= (1 - l) * (nu * Q)) by (apply Rmult_le_pos; lra). lra. }
    assert (G1 : 0 <= k * (g * g) <= 4 * Q * (l * (1 - l))).
    { split; [apply Rmult_le_pos; [exact Hk | nra] |]. assert (gg : g * g <= (2 * A * l) * (2 * A * l)) by (rewrite <- (Rabs_pos_eq (g * g)) by nra; rewrite Rabs_mult; apply Rmult_le_compat; auto using Rabs_pos).
      apply Rle_trans with (k * ((2 * A * l) * (2 * A * l))); [apply Rmult_le_compat_l; assumption |]. right. replace (k * (2 * A * l * (2 * A * l))) with (4 * Q * (l * (k * l))) by (unfold Q; ring). now rewrite kl. }
    assert (ll : l * (1 - l) <= / 4) by (assert (0 <= (l - / 2) * (l - / 2)) by (apply Rle_0_sqr); nra).
    assert (ll0 : 0 <= l * (1 - l)) by (apply Rmult_le_pos; lra).
    assert (y0 : 0 <= y * y) by nra.
    assert (Ny : 0 <= k * (y * y) <= 1.05 * Q).
    { split; [apply Rmult_le_pos; assumption |]. assert (U := Rle_abs (k * (y * y) - k * (g * g))). assert ((1 - l) * (60.5 * (nu * Q)) <= 60.5 * (nu * Q)) by nra.
      assert (4 * Q * (l * (1 - l)) <= Q) by nra. lra. }
    (* y y w / D against y y w / W0 *)
    set (f := W0 / D). assert (Hf : Rabs (f - 1) <= 1.02 * th + 2.2 * (u * (1 + k))).
    { unfold f. replace (W0 / D - 1) with ((W0 - D) / D) by (field; lra). apply abs_quot; [lra |].
      assert (Wk : W = W0 * (1 + k)) by (unfold W, k; field; lra). rewrite Wk in D2.
      apply Rabs_le_inv in D2. assert (H := Rabs_le_inv _ _ HV). assert (c0 : 0 <= u * (1 + k)) by (apply Rmult_le_pos; lra).
      replace (2.1 * (u * (W0 * (1 + k)))) with (2.1 * (u * (1 + k)) * W0) in D2 by lra.
      assert (X : th * W0 <= 1.02 * th * D) by nra. assert (Y : 2.1 * (u * (1 + k)) * W0 <= 2.2 * (u * (1 + k)) * D) by nra.
      rewrite Rmult_plus_distr_r. apply Rabs_le. lra. }
    assert (uk : u * (1 + k) <= / 500) by nra. assert (uk0 : 0 <= u * (1 + k)) by (apply Rmult_le_pos; lra).
    assert (Hf1 : 0 < f <= 1.01). { split; [unfold f; apply Rdiv_lt_0_compat; lra |]. assert (U := Rle_abs (f - 1)). lra. }
    assert (S3 : Rabs (k * (y * y) * f - k * (y * y)) <= 4.2 * (th * Q) * (1 - l) + 8.9 * (u * Q) + 0.01 * ((1 - l) * (60.5 * (nu * Q)))).
    { replace (k * (y * y) * f - k * (y * y)) with (k * (y * y) * (f - 1)) by ring. eapply Rle_trans; [apply (abs_scale _ _ _ (proj1 Ny) Hf) |].
      assert (U := Rle_abs (k * (y * y) - k * (g * g))). set (e2 := (1 - l) * (60.5 * (nu * Q))) in *. assert (Z : k * (y * y) <= 4 * Q * (l * (1 - l)) + e2) by lra.
      assert (c0 : 0 <= 1.02 * th + 2.2 * (u * (1 + k)) <= 0.01) by lra.
      apply Rle_trans with ((4 * Q * (l * (1 - l)) + e2) * (1.02 * th + 2.2 * (u * (1 + k)))); [apply Rmult_le_compat_r; lra |].
      assert (e20 : 0 <= e2) by (unfold e2; apply Rmult_le_pos; lra).
      rewrite Rmult_plus_distr_r. apply Rplus_le_compat; [| nra].
      assert (X1 : 4 * Q * (l * (1 - l)) * (1.02 * th) <= 4.2 * (th * Q) * (1 - l)).
      { replace (4 * Q * (l * (1 - l)) * (1.02 * th)) with (4.08 * (th * Q) * (1 - l) * l) by lra. assert (0 <= (th * Q) * (1 - l)) by (apply Rmult_le_pos; [apply Rmult_le_pos |]; lra). nra. }
      assert (X2 : 4 * Q * (l * (1 - l)) * (2.2 * (u * (1 + k))) <= 8.9 * (u * Q)).
      { replace (4 * Q * (l * (1 - l)) * (2.2 * (u * (1 + k)))) with (8.8 * (u * Q) * ((1 - l) * (l * (1 + k)))) by lra. replace (l * (1 + k)) with 1 by (rewrite Rmult_plus_distr_l, Rmult_1_r, (Rmult_comm l k), kl; ring). nra. }
      lra. }
    assert (Nf : 0 <= k * (y * y) * f <= 1.1 * Q) by (split; [apply Rmult_le_pos; lra | nra]).
    (* the roundings *)
    assert (tk : 1000 * (t * k) <= u * Q) by (assert (t * k <= t * rho) by (apply Rmult_le_compat_l; lra); lra).
    assert (tk0 : 0 <= t * k) by (apply Rmult_le_pos; lra).
    assert (R1 : Rabs (q * k * f - k * (y * y) * f) <= u * (1.1 * Q) + 0.0011 * (u * Q)).
    { replace (q * k * f - k * (y * y) * f) with (k * f * (q - y * y)) by ring. assert (kf : 0 <= k * f) by (apply Rmult_le_pos; lra).
      eapply Rle_trans; [apply (abs_scale _ _ _ kf Hq) |]. rewrite (Rabs_pos_eq (y * y)) by exact y0.
      replace (k * f * (u * (y * y) + t)) with (u * (k * (y * y) * f) + t * k * f) by lra. assert (u * (k * (y * y) * f) <= u * (1.1 * Q)) by (apply Rmult_le_compat_l; lra). nra. }
    assert (B1 := close_bound _ _ _ (1.1 * Q) R1 ltac:(rewrite Rabs_pos_eq; lra)).
    assert (qw : q * w / D = q * k * f) by (unfold k, f; field; lra).
    assert (R2 : Rabs (r / D - q * k * f) <= u * (1.12 * Q) + 0.0011 * (u * Q)).
    { rewrite <- qw. apply abs_div; [lra |]. eapply Rle_trans; [exact Hr |].
      assert (X : Rabs (q * w) <= 1.12 * Q * D).
      { replace (q * w) with (q * k * f * D) by (unfold k, f; field; lra). rewrite Rabs_mult, (Rabs_pos_eq D) by lra. apply Rmult_le_compat_r; lra. }
      assert (Y : u * Rabs (q * w) <= u * (1.12 * Q * D)) by (apply Rmult_le_compat_l; lra).
      assert (Z : 1000 * t <= 1.1 * (u * Q) * D) by (eapply Rle_trans; [exact Ht2 |]; assert (u * Q * W0 <= u * Q * (1.1 * D)) by (apply Rmult_le_compat_l; lra); lra). lra. }
    assert (B2 := close_bound _ _ _ _ R2 B1). assert (B3 : Rabs (r / D) <= 1.3 * Q) by lra.
    assert (R3 := near_le _ _ _ _ _ (Rlt_le _ _ (proj1 Hu)) Hs B3). assert (B4 := close_bound _ _ _ _ R3 B3).
    split; [| split; [exact B3 | split; [lra | exact By]]].
    replace (g * g * w / W0) with (k * (g * g)) by (unfold k; field; lra).
    assert (F := close_trans _ _ _ _ _ R3 (close_trans _ _ _ _ _ R2 (close_trans _ _ _ _ _ R1 (close_trans _ _ _ _ _ S3 S2)))).
    eapply Rle_trans; [exact F |]. assert (0 <= (1 - l) * (nu * Q)) by (apply Rmult_le_pos; lra). assert (0 <= th * Q * (1 - l)) by (apply Rmult_le_pos; [apply Rmult_le_pos |]; lra). nra.
  Qed.

  Lemma variance_step n v VV x m M M0 y a b q r s z : 1 <= n -> (n + 1) * u = nu -> th = 1.02 * (n * u) ->
    0 <= VV <= Q -> Rabs (v - VV) <= 100 * (n * u) * Q -> 
    Rabs x <= A -> Rabs M0 <= A -> M * W = M0 * W0 + x * w -> Rabs (m - M) <= 12 * nu * A ->
    near u t a (v * D) -> near u t b (a / V') -> Rabs (y - (x - m)) <= u * Rabs (x - m) -> near u t q (y * y) -> near u t r (q * w) -> near u t s (r / D) ->
    Rabs (z - (b + s)) <= u * Rabs (b + s) -> 100 * nu <= / 10 ->
    Rabs (z - (VV * W0 / W + (x - M) * (x - M) * w / W0)) <= 100 * nu * Q.
  Proof.
    intros Hn En Eth HVV Hv Hx HM0 EM Hm Ha Hb Hy Hq Hr Hs Hz Hsm.
    assert (uQ : 0 < u * Q) by nra. assert (nu0 : 0 <= n * u) by nra.
    assert (Eb : 100 * (n * u) * Q <= / 10 * Q) by (apply Rmult_le_compat_r; nra).
    destruct (first_part v VV _ a b HVV Hv Eb Ha Hb) as (F1 & _ & F2). destruct (second_part x m M M0 y q r s Hx HM0 EM Hm Hy Hq Hr Hs) as (S1 & _ & S2 & _).
    assert (Bs : Rabs (b + s) <= 2.7 * Q) by (eapply Rle_trans; [apply Rabs_triang | lra]).
    assert (Z1 : Rabs (z - (b + s)) <= 2.7 * (u * Q)) by (eapply Rle_trans; [exact Hz |]; assert (u * Rabs (b + s) <= u * (2.7 * Q)) by (apply Rmult_le_compat_l; lra); lra).
    replace (VV * W0 / W) with (l * VV) by (unfold l; field; lra).
    apply Rabs_le_inv in F1. apply Rabs_le_inv in S1. apply Rabs_le_inv in Z1.
    set (g2 := (x - M) * (x - M) * w / W0) in *. subst th. rewrite <- En in *.
    assert (K : 0 <= (1 - l) * (u * Q)) by (apply Rmult_le_pos; lra). assert (K' : (1 - l) * (u * Q) <= u * Q) by nra.
    assert (N : 0 <= (1 - l) * (n * u * Q)) by (apply Rmult_le_pos; nra).
    replace (l * (100 * (n * u) * Q)) with (100 * (n * u * Q) - 100 * ((1 - l) * (n * u * Q))) in F1 by ring.
    replace (1.3 * (1.02 * (n * u) * Q * (1 - l))) with (1.326 * ((1 - l) * (n * u * Q))) in F1 by lra.
    replace ((1 - l) * (62 * ((n + 1) * u * Q) + 4.5 * (1.02 * (n * u) * Q))) with (66.59 * ((1 - l) * (n * u * Q)) + 62 * ((1 - l) * (u * Q))) in S1 by lra.
    replace (100 * ((n + 1) * u) * Q) with (100 * (n * u * Q) + 100 * (u * Q)) by ring.
    apply Rabs_le. lra.
  Qed.
End Step.
