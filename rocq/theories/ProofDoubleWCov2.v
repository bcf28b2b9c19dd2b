(** The accuracy of weighted covariances of doubles. *)
From Coq Require Import ZArith List Bool Reals Lra Lia Arith Psatz Permutation.
From Flocq Require Import Core IEEE754.BinarySingleNaN.
From Verif Require Import Num NumFacts ModelBasic ModelRounding ModelDouble SpecStats SpecDouble SpecDoubleVariance SpecDoubleWeighted SpecDoubleWVariance SpecDoubleWCov ProofBasic ProofBasic2 ProofKahan ProofDouble ProofDouble2 ProofDouble3 ProofDoubleEx ProofDoubleVariance ProofDoubleVariance2 ProofDoubleVariance3 ProofDoubleVariance4 ProofDoubleCovariance ProofDoubleWeighted ProofDoubleWeighted2 ProofDoubleWeighted3 ProofDoubleWVariance ProofDoubleWVariance2 ProofDoubleWVariance3 ProofDoubleWVariance4 ProofDoubleWCov.
Import ListNotations.
Local Open Scope R_scope.

(** ** The exact covariance *)
Notation history := (list (double * double * double)).
Notation SX := weighted_samples.
Notation SV := weighted_variates.
Definition SXV (h : history) : R := total RN (fun p => val (snd p) * (val (fst (fst p)) * val (snd (fst p)))) h.
Lemma same_weight h : ExactWeight (SV h) = ExactWeight (SX h).
Proof. unfold ExactWeight, weighted_variates, weighted_samples. rewrite !map_map. reflexivity. Qed.
Lemma same_Wsum h : Wsum (SV h) = Wsum (SX h).
Proof. unfold Wsum, weighted_variates, weighted_samples. rewrite !map_map. reflexivity. Qed.
Lemma one_more (w x y a b t tv tx tw : R) : w * ((x - a) * (y - b)) + (t - a * tv - b * tx + tw * (a * b)) = w * (x * y) + t - a * (w * y + tv) - b * (w * x + tx) + (w + tw) * (a * b).
Proof. ring. Qed.
Lemma exact_cov_raw h : ExactWeight (SX h) <> 0 -> ExactWeightedCovariance h = SXV h / ExactWeight (SX h) - ExactWeightedMean (SX h) * ExactWeightedMean (SV h).
Proof.
  intros H. unfold ExactWeightedMean. rewrite same_weight. unfold ExactWeightedCovariance.
  set (R3 := map (fun p : double * double * double => (val (fst (fst p)), val (snd (fst p)), val (snd p))) h).
  assert (TW : TotalWeight RN R3 = ExactWeight (SX h)) by (unfold TotalWeight, R3, ExactWeight, ExactSum, weighted_samples; rewrite !total_map; reflexivity).
  assert (TX : total RN (fun p : R * R * R => mul RN (snd p) (fst (fst p))) R3 = ExactWeightedSum (SX h)) by (unfold R3, ExactWeightedSum, weighted_samples; rewrite !total_map; apply total_ext; intros p _; apply Rmult_comm).
  assert (TV : total RN (fun p : R * R * R => mul RN (snd p) (snd (fst p))) R3 = ExactWeightedSum (SV h)) by (unfold R3, ExactWeightedSum, weighted_variates; rewrite !total_map; apply total_ext; intros p _; apply Rmult_comm).
  assert (T2 : total RN (fun p : R * R * R => mul RN (snd p) (mul RN (fst (fst p)) (snd (fst p)))) R3 = SXV h) by (unfold R3, SXV; rewrite !total_map; reflexivity).
  unfold WCovariance. set (a := waverage RN fst R3). set (b := waverage RN snd R3).
  assert (Hraw : total RN (fun p : R * R * R => snd p * ((fst (fst p) - a) * (snd (fst p) - b))) R3 = SXV h - a * ExactWeightedSum (SV h) - b * ExactWeightedSum (SX h) + ExactWeight (SX h) * (a * b)).
  { rewrite <- TW, <- TX, <- TV, <- T2. clear. clearbody a b. unfold TotalWeight. induction R3 as [|[[x y] w] l IH]; [cbn; ring |].
    assert (T : forall f, total RN f ((x, y, w) :: l) = f (x, y, w) + total RN f l) by reflexivity. rewrite !T, IH. cbn [fst snd]. change (mul RN) with Rmult. exact (one_more w x y a b _ _ _ _). }
  transitivity ((SXV h - a * ExactWeightedSum (SV h) - b * ExactWeightedSum (SX h) + ExactWeight (SX h) * (a * b)) / ExactWeight (SX h)); [exact (f_equal2 Rdiv Hraw TW) |].
  assert (Ea : a = ExactWeightedSum (SX h) / ExactWeight (SX h)) by exact (f_equal2 Rdiv TX TW).
  assert (Eb : b = ExactWeightedSum (SV h) / ExactWeight (SX h)) by exact (f_equal2 Rdiv TV TW).
  rewrite Ea, Eb. field. exact H.
Qed.
Lemma SX_snoc h x v w : SX (h ++ [(x, v, w)]) = SX h ++ [(x, w)].
Proof. unfold weighted_samples. rewrite map_app. reflexivity. Qed.
Lemma SV_snoc h x v w : SV (h ++ [(x, v, w)]) = SV h ++ [(v, w)].
Proof. unfold weighted_variates. rewrite map_app. reflexivity. Qed.
Lemma SXV_snoc h x v w : SXV (h ++ [(x, v, w)]) = SXV h + val w * (val x * val v).
Proof. exact (total_snoc RN RN_field (fun p : double * double * double => val (snd p) * (val (fst (fst p)) * val (snd (fst p)))) h (x, v, w)). Qed.
Lemma exact_cov_step h x v w : 0 < ExactWeight (SX h) -> 0 <= val w ->
  ExactWeightedCovariance (h ++ [(x, v, w)]) = ExactWeightedCovariance h * ExactWeight (SX h) / (ExactWeight (SX h) + val w)
    + (ExactWeightedMean (SV (h ++ [(x, v, w)])) - val v) * (ExactWeightedMean (SX (h ++ [(x, v, w)])) - val x) * val w / ExactWeight (SX h).
Proof.
  intros P Q. rewrite !exact_cov_raw by (rewrite ?SX_snoc, ?exact_weight_snoc; lra). rewrite SX_snoc, SV_snoc, SXV_snoc. unfold ExactWeightedMean. rewrite !exact_weight_snoc, !exact_weighted_sum_snoc, same_weight. field. lra.
Qed.
Lemma spread_pos c s h : s * s = 1 -> Lead (SX h) -> Weights c (SX h) -> 0 <= ExactWeightedVariance (SX h) + ExactWeightedVariance (SV h) + 2 * s * ExactWeightedCovariance h.
Proof.
  intros S. induction h as [|[[x v] w] h IH] using rev_ind; intros H WB.
  { unfold ExactWeightedVariance, WVariance, WCentralMoment, ExactWeightedCovariance, WCovariance, waverage. cbn. unfold Rdiv. rewrite !Rmult_0_l. lra. }
  assert (P := bpow_gt_0 radix2 (-450)). rewrite SX_snoc in H, WB. assert (LW := lead_weight _ (SX h ++ [(x, w)]) ltac:(destruct (SX h); discriminate) H WB).
  assert (WB0 := WB). apply Forall_app in WB0 as [WB0 Ww]. inversion Ww as [|? ? [Fw [Pw _]] _]; subst. cbn [snd] in Fw, Pw.
  destruct h as [|p h0] eqn:Eh.
  - right. rewrite exact_cov_raw by (rewrite SX_snoc; lra). rewrite !exact_variance_raw by (rewrite ?same_weight, SX_snoc; lra). cbn [app weighted_samples weighted_variates map] in *.
    unfold ExactWeightedMean, ExactWeightedSum, S2, SXV, ExactWeight, ExactSum in *. cbn in *. field. lra.
  - rewrite <- Eh in *. assert (H0 : Lead (SX h)) by (rewrite Eh in H |- *; exact H). specialize (IH H0 WB0).
    assert (LW0 := lead_weight _ (SX h) ltac:(rewrite Eh; discriminate) H0 WB0).
    rewrite exact_cov_step by lra. rewrite SX_snoc, SV_snoc. rewrite !exact_variance_step by (rewrite ?same_weight; lra). rewrite same_weight.
    set (W0 := ExactWeight (SX h)) in *. set (m := ExactWeightedMean (SX h ++ [(x, w)])). set (n := ExactWeightedMean (SV h ++ [(v, w)])).
    set (a := ExactWeightedVariance (SX h)) in *. set (b := ExactWeightedVariance (SV h)) in *. set (cc := ExactWeightedCovariance h) in *.
    match goal with |- 0 <= ?e => replace e with ((a + b + 2 * s * cc) * (W0 / (W0 + val w)) + ((m - val x) + s * (n - val v)) * ((m - val x) + s * (n - val v)) * (val w / W0)) end.
    2:{ replace (((m - val x) + s * (n - val v)) * ((m - val x) + s * (n - val v))) with ((m - val x) * (m - val x) + 2 * s * ((m - val x) * (n - val v)) + s * s * ((n - val v) * (n - val v))) by ring. rewrite S. field. lra. }
    apply Rplus_le_le_0_compat; apply Rmult_le_pos; try assumption; try apply Rle_0_sqr; unfold Rdiv; apply Rmult_le_pos; try lra; left; apply Rinv_0_lt_compat; lra.
Qed.
Lemma lead_variates h : Lead (SX h) -> Lead (SV h).
Proof. destruct h; exact (fun H => H). Qed.
Lemma weights_variates c h : Weights c (SX h) -> Weights c (SV h).
Proof. induction h as [|p h IH]; intros H; [constructor |]. inversion H; subst. constructor; [assumption | exact (IH ltac:(assumption))]. Qed.
Lemma exact_cov_bound a c h : 0 <= a -> Lead (SX h) -> Within a (map fst (SX h)) -> Within a (map fst (SV h)) -> Weights c (SX h) -> Rabs (ExactWeightedCovariance h) <= a * a.
Proof.
  intros A H WX WV WB. assert (P := spread_pos c 1 h ltac:(ring) H WB). assert (N := spread_pos c (-1) h ltac:(ring) H WB).
  destruct (exact_variance_bound a c _ A H WX WB) as [_ V1]. destruct (exact_variance_bound a c _ A (lead_variates h H) WV (weights_variates c h WB)) as [_ V2]. apply Rabs_le. lra.
Qed.

(** ** The computed covariance *)
Definition dwcov (h : history) : double := wc_cov DoubleN (wcov_set_run DoubleN d_zero d_zero d_zero h).
Definition dlmean (h : list (double * double)) : double := wmean_set_mean DoubleN (wmean_set_run DoubleN d_zero d_zero h).
Lemma dlmean_is h : dlmean h = d_div (sum_run DoubleN d_zero (products h)) (Wsum h).
Proof. unfold dlmean. rewrite wmean_set_is. reflexivity. Qed.
Lemma wcov_parts h : let s := wcov_set_run DoubleN d_zero d_zero d_zero h in
  wc_count DoubleN s = length h /\ wc_W DoubleN s = Wsum (SX h) /\ wc_sum DoubleN s = sum_run DoubleN d_zero (products (SX h)) /\ wc_sumv DoubleN s = sum_run DoubleN d_zero (products (SV h)).
Proof.
  cbv zeta. induction h as [|[[x v] w] h (I1 & I2 & I3 & I4)] using rev_ind; [repeat split; reflexivity |].
  unfold wcov_set_run in *. rewrite fold_left_app, app_length, Nat.add_1_r, SX_snoc, SV_snoc, Wsum_snoc. unfold products in *. rewrite !map_app. cbn [map]. rewrite !sum_snoc.
  split; [exact (f_equal S I1) |]. split; [exact (f_equal (fun z => d_add z w) I2) |].
  split; [exact (f_equal (fun z => d_add z (d_mul x w)) I3) | exact (f_equal (fun z => d_add z (d_mul v w)) I4)].
Qed.
Lemma pushed s x v w n W sx sv : wc_count DoubleN s = n -> wc_W DoubleN s = W -> wc_sum DoubleN s = sx -> wc_sumv DoubleN s = sv ->
  wc_cov DoubleN (wcov_set_push DoubleN s (x, v, w)) =
  if Nat.ltb 1 (S n) then
    d_add (d_div (d_mul (wc_cov DoubleN s) (d_sub (d_add W w) w)) (d_add W w))
      (d_div (d_mul (d_mul (d_sub (d_div (d_add sv (d_mul v w)) (d_add W w)) v) (d_sub (d_div (d_add sx (d_mul x w)) (d_add W w)) x)) w) (d_sub (d_add W w) w))
  else wc_cov DoubleN s.
Proof. intros <- <- <- <-. reflexivity. Qed.
Lemma dwcov_snoc h x v w : let g := h ++ [(x, v, w)] in dwcov g =
  if Nat.ltb 1 (S (length h)) then
    d_add (d_div (d_mul (dwcov h) (d_sub (Wsum (SX g)) w)) (Wsum (SX g)))
      (d_div (d_mul (d_mul (d_sub (dlmean (SV g)) v) (d_sub (dlmean (SX g)) x)) w) (d_sub (Wsum (SX g)) w))
  else dwcov h.
Proof.
  cbv zeta. destruct (wcov_parts h) as (I1 & I2 & I3 & I4). rewrite !dlmean_is, same_Wsum, SX_snoc, SV_snoc, Wsum_snoc.
  unfold products in *. rewrite !map_app. cbn [map]. rewrite !sum_snoc.
  unfold dwcov at 1, wcov_set_run. rewrite fold_left_app. exact (pushed _ x v w _ _ _ _ I1 I2 I3 I4).
Qed.
Lemma SX_length h : length (SX h) = length h. Proof. apply map_length. Qed.
Lemma SV_length h : length (SV h) = length h. Proof. apply map_length. Qed.

Lemma wcov_close i j r h : Few h -> (-225 <= i)%Z -> (i <= 225)%Z -> (-450 <= j)%Z -> (j <= 450)%Z -> 1 <= r -> r * (INR (length h) * roundoff) <= / 1000 ->
  Within (bpow radix2 i) (map fst (SX h)) -> Within (bpow radix2 i) (map fst (SV h)) -> Weights (bpow radix2 j) (SX h) -> Lead (SX h) -> Balanced r (SX h) ->
  finite (dwcov h) /\ Rabs (val (dwcov h) - ExactWeightedCovariance h) <= 100 * (INR (length h) * roundoff) * (bpow radix2 i * bpow radix2 i).
Proof.
  intros L I I' J J' R1. assert (Hu := roundoff_small). assert (Ht := tiny_pos). assert (PA := bpow_gt_0 radix2 i). set (A := bpow radix2 i) in *.
  induction h as [|[[x v] w] h IH] using rev_ind; intros Hr WX WV WB H Bl.
  { split; [reflexivity |]. unfold ExactWeightedCovariance, WCovariance, waverage. cbn. unfold Rdiv. rewrite Rmult_0_l, Rminus_0_r, Rabs_R0. lra. }
  destruct h as [|p0 h0] eqn:Eh.
  { rewrite dwcov_snoc. cbn [length Nat.ltb Nat.leb app]. split; [reflexivity |]. cbn [app weighted_samples map] in *.
    assert (P := bpow_gt_0 radix2 (-450)). cbn [Lead snd] in H.
    rewrite exact_cov_raw by (unfold ExactWeight, ExactSum; cbn; lra). unfold ExactWeightedMean, ExactWeightedSum, SXV, ExactWeight, ExactSum. cbn [map snd fst total fold_right weighted_samples weighted_variates].
    match goal with |- Rabs (_ - ?e) <= _ => replace e with 0 end.
    2:{ cbn. field. lra. }
    change (val (dwcov [])) with 0. rewrite Rminus_0_r, Rabs_R0. apply Rmult_le_pos; [apply Rmult_le_pos; [lra | apply Rmult_le_pos; [apply pos_INR | lra]] | nra]. }
  rewrite <- Eh in *. assert (N : h <> []) by (rewrite Eh; discriminate). assert (NX : SX h <> []) by (rewrite Eh; discriminate). assert (NV : SV h <> []) by (rewrite Eh; discriminate). clear Eh p0 h0.
  assert (Ls : length (h ++ [(x, v, w)]) = S (length h)) by (rewrite app_length; cbn; lia).
  assert (L0 : Few h) by (unfold Few in *; rewrite Ls in L; lia).
  assert (WBV := weights_variates _ _ WB). assert (HV := lead_variates _ H).
  assert (LX : Few (SX (h ++ [(x, v, w)]))) by (unfold Few; rewrite SX_length; exact L). assert (LV : Few (SV (h ++ [(x, v, w)]))) by (unfold Few; rewrite SV_length; exact L).
  assert (LX0 : Few (SX h)) by (unfold Few; rewrite SX_length; exact L0).
  assert (NgX : SX (h ++ [(x, v, w)]) <> []) by (rewrite SX_snoc; destruct (SX h); discriminate). assert (NgV : SV (h ++ [(x, v, w)]) <> []) by (rewrite SV_snoc; destruct (SV h); discriminate).
  assert (TWX := lead_weight _ _ NgX H WB). assert (TWV := lead_weight _ _ NgV HV WBV).
  destruct (weighted_mean_close i j _ LX ltac:(lia) ltac:(lia) J J' NgX WX WB TWX) as [Fm Em]. destruct (weighted_mean_close i j _ LV ltac:(lia) ltac:(lia) J J' NgV WV WBV TWV) as [Fm' Em'].
  destruct (exact_mean_bound A _ _ (Rlt_le _ _ PA) H WX WB) as [Bm Sm]. destruct (exact_mean_bound A _ _ (Rlt_le _ _ PA) HV WV WBV) as [Bm' Sm'].
  fold (dlmean (SX (h ++ [(x, v, w)]))) in Fm, Em. fold (dlmean (SV (h ++ [(x, v, w)]))) in Fm', Em'. fold A in Em, Em'.
  assert (LsX : INR (length (SX (h ++ [(x, v, w)]))) = INR (length h) + 1) by (rewrite <- S_INR; f_equal; rewrite SX_length; exact Ls).
  assert (LsV : INR (length (SV (h ++ [(x, v, w)]))) = INR (length h) + 1) by (rewrite <- S_INR; f_equal; rewrite SV_length; exact Ls).
  assert (Lsh : INR (length (h ++ [(x, v, w)])) = INR (length h) + 1) by (rewrite <- S_INR; f_equal; exact Ls).
  rewrite LsX in Em. rewrite LsV in Em'. rewrite Lsh.
  assert (Eg : ExactWeight (SX (h ++ [(x, v, w)])) = ExactWeight (SX h) + val w) by (rewrite SX_snoc; apply exact_weight_snoc).
  rewrite same_weight, Eg in Sm'. rewrite Eg in Sm. rewrite SX_snoc, exact_weighted_sum_snoc, <- SX_snoc with (v := v) in Sm. rewrite SV_snoc, exact_weighted_sum_snoc, <- SV_snoc with (x := x) in Sm'.
  rewrite dwcov_snoc. assert (Lt : Nat.ltb 1 (S (length h)) = true) by (apply Nat.ltb_lt; destruct h; [congruence | cbn; lia]). rewrite Lt.
  set (m := dlmean (SX (h ++ [(x, v, w)]))) in *. set (M := ExactWeightedMean (SX (h ++ [(x, v, w)]))) in *.
  set (m' := dlmean (SV (h ++ [(x, v, w)]))) in *. set (M' := ExactWeightedMean (SV (h ++ [(x, v, w)]))) in *.
  rewrite SX_snoc, Wsum_snoc. rewrite SX_snoc in WX, WB, H, Bl. rewrite SV_snoc in WV.
  assert (H0 : Lead (SX h)) by (destruct (SX h); [exact Logic.I | exact H]).
  assert (WX0 := WX). rewrite map_app in WX0. cbn [map fst] in WX0. apply Forall_app in WX0 as [WX0 Wx]. inversion Wx as [|? ? Bx _]; subst.
  assert (WV0 := WV). rewrite map_app in WV0. cbn [map fst] in WV0. apply Forall_app in WV0 as [WV0 Wv]. inversion Wv as [|? ? Bv _]; subst.
  assert (WB0 := WB). apply Forall_app in WB0 as [WB0 Ww]. inversion Ww as [|? ? [Fw [P Q]] _]; subst. cbn [snd] in Fw, P, Q.
  assert (Wr := Bl (SX h) x w [] eq_refl NX). assert (Bl0 := balanced_before _ _ _ Bl).
  assert (LW0 := lead_weight _ (SX h) NX H0 WB0). assert (P450 := bpow_gt_0 radix2 (-450)).
  assert (Nu := few_samples _ L). rewrite Lsh in Nu, Hr. assert (n1 : 1 <= INR (length h)) by (replace 1 with (INR 1) by reflexivity; apply le_INR; destruct h; [congruence | cbn; lia]).
  assert (Hr0 : r * (INR (length h) * roundoff) <= / 1000) by (eapply Rle_trans; [| exact Hr]; apply Rmult_le_compat_l; [lra |]; apply Rmult_le_compat_r; lra).
  destruct (IH L0 Hr0 WX0 WV0 WB0 H0 Bl0) as [Fv Ev]. clear IH.
  destruct (exact_mean_bound A _ (SX h) (Rlt_le _ _ PA) H0 WX0 WB0) as [Bm0 Sm0]. destruct (exact_mean_bound A _ (SV h) (Rlt_le _ _ PA) (lead_variates _ H0) WV0 (weights_variates _ _ WB0)) as [Bm0' Sm0'].
  rewrite same_weight in Sm0'.
  assert (VB := exact_cov_bound A _ h (Rlt_le _ _ PA) H0 WX0 WV0 WB0).
  destruct (weight_close j (SX h) LX0 J J' WB0) as [BV EV]. rewrite SX_length in EV.
  set (n := INR (length h)) in *. set (nu := (n + 1) * roundoff) in *.
  assert (Hnu : roundoff <= nu <= / 2000) by (split; [unfold nu; clear - n1 Hu; nra | lra]). assert (nn : n * roundoff <= nu) by (unfold nu; nra). assert (nu0 : 0 <= n * roundoff) by nra.
  assert (Hu' : 0 < roundoff <= / 2000) by lra. assert (Hth : 0 <= 1.02 * (n * roundoff) <= / 1000) by (unfold nu in *; lra).
  assert (Em1 : Rabs (val m - M) <= 12 * nu * A) by (eapply Rle_trans; [exact Em |]; unfold nu; rewrite <- !Rmult_assoc; apply Rmult_le_compat_r; [lra |]; rewrite !Rmult_assoc; assert (0 <= (n + 1) * roundoff) by (fold nu; lra); lra).
  assert (Em2 : Rabs (val m' - M') <= 12 * nu * A) by (eapply Rle_trans; [exact Em' |]; unfold nu; rewrite <- !Rmult_assoc; apply Rmult_le_compat_r; [lra |]; rewrite !Rmult_assoc; assert (0 <= (n + 1) * roundoff) by (fold nu; lra); lra).
  clear Em Em'.
  assert (Bw : below (j + 40) w) by (split; [exact Fw |]; rewrite Rabs_pos_eq by exact P; eapply Rle_trans; [exact Q | apply bpow_le; lia]).
  destruct (add_below (j + 40) _ _ ltac:(lia) ltac:(lia) BV Bw) as [BV' EV'].
  set (V' := d_add (Wsum (SX h)) w) in *.
  assert (Bw' : below (j + 40 + 1) w) by (apply below_le with (j + 40)%Z; [lia | exact Bw]).
  destruct (sub_below (j + 40 + 1) _ _ ltac:(lia) ltac:(lia) BV' Bw') as [Bd Ed]. set (D := d_sub V' w) in *.
  set (W0 := ExactWeight (SX h)) in *. assert (PW0 : 0 < W0) by lra.
  destruct (weight_before roundoff nu (1.02 * (n * roundoff)) r W0 (val w) (val (Wsum (SX h))) (val V') (val D)) as (V1 & V2 & _ & D1 & _); try assumption; try (split; assumption).
  set (VV := ExactWeightedCovariance h) in *. assert (QA : 0 < A * A) by nra.
  assert (Eb : 100 * (n * roundoff) * (A * A) <= / 10 * (A * A)) by (apply Rmult_le_compat_r; lra).
  assert (Bvv : below (2 * i + 1) (dwcov h)).
  { split; [exact Fv |]. replace (2 * i + 1)%Z with (1 + (i + i))%Z by lia. rewrite !bpow_plus. change (bpow radix2 1) with 2. fold A. assert (C := close_bound _ _ _ (A * A) Ev VB). lra. }
  destruct (mul_below (2 * i + 1) (j + 40 + 1 + 1) _ _ ltac:(lia) ltac:(lia) Bvv Bd) as [Ba Ea]. set (a := d_mul (dwcov h) D) in *.
  destruct (tiny_cubed i I) as [T2 T3]. fold A in T2, T3. destruct (tiny_small i ltac:(lia)) as [_ T1]. fold A in T1.
  assert (T2' : 1000 * tiny <= roundoff * (A * A * W0)) by (eapply Rle_trans; [exact T2 |]; apply Rmult_le_compat_l; [lra |]; apply Rmult_le_compat_l; lra).
  assert (T3' : 1000 * (tiny * r) <= roundoff * (A * A)).
  { apply Rmult_le_reg_r with roundoff; [lra |]. apply Rle_trans with tiny; [| lra]. assert (X : r * roundoff <= / 1000) by (eapply Rle_trans; [| exact Hr]; apply Rmult_le_compat_l; lra).
    replace (1000 * (tiny * r) * roundoff) with (1000 * tiny * (r * roundoff)) by ring. apply Rle_trans with (1000 * tiny * / 1000); [apply Rmult_le_compat_l; lra | lra]. }
  assert (Rb := round_near (val a / val V')).
  assert (FP : Rabs (val a / val V') <= 1.2 * (A * A)).
  { edestruct (scaled_part A roundoff tiny nu (1.02 * (n * roundoff)) r W0 (val w) (val (Wsum (SX h))) (val V') (val D)) with (v := val (dwcov h)) (VV := VV) (a := val a) (b := b64_round (val a / val V')) as (_ & F1 & _);
      try eassumption; try (split; assumption). }
  assert (B2A : bpow radix2 (2 * i + 1) = 2 * (A * A)) by (replace (2 * i + 1)%Z with (1 + (i + i))%Z by lia; rewrite !bpow_plus; reflexivity).
  assert (F1' : Rabs (val a / val V') <= bpow radix2 (2 * i + 1)) by (rewrite B2A; lra).
  destruct (fits _ (2 * i + 1) ltac:(lia) ltac:(lia) F1') as [FF1 FF2].
  assert (PV : 0 < val V') by lra. assert (PD : 0 < val D) by lra.
  destruct (div_ok a V') as [Fb E_b]; [apply Rgt_not_eq; exact PV | exact (proj1 Ba) | exact FF2 |].
  assert (nuA : nu * A <= / 2000 * A) by (apply Rmult_le_compat_r; lra).
  assert (Bmm : below (i + 1) m) by (split; [exact Fm |]; rewrite bpow_plus; change (bpow radix2 1) with 2; fold A; assert (C := close_bound _ _ _ _ Em1 Bm); lra).
  assert (Bmm' : below (i + 1) m') by (split; [exact Fm' |]; rewrite bpow_plus; change (bpow radix2 1) with 2; fold A; assert (C := close_bound _ _ _ _ Em2 Bm'); lra).
  assert (Bx1 : below (i + 1) x) by (apply below_le with i; [lia | exact Bx]). assert (Bv1 : below (i + 1) v) by (apply below_le with i; [lia | exact Bv]).
  destruct (sub_below (i + 1) _ _ ltac:(lia) ltac:(lia) Bmm Bx1) as [By Ey]. set (y := d_sub m x) in *.
  destruct (sub_below (i + 1) _ _ ltac:(lia) ltac:(lia) Bmm' Bv1) as [By' Ey']. set (y' := d_sub m' v) in *.
  destruct (mul_below (i + 1 + 1) (i + 1 + 1) y' y ltac:(lia) ltac:(lia) By' By) as [Bq Eq]. set (q := d_mul y' y) in *.
  destruct (mul_below (i + 1 + 1 + (i + 1 + 1)) (j + 40) q w ltac:(lia) ltac:(lia) Bq Bw) as [Br Er]. set (rr := d_mul q w) in *.
  assert (Rs := round_near (val rr / val D)).
  assert (EM : M * (W0 + val w) = ExactWeightedMean (SX h) * W0 + val x * val w) by (rewrite Sm, Sm0; reflexivity).
  assert (EM' : M' * (W0 + val w) = ExactWeightedMean (SV h) * W0 + val v * val w) by (rewrite Sm', Sm0'; reflexivity).
  assert (DX : Deviates A roundoff nu W0 (val w) (val x) (val m) M (ExactWeightedMean (SX h)) (val y)) by (split; [exact (proj2 Bx) |]; split; [exact Bm0 |]; split; [exact EM |]; split; assumption).
  assert (DV : Deviates A roundoff nu W0 (val w) (val v) (val m') M' (ExactWeightedMean (SV h)) (val y')) by (split; [exact (proj2 Bv) |]; split; [exact Bm0' |]; split; [exact EM' |]; split; assumption).
  assert (GP : Rabs (val rr / val D) <= 1.3 * (A * A)).
  { destruct (added_part A roundoff tiny nu (1.02 * (n * roundoff)) r W0 (val w) (val (Wsum (SX h))) (val V') (val D)) with (x := val v) (m := val m') (M := M') (M0 := ExactWeightedMean (SV h)) (y := val y')
      (x' := val x) (m' := val m) (M' := M) (M0' := ExactWeightedMean (SX h)) (y' := val y) (q := val q) (r := val rr) (s := b64_round (val rr / val D)) as (_ & G1 & _); try assumption; try (split; assumption); lra. }
  assert (G1' : Rabs (val rr / val D) <= bpow radix2 (2 * i + 1)) by (rewrite B2A; lra).
  destruct (fits _ (2 * i + 1) ltac:(lia) ltac:(lia) G1') as [GG1 GG2].
  destruct (div_ok rr D) as [Fs E_s]; [apply Rgt_not_eq; exact PD | exact (proj1 Br) | exact GG2 |].
  assert (Bb : below (2 * i + 1) (d_div a V')) by (split; [exact Fb |]; unfold val; rewrite E_b; exact FF1).
  assert (Bs : below (2 * i + 1) (d_div rr D)) by (split; [exact Fs |]; unfold val; rewrite E_s; exact GG1).
  destruct (add_below (2 * i + 1) _ _ ltac:(lia) ltac:(lia) Bb Bs) as [Bz Ez].
  split; [exact (proj1 Bz) |].
  rewrite exact_cov_step by (fold W0; lra). fold M M' W0 VV.
  assert (vb : val (d_div a V') = b64_round (val a / val V')) by (unfold val; rewrite E_b; reflexivity).
  assert (vs : val (d_div rr D) = b64_round (val rr / val D)) by (unfold val; rewrite E_s; reflexivity).
  rewrite <- vb in Rb. rewrite <- vs in Rs.
  apply (covariance_step A roundoff tiny nu (1.02 * (n * roundoff)) r W0 (val w) (val (Wsum (SX h))) (val V') (val D)) with (n := n) (v := val (dwcov h)) (m := val m') (M0 := ExactWeightedMean (SV h)) (y := val y')
    (m' := val m) (M0' := ExactWeightedMean (SX h)) (y' := val y)
    (a := val a) (b := val (d_div a V')) (q := val q) (r := val rr) (s := val (d_div rr D)); try assumption; try reflexivity; try (split; assumption); try lra.
Qed.
