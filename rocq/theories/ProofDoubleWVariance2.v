(** The accuracy of weighted variances of doubles. *)
From Coq Require Import ZArith List Bool Reals Lra Lia Arith Psatz Permutation.
From Flocq Require Import Core IEEE754.BinarySingleNaN.
From Verif Require Import Num NumFacts ModelBasic ModelRounding ModelDouble SpecStats SpecDouble SpecDoubleVariance SpecDoubleWeighted SpecDoubleWVariance ProofBasic ProofBasic2 ProofKahan ProofDouble ProofDouble2 ProofDouble3 ProofDoubleEx ProofDoubleVariance ProofDoubleVariance2 ProofDoubleVariance3 ProofDoubleVariance4 ProofDoubleCovariance ProofDoubleWeighted ProofDoubleWeighted2 ProofDoubleWeighted3 ProofDoubleWVariance.
Import ListNotations.
Local Open Scope R_scope.

(** ** The exact variance *)
Definition S2 (h : list (double * double)) : R := total RN (fun p => val (snd p) * (val (fst p) * val (fst p))) h.
Definition reals (h : list (double * double)) : list (R * R) := map (fun p => (val (fst p), val (snd p))) h.
Lemma reals_weight h : TotalWeight RN (reals h) = ExactWeight h.
Proof. unfold TotalWeight, reals, ExactWeight, ExactSum. rewrite total_map, total_map. reflexivity. Qed.
Lemma reals_sum h : total RN (fun p : R * R => mul RN (snd p) (fst p)) (reals h) = ExactWeightedSum h.
Proof. unfold reals, ExactWeightedSum. rewrite total_map. apply total_ext. intros p _. apply Rmult_comm. Qed.
Lemma reals_mean h : WMean RN (reals h) = ExactWeightedMean h.
Proof. unfold WMean, waverage, ExactWeightedMean. rewrite reals_weight. change (div RN) with Rdiv. f_equal. apply reals_sum. Qed.
Lemma exact_variance_raw h : ExactWeight h <> 0 -> ExactWeightedVariance h = S2 h / ExactWeight h - ExactWeightedMean h * ExactWeightedMean h.
Proof.
  intros H. unfold ExactWeightedVariance. fold (reals h). rewrite (WVariance_raw RN RN_field (reals h)) by (rewrite reals_weight; exact H).
  rewrite reals_mean. change (sub RN) with Rminus. change (mul RN) with Rmult. f_equal. unfold WMoment, waverage. rewrite reals_weight. change (div RN) with Rdiv. f_equal. unfold reals, S2. rewrite total_map. apply total_ext. intros p _. cbn. ring.
Qed.
Lemma S2_snoc h x w : S2 (h ++ [(x, w)]) = S2 h + val w * (val x * val x).
Proof. exact (total_snoc RN RN_field (fun p => val (snd p) * (val (fst p) * val (fst p))) h (x, w)). Qed.
Lemma S2_bound a c h : Within a (map fst h) -> Weights c h -> 0 <= S2 h <= a * a * ExactWeight h.
Proof.
  intros H W. induction W as [|[x w] h [_ [P _]] _ IH]; [unfold S2, ExactWeight, ExactSum; cbn; lra |].
  cbn [map fst snd] in *. inversion H as [|? ? [_ B] H']; subst. specialize (IH H').
  change (S2 ((x, w) :: h)) with (val w * (val x * val x) + S2 h). change (ExactWeight ((x, w) :: h)) with (val w + ExactWeight h).
  assert (xx : 0 <= val x * val x <= a * a) by (split; [nra |]; rewrite <- (Rabs_pos_eq (val x * val x)) by nra; rewrite Rabs_mult; apply Rmult_le_compat; auto using Rabs_pos). nra.
Qed.
Lemma exact_variance_step h x w : 0 < ExactWeight h -> 0 <= val w ->
  ExactWeightedVariance (h ++ [(x, w)]) = ExactWeightedVariance h * ExactWeight h / (ExactWeight h + val w)
    + (val x - ExactWeightedMean (h ++ [(x, w)])) * (val x - ExactWeightedMean (h ++ [(x, w)])) * val w / ExactWeight h.
Proof.
  intros P Q. rewrite !exact_variance_raw by (rewrite ?exact_weight_snoc; lra). unfold ExactWeightedMean. rewrite exact_weight_snoc, exact_weighted_sum_snoc, S2_snoc. field. lra.
Qed.
Lemma exact_variance_bound a c h : 0 <= a -> Lead h -> Within a (map fst h) -> Weights c h -> 0 <= ExactWeightedVariance h <= a * a.
Proof.
  intros A. induction h as [|[x w] h IH] using rev_ind; intros H WA WB.
  { unfold ExactWeightedVariance, WVariance, WCentralMoment, waverage. cbn. unfold Rdiv. rewrite Rmult_0_l. nra. }
  assert (LW := lead_weight _ (h ++ [(x, w)]) ltac:(destruct h; discriminate) H WB). assert (P := bpow_gt_0 radix2 (-450)).
  assert (WA0 := WA). rewrite map_app in WA0. cbn [map fst] in WA0. apply Forall_app in WA0 as [WA0 Wx].
  assert (WB0 := WB). apply Forall_app in WB0 as [WB0 Ww]. inversion Ww as [|? ? [Fw [Pw _]] _]; subst. cbn [snd] in Fw, Pw.
  split.
  - destruct h as [|p h].
    + rewrite exact_variance_raw by lra. cbn [app] in *. unfold ExactWeightedMean, ExactWeightedSum, S2, ExactWeight, ExactSum in *. cbn in *. right. field. lra.
    + set (g := p :: h) in *. assert (H0 : Lead g) by exact H. destruct (IH H0 WA0 WB0) as [I _]. assert (LW0 := lead_weight _ g ltac:(discriminate) H0 WB0).
      rewrite exact_variance_step by lra. assert (0 < / ExactWeight g) by (apply Rinv_0_lt_compat; lra). assert (0 < / (ExactWeight g + val w)) by (apply Rinv_0_lt_compat; lra).
      apply Rplus_le_le_0_compat; unfold Rdiv; apply Rmult_le_pos; try lra; apply Rmult_le_pos; try lra. apply Rle_0_sqr.
  - rewrite exact_variance_raw by lra. destruct (S2_bound _ _ _ WA WB) as [_ B]. set (g := h ++ [(x, w)]) in *.
    assert (X : S2 g / ExactWeight g <= a * a) by (apply Rmult_le_reg_r with (ExactWeight g); [lra |]; unfold Rdiv; rewrite Rmult_assoc, Rinv_l by lra; lra).
    assert (0 <= ExactWeightedMean g * ExactWeightedMean g) by apply Rle_0_sqr. lra.
Qed.

(** ** The immediate variance *)
Definition dwvar (h : list (double * double)) : double := wv_var DoubleN (wvar_set_run DoubleN d_zero d_zero h).
Lemma wvar_length (h : list (double * double)) : wv_count DoubleN (wvar_set_run DoubleN d_zero d_zero h) = length h.
Proof.
  induction h as [|[x w] h IH] using rev_ind; [reflexivity |]. unfold wvar_set_run in *. rewrite fold_left_app, app_length, Nat.add_1_r. exact (f_equal S IH).
Qed.
Lemma dwvar_snoc h x w : dwvar (h ++ [(x, w)]) =
  if Nat.ltb 1 (S (length h)) then
    d_add (d_div (d_mul (dwvar h) (d_sub (Wsum (h ++ [(x, w)])) w)) (Wsum (h ++ [(x, w)])))
      (d_div (d_mul (d_mul (d_sub x (dimean (h ++ [(x, w)]))) (d_sub x (dimean (h ++ [(x, w)])))) w) (d_sub (Wsum (h ++ [(x, w)])) w))
  else dwvar h.
Proof.
  rewrite dimean_snoc. assert (E := wvar_weight h). rewrite Wsum_snoc, <- E. rewrite <- (wvar_length h). unfold dwvar, dimean, wvar_set_run. rewrite fold_left_app. reflexivity.
Qed.
Lemma tiny_cubed i : (-225 <= i)%Z -> 1000 * tiny <= roundoff * (bpow radix2 i * bpow radix2 i * bpow radix2 (-450)) /\ tiny <= roundoff * (roundoff * (bpow radix2 i * bpow radix2 i)).
Proof.
  intros I. rewrite tiny_is, roundoff_is. unfold b64_u. change (/ 2) with (bpow radix2 (-1)). split.
  - apply Rle_trans with (bpow radix2 10 * (bpow radix2 (-1) * bpow radix2 (-1074))).
    + apply Rmult_le_compat_r; [apply Rmult_le_pos; apply bpow_ge_0 |]. change (bpow radix2 10) with 1024. lra.
    + rewrite <- !bpow_plus. apply bpow_le. lia.
  - rewrite <- !bpow_plus. apply bpow_le. lia.
Qed.
Lemma balanced_before r h p : Balanced r (h ++ [p]) -> Balanced r h.
Proof. intros B g x w k E N. apply (B g x w (k ++ [p])); [| exact N]. rewrite E, <- app_assoc. reflexivity. Qed.

Lemma wvariance_close i j r h : Few h -> (-225 <= i)%Z -> (i <= 225)%Z -> (-450 <= j)%Z -> (j <= 450)%Z -> 1 <= r -> r * (INR (length h) * roundoff) <= / 1000 ->
  Within (bpow radix2 i) (map fst h) -> Weights (bpow radix2 j) h -> Lead h -> Balanced r h ->
  finite (dwvar h) /\ Rabs (val (dwvar h) - ExactWeightedVariance h) <= 100 * (INR (length h) * roundoff) * (bpow radix2 i * bpow radix2 i).
Proof.
  intros L I I' J J' R1. assert (Hu := roundoff_small). assert (Ht := tiny_pos). assert (PA := bpow_gt_0 radix2 i). set (A := bpow radix2 i) in *.
  induction h as [|[x w] h IH] using rev_ind; intros Hr WA WB H Bl.
  { split; [reflexivity |]. unfold ExactWeightedVariance, WVariance, WCentralMoment, waverage. cbn. unfold Rdiv. rewrite Rmult_0_l, Rminus_0_r, Rabs_R0. lra. }
  destruct h as [|p0 h0] eqn:Eh.
  { rewrite dwvar_snoc. cbn [length Nat.ltb Nat.leb app]. split; [reflexivity |]. cbn [app] in *.
    assert (P := bpow_gt_0 radix2 (-450)). cbn [Lead snd] in H.
    rewrite exact_variance_raw by (unfold ExactWeight, ExactSum; cbn; lra). unfold ExactWeightedMean, ExactWeightedSum, S2, ExactWeight, ExactSum. cbn [map snd fst total fold_right].
    match goal with |- Rabs (_ - ?e) <= _ => replace e with 0 end.
    2:{ cbn. field. lra. }
    change (val (dwvar [])) with 0. rewrite Rminus_0_r, Rabs_R0. apply Rmult_le_pos; [apply Rmult_le_pos; [lra | apply Rmult_le_pos; [apply pos_INR | lra]] | nra]. }
  rewrite <- Eh in *. assert (N : h <> []) by (rewrite Eh; discriminate). clear Eh p0 h0.
  assert (Ls : length (h ++ [(x, w)]) = S (length h)) by (rewrite app_length; cbn; lia).
  assert (L0 : Few h) by (unfold Few in *; rewrite Ls in L; lia).
  assert (H0 : Lead h) by (destruct h; [exact Logic.I | exact H]).
  assert (WA0 := WA). rewrite map_app in WA0. cbn [map fst] in WA0. apply Forall_app in WA0 as [WA0 Wx]. inversion Wx as [|? ? Bx _]; subst.
  assert (WB0 := WB). apply Forall_app in WB0 as [WB0 Ww]. inversion Ww as [|? ? [Fw [P Q]] _]; subst. cbn [snd] in Fw, P, Q.
  assert (Wr := Bl h x w [] eq_refl N). assert (Bl0 := balanced_before _ _ _ Bl).
  assert (LW0 := lead_weight _ h N H0 WB0). assert (P450 := bpow_gt_0 radix2 (-450)).
  assert (Nu := few_samples _ L). rewrite Ls, S_INR in Nu, Hr. assert (n1 : 1 <= INR (length h)) by (replace 1 with (INR 1) by reflexivity; apply le_INR; destruct h; [congruence | cbn; lia]).
  assert (Hr0 : r * (INR (length h) * roundoff) <= / 1000) by (eapply Rle_trans; [| exact Hr]; apply Rmult_le_compat_l; [lra |]; apply Rmult_le_compat_r; lra).
  destruct (IH L0 Hr0 WA0 WB0 H0 Bl0) as [Fv Ev]. clear IH.
  destruct (immediate_close i j (h ++ [(x, w)]) L ltac:(lia) ltac:(lia) J J' WA WB H) as [Fm Em]. fold A in Em. rewrite Ls, S_INR in Em |- *.
  destruct (exact_mean_bound A _ h (Rlt_le _ _ PA) H0 WA0 WB0) as [Bm0 Sm0].
  destruct (exact_mean_bound A _ (h ++ [(x, w)]) (Rlt_le _ _ PA) H WA WB) as [Bm Sm].
  assert (VB := exact_variance_bound A _ h (Rlt_le _ _ PA) H0 WA0 WB0).
  destruct (weight_close j h L0 J J' WB0) as [BV EV].
  set (n := INR (length h)) in *. set (nu := (n + 1) * roundoff) in *.
  assert (Hnu : roundoff <= nu <= / 2000) by (split; [unfold nu; clear - n1 Hu; nra | lra]). assert (nn : n * roundoff <= nu) by (unfold nu; nra). assert (nu0 : 0 <= n * roundoff) by nra.
  assert (Hu' : 0 < roundoff <= / 2000) by lra. assert (Hth : 0 <= 1.02 * (n * roundoff) <= / 1000) by (unfold nu in *; lra).
  assert (Bw : below (j + 40) w) by (split; [exact Fw |]; rewrite Rabs_pos_eq by exact P; eapply Rle_trans; [exact Q | apply bpow_le; lia]).
  (* the operations *)
  destruct (add_below (j + 40) _ _ ltac:(lia) ltac:(lia) BV Bw) as [BV' EV'].
  rewrite dwvar_snoc. assert (Lt : Nat.ltb 1 (S (length h)) = true) by (apply Nat.ltb_lt; destruct h; [congruence | cbn; lia]). rewrite Lt.
  rewrite Wsum_snoc. set (V' := d_add (Wsum h) w) in *.
  assert (Bw' : below (j + 40 + 1) w) by (apply below_le with (j + 40)%Z; [lia | exact Bw]).
  destruct (sub_below (j + 40 + 1) _ _ ltac:(lia) ltac:(lia) BV' Bw') as [Bd Ed]. set (D := d_sub V' w) in *.
  set (W0 := ExactWeight h) in *. assert (PW0 : 0 < W0) by lra.
  destruct (weight_before roundoff nu (1.02 * (n * roundoff)) r W0 (val w) (val (Wsum h)) (val V') (val D)) as (V1 & V2 & _ & D1 & _); try assumption; try (split; assumption).
  (* the first term *)
  set (VV := ExactWeightedVariance h) in *. assert (QA : 0 < A * A) by nra.
  assert (Eb : 100 * (n * roundoff) * (A * A) <= / 10 * (A * A)) by (apply Rmult_le_compat_r; lra).
  assert (Bvv : below (2 * i + 1) (dwvar h)).
  { split; [exact Fv |]. replace (2 * i + 1)%Z with (1 + (i + i))%Z by lia. rewrite !bpow_plus. change (bpow radix2 1) with 2. fold A. assert (C := close_bound _ _ _ (A * A) Ev ltac:(apply Rabs_le; lra)). lra. }
  destruct (mul_below (2 * i + 1) (j + 40 + 1 + 1) _ _ ltac:(lia) ltac:(lia) Bvv Bd) as [Ba Ea]. set (a := d_mul (dwvar h) D) in *.
  destruct (tiny_cubed i I) as [T2 T3]. fold A in T2, T3. destruct (tiny_small i ltac:(lia)) as [_ T1]. fold A in T1.
  assert (T2' : 1000 * tiny <= roundoff * (A * A * W0)) by (eapply Rle_trans; [exact T2 |]; apply Rmult_le_compat_l; [lra |]; apply Rmult_le_compat_l; lra).
  assert (T3' : 1000 * (tiny * r) <= roundoff * (A * A)).
  { apply Rmult_le_reg_r with roundoff; [lra |]. apply Rle_trans with tiny; [| lra]. assert (X : r * roundoff <= / 1000) by (eapply Rle_trans; [| exact Hr]; apply Rmult_le_compat_l; lra).
    replace (1000 * (tiny * r) * roundoff) with (1000 * tiny * (r * roundoff)) by ring. apply Rle_trans with (1000 * tiny * / 1000); [apply Rmult_le_compat_l; lra | lra]. }
  assert (Rb := round_near (val a / val V')). 
  destruct (first_part A roundoff tiny nu (1.02 * (n * roundoff)) r W0 (val w) (val (Wsum h)) (val V') (val D) PA Hu' Hnu Hth R1 Hr PW0 (conj P Wr) EV EV' Ed T1 T2' (val (dwvar h)) VV _ (val a) _ VB Ev Eb Ea Rb) as (_ & F1 & F2).
  assert (B2A : bpow radix2 (2 * i + 1) = 2 * (A * A)) by (replace (2 * i + 1)%Z with (1 + (i + i))%Z by lia; rewrite !bpow_plus; reflexivity).
  assert (F1' : Rabs (val a / val V') <= bpow radix2 (2 * i + 1)) by (rewrite B2A; lra).
  destruct (fits _ (2 * i + 1) ltac:(lia) ltac:(lia) F1') as [FF1 FF2].
  assert (PV : 0 < val V') by lra. assert (PD : 0 < val D) by lra.
  destruct (div_ok a V') as [Fb E_b]; [apply Rgt_not_eq; exact PV | exact (proj1 Ba) | exact FF2 |].
  (* the second term *)
  set (m := dimean (h ++ [(x, w)])) in *. set (M := ExactWeightedMean (h ++ [(x, w)])) in *.
  assert (Bmm : below (i + 1) m) by (split; [exact Fm |]; rewrite bpow_plus; change (bpow radix2 1) with 2; fold A; assert (C := close_bound _ _ _ _ Em Bm); assert (nu * A <= / 2000 * A) by (apply Rmult_le_compat_r; lra); lra).
  assert (Bx1 : below (i + 1) x) by (apply below_le with i; [lia | exact Bx]).
  destruct (sub_below (i + 1) _ _ ltac:(lia) ltac:(lia) Bx1 Bmm) as [By Ey]. set (y := d_sub x m) in *.
  destruct (mul_below (i + 1 + 1) (i + 1 + 1) y y ltac:(lia) ltac:(lia) By By) as [Bq Eq]. set (q := d_mul y y) in *.
  destruct (mul_below (i + 1 + 1 + (i + 1 + 1)) (j + 40) q w ltac:(lia) ltac:(lia) Bq Bw) as [Br Er]. set (rr := d_mul q w) in *.
  assert (Rs := round_near (val rr / val D)).
  assert (EM : M * (W0 + val w) = ExactWeightedMean h * W0 + val x * val w).
  { rewrite exact_weight_snoc, exact_weighted_sum_snoc in Sm. fold W0 in Sm. rewrite Sm, Sm0. reflexivity. }
  destruct (second_part A roundoff tiny nu (1.02 * (n * roundoff)) r W0 (val w) (val (Wsum h)) (val V') (val D) PA Hu' (Rlt_le _ _ Ht) Hnu Hth R1 Hr PW0 (conj P Wr) EV EV' Ed T1 T2' T3'
     (val x) (val m) M (ExactWeightedMean h) (val y) (val q) (val rr) _ (proj2 Bx) Bm0 EM Em Ey Eq Er Rs) as (_ & G1 & G2 & _).
  assert (G1' : Rabs (val rr / val D) <= bpow radix2 (2 * i + 1)) by (rewrite B2A; lra).
  destruct (fits _ (2 * i + 1) ltac:(lia) ltac:(lia) G1') as [GG1 GG2].
  destruct (div_ok rr D) as [Fs E_s]; [apply Rgt_not_eq; exact PD | exact (proj1 Br) | exact GG2 |].
  assert (Bb : below (2 * i + 1) (d_div a V')) by (split; [exact Fb |]; unfold val; rewrite E_b; exact FF1).
  assert (Bs : below (2 * i + 1) (d_div rr D)) by (split; [exact Fs |]; unfold val; rewrite E_s; exact GG1).
  destruct (add_below (2 * i + 1) _ _ ltac:(lia) ltac:(lia) Bb Bs) as [Bz Ez].
  split; [exact (proj1 Bz) |].
  rewrite exact_variance_step by (fold W0; lra). fold M W0 VV.
  assert (vb : val (d_div a V') = b64_round (val a / val V')) by (unfold val; rewrite E_b; reflexivity).
  assert (vs : val (d_div rr D) = b64_round (val rr / val D)) by (unfold val; rewrite E_s; reflexivity).
  rewrite <- vb in Rb. rewrite <- vs in Rs.
  apply (variance_step A roundoff tiny nu (1.02 * (n * roundoff)) r W0 (val w) (val (Wsum h)) (val V') (val D)) with (n := n) (v := val (dwvar h)) (m := val m) (M0 := ExactWeightedMean h) (y := val y)
    (a := val a) (b := val (d_div a V')) (q := val q) (r := val rr) (s := val (d_div rr D)); try assumption; try reflexivity; try (split; assumption); try lra.
Qed.
