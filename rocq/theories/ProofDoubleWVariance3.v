(** The accuracy of lazy weighted variances of doubles, and the statements for the property file. *)
From Coq Require Import ZArith List Bool Reals Lra Lia Arith Psatz Permutation.
From Flocq Require Import Core IEEE754.BinarySingleNaN.
From Verif Require Import Num NumFacts ModelBasic ModelRounding ModelDouble SpecStats SpecDouble SpecDoubleVariance SpecDoubleWeighted SpecDoubleWVariance ProofBasic ProofBasic2 ProofKahan ProofDouble ProofDouble2 ProofDouble3 ProofDoubleEx ProofDoubleVariance ProofDoubleVariance2 ProofDoubleVariance3 ProofDoubleVariance4 ProofDoubleCovariance ProofDoubleWeighted ProofDoubleWeighted2 ProofDoubleWeighted3 ProofDoubleWVariance ProofDoubleWVariance2.
Import ListNotations.
Local Open Scope R_scope.

Lemma d_mul_comm (x y : double) : d_mul x y = d_mul y x.
Proof.
  destruct x as [sx|sx| |sx mx ex hx], y as [sy|sy| |sy my ey hy]; try reflexivity; try (destruct sx, sy; reflexivity).
  set (x := B754_finite sx mx ex hx). set (y := B754_finite sy my ey hy). unfold d_mul.
  assert (H1 := Bmult_correct 53 1024 prec_pos prec_max mode_NE x y). assert (H2 := Bmult_correct 53 1024 prec_pos prec_max mode_NE y x).
  rewrite (Rmult_comm (B2R y)) in H2. rewrite (xorb_comm (Bsign y)) in H2.
  destruct (Rlt_bool _ _).
  - destruct H1 as (V1 & F1 & S1), H2 as (V2 & F2 & S2). apply B2R_Bsign_inj; [rewrite F1; reflexivity | rewrite F2; reflexivity | congruence |].
    rewrite S1, S2; [reflexivity | |]; match goal with |- is_nan ?z = false => destruct z; try reflexivity; try discriminate end.
  - apply B2SF_inj. congruence.
Qed.

(** The lazy variance is the weighted mean of the squares less the square of the weighted mean. *)
Definition squared (h : list (double * double)) : list (double * double) := map (fun p => (d_mul (fst p) (fst p), snd p)) h.
Definition dwmean (h : list (double * double)) : double := wmean_set_mean DoubleN (wmean_set_run DoubleN d_zero d_zero h).
Lemma squared_snd h : map snd (squared h) = map snd h.
Proof. unfold squared. rewrite map_map. apply map_ext. reflexivity. Qed.
Lemma lazy_wset (h : list (double * double)) : wmom_set_run DoubleN [2%nat] d_zero d_zero h =
  Some (Build_wmom_set DoubleN (Wsum h) (sum_run DoubleN d_zero (products h)) [sum_run DoubleN d_zero (products (squared h))]).
Proof.
  induction h as [|[x w] h IH] using rev_ind; [reflexivity |].
  assert (E : wmom_set_run DoubleN [2%nat] d_zero d_zero (h ++ [(x, w)]) = wmom_set_push DoubleN [2%nat] (wmom_set_run DoubleN [2%nat] d_zero d_zero h) (x, w)).
  { unfold wmom_set_run. exact (fold_left_app _ h [(x, w)] _). }
  rewrite E, IH. rewrite Wsum_snoc. unfold squared, products. rewrite !map_app. cbn [map fst snd]. rewrite !sum_snoc. rewrite (d_mul_comm (d_mul x x) w). reflexivity.
Qed.
Lemma lazy_wis (h : list (double * double)) : lazy_weighted_variance_run DoubleN d_zero h = Some (d_sub (dwmean (squared h)) (d_mul (dwmean h) (dwmean h))).
Proof.
  unfold lazy_weighted_variance_run. change (zero DoubleN) with d_zero. rewrite lazy_wset. unfold dwmean. rewrite !dwmean_is. unfold Wsum at 3. rewrite squared_snd. reflexivity.
Qed.

Lemma squared_weight h : ExactWeight (squared h) = ExactWeight h.
Proof. unfold ExactWeight. rewrite squared_snd. reflexivity. Qed.
Lemma squared_weights c h : Weights c h -> Weights c (squared h).
Proof. intros W. unfold Weights, squared. rewrite Forall_map. exact W. Qed.
Lemma squared_within k h : (-450 <= k)%Z -> (k <= 450)%Z -> Within (bpow radix2 k) (map fst h) -> Within (bpow radix2 (k + k)) (map fst (squared h)).
Proof.
  intros K K' W. destruct (squares_sum k (map fst h) K K' W) as [H _]. unfold squared. rewrite map_map in *. exact H.
Qed.
Lemma squared_sum k c h : (-450 <= k)%Z -> (k <= 450)%Z -> Within (bpow radix2 k) (map fst h) -> Weights c h ->
  Rabs (ExactWeightedSum (squared h) - S2 h) <= (roundoff * (bpow radix2 k * bpow radix2 k) + tiny) * ExactWeight h.
Proof.
  intros K K' H W. induction W as [|[x w] h [_ [P _]] _ IH]; [unfold ExactWeightedSum, S2, ExactWeight, ExactSum; cbn; rewrite Rminus_0_r, Rabs_R0; lra |].
  cbn [map fst snd] in *. inversion H as [|? ? [F B] H']; subst. specialize (IH H'). destruct (square_within k x K K' F B) as (_ & _ & E).
  change (ExactWeightedSum (squared ((x, w) :: h))) with (val (d_mul x x) * val w + ExactWeightedSum (squared h)).
  change (S2 ((x, w) :: h)) with (val w * (val x * val x) + S2 h). change (ExactWeight ((x, w) :: h)) with (val w + ExactWeight h).
  assert (E' := abs_scale _ _ _ P E). apply Rabs_le_inv in E'. apply Rabs_le_inv in IH. apply Rabs_le. lra.
Qed.

Lemma lazy_wvariance_close i j h : Few h -> (-225 <= i)%Z -> (i <= 224)%Z -> (-450 <= j)%Z -> (j <= 450)%Z -> h <> [] ->
  Within (bpow radix2 i) (map fst h) -> Weights (bpow radix2 j) h -> bpow radix2 (-450) <= ExactWeight h ->
  exists v, lazy_weighted_variance_run DoubleN d_zero h = Some v /\ finite v /\
  Rabs (val v - ExactWeightedVariance h) <= 17 * INR (length h) * roundoff * (bpow radix2 i * bpow radix2 i).
Proof.
  intros L I I' J J' N WA WB LW. eexists. split; [apply lazy_wis |].
  assert (Hu := roundoff_small). assert (Ht := tiny_pos). assert (PA := bpow_gt_0 radix2 i).
  assert (P450 := bpow_gt_0 radix2 (-450)). assert (PW : 0 < ExactWeight h) by lra.
  assert (Lq : length (squared h) = length h) by apply map_length.
  destruct (weighted_mean_close (i + i) j (squared h)) as [F2 E2]; try lia.
  { unfold Few. rewrite Lq. exact L. } { destruct h; [congruence | discriminate]. } { apply squared_within; [lia | lia | exact WA]. } { apply squared_weights; exact WB. } { rewrite squared_weight. exact LW. }
  destruct (weighted_mean_close i j h L ltac:(lia) ltac:(lia) J J' N WA WB LW) as [F1 E1].
  fold (dwmean (squared h)) in *. fold (dwmean h) in *. rewrite Lq, bpow_plus in E2.
  assert (SS := squared_sum i _ h ltac:(lia) ltac:(lia) WA WB). destruct (S2_bound _ _ _ WA WB) as [S0 S1].
  assert (B1 := weighted_magnitude_le _ _ h (Rlt_le _ _ PA) WA WB). assert (B2 := weighted_sum_magnitude h).
  assert (Nu := few_samples _ L). assert (N1 : 1 <= INR (length h)) by (replace 1 with (INR 1) by reflexivity; apply le_INR; destruct h; [congruence | cbn; lia]).
  destruct (tiny_small i ltac:(lia)) as [_ T]. rewrite exact_variance_raw by lra.
  set (A := bpow radix2 i) in *. set (n := INR (length h)) in *. set (M := ExactWeightedMean h) in *. set (W := ExactWeight h) in *. assert (QA : 0 < A * A) by nra.
  assert (MB : Rabs M <= A). { unfold M, ExactWeightedMean. fold W. apply abs_quot; lra. }
  assert (S3 : Rabs (ExactWeightedMean (squared h) - S2 h / W) <= roundoff * (A * A) + tiny).
  { unfold ExactWeightedMean. rewrite squared_weight. fold W. apply abs_div; assumption. }
  assert (E2' := close_trans _ _ _ _ _ E2 S3).
  assert (Q0 : Rabs (S2 h / W) <= A * A) by (apply abs_quot; [exact PW | rewrite Rabs_pos_eq; lra]).
  assert (nA : n * roundoff * A <= / 8192 * A) by (apply Rmult_le_compat_r; lra). assert (nQ : n * roundoff * (A * A) <= / 8192 * (A * A)) by (apply Rmult_le_compat_r; lra).
  assert (uQ : roundoff * (A * A) <= n * roundoff * (A * A)) by (apply Rmult_le_compat_r; nra). assert (uQ0 : 0 < roundoff * (A * A)) by nra.
  assert (C1 := close_bound _ _ _ _ E1 MB). assert (C1' : Rabs (val (dwmean h)) <= 1.001 * A) by lra.
  assert (C2 := close_bound _ _ _ _ E2' Q0).
  assert (Bm : below (i + 1) (dwmean h)) by (split; [exact F1 |]; rewrite bpow_plus; change (bpow radix2 1) with 2; fold A; lra).
  destruct (mul_below (i + 1) (i + 1) _ _ ltac:(lia) ltac:(lia) Bm Bm) as [Bp Ep].
  assert (B2A : bpow radix2 (i + 1 + (i + 1)) = 4 * (A * A)) by (rewrite !bpow_plus; change (bpow radix2 1) with 2; fold A; ring).
  assert (Bq : below (i + 1 + (i + 1)) (dwmean (squared h))) by (split; [exact F2 |]; rewrite B2A; lra).
  destruct (sub_below (i + 1 + (i + 1)) _ _ ltac:(lia) ltac:(lia) Bq Bp) as [Bz Ez]. split; [exact (proj1 Bz) |].
  set (p := d_mul (dwmean h) (dwmean h)) in *.
  assert (PP : Rabs (val (dwmean h) * val (dwmean h)) <= 1.01 * (A * A)).
  { rewrite Rabs_mult. apply Rle_trans with ((1.001 * A) * (1.001 * A)); [apply Rmult_le_compat; auto using Rabs_pos | lra]. }
  assert (Ep' := near_le _ _ _ _ _ (Rlt_le _ _ (proj1 Hu)) Ep PP).
  assert (SQ := close_mult _ _ _ _ _ _ _ _ E1 E1 MB C1').
  assert (E3 := close_trans _ _ _ _ _ Ep' SQ).
  assert (X : 4 * n * roundoff * A * (1.001 * A) + A * (4 * n * roundoff * A) <= 8.01 * (n * roundoff * (A * A))) by lra.
  assert (C3 := close_bound _ _ _ _ Ep' PP).
  assert (Ez' : roundoff * Rabs (val (dwmean (squared h)) - val p) <= roundoff * (2.1 * (A * A))).
  { apply Rmult_le_compat_l; [lra |]. eapply Rle_trans; [apply Rabs_triang |]. rewrite Rabs_Ropp. lra. }
  apply Rabs_le_inv in E2'. apply Rabs_le_inv in E3. apply Rabs_le_inv in Ez. apply Rabs_le. lra.
Qed.
