(** The accuracy of weighted means of doubles. *)
From Coq Require Import ZArith List Bool Reals Lra Lia Arith Psatz Permutation.
From Flocq Require Import Core IEEE754.BinarySingleNaN.
From Verif Require Import Num NumFacts ModelBasic ModelRounding ModelDouble SpecStats SpecDouble SpecDoubleVariance SpecDoubleWeighted ProofBasic ProofBasic2 ProofKahan ProofDouble ProofDouble2 ProofDouble3 ProofDoubleEx ProofDoubleVariance ProofDoubleVariance2 ProofDoubleVariance3 ProofDoubleVariance4 ProofDoubleCovariance ProofDoubleWeighted.
Import ListNotations.
Local Open Scope R_scope.

Definition Wsum (h : list (double * double)) : double := sum_run DoubleN d_zero (map snd h).
Lemma weights_within c h : Weights c h -> Within c (map snd h).
Proof. induction 1 as [|p h [F B] _ IH]; constructor; [| exact IH]. split; [exact F |]. apply Rabs_le. lra. Qed.
Lemma count_below n : (Z.of_nat n <= 2 ^ 40)%Z -> INR n <= bpow radix2 40.
Proof. intros L. rewrite INR_IZR_INZ, <- IZR_Zpower by lia. apply IZR_le. exact L. Qed.
Lemma weight_close j h : Few h -> (-450 <= j)%Z -> (j <= 450)%Z -> Weights (bpow radix2 j) h ->
  below (j + 40) (Wsum h) /\ Rabs (val (Wsum h) - ExactWeight h) <= 1.02 * (INR (length h) * roundoff) * ExactWeight h.
Proof.
  intros L J J' W. assert (Ww := weights_within _ _ W). assert (C : Countable (map snd h)) by (apply few_countable; rewrite map_length; exact L).
  destruct (sum_within j (map snd h) C ltac:(lia) ltac:(lia) Ww) as [F B]. destruct (weights_magnitude _ _ W) as [M M0].
  split.
  - split; [exact F |]. eapply Rle_trans; [exact B |]. rewrite map_length, Z.add_comm, bpow_plus. apply Rmult_le_compat_r; [apply bpow_ge_0 | apply count_below; exact L].
  - assert (E := sum_error _ F). eapply Rle_trans; [exact E |]. apply Rle_trans with (((1 + roundoff) ^ length h - 1) * ExactWeight h).
    + apply Rmult_le_compat; [match goal with |- 0 <= _ ^ ?k - 1 => pose proof (pow_ge_1 k); lra end | apply magnitude_nonneg | | right; exact M].
      apply Rplus_le_compat_r. apply Rle_pow; [assert (H := roundoff_small); lra | rewrite map_length; lia].
    + apply Rmult_le_compat_r; [exact M0 |]. apply pow_close. assert (H := few_samples _ L). lra.
Qed.
Lemma weighted_magnitude_le a c h : 0 <= a -> Within a (map fst h) -> Weights c h -> WeightedMagnitude h <= a * ExactWeight h.
Proof.
  intros A H W. induction W as [|[x w] h [_ [P _]] _ IH]; [unfold WeightedMagnitude, ExactWeight, ExactSum; cbn; lra |].
  cbn [map fst snd] in *. inversion H as [|? ? [_ B] H']; subst. specialize (IH H').
  change (WeightedMagnitude ((x, w) :: h)) with (Rabs (val x * val w) + WeightedMagnitude h). change (ExactWeight ((x, w) :: h)) with (val w + ExactWeight h).
  rewrite Rabs_mult, (Rabs_pos_eq (val w)) by exact P. assert (Rabs (val x) * val w <= a * val w) by (apply Rmult_le_compat_r; assumption). lra.
Qed.
Lemma weighted_sum_magnitude h : Rabs (ExactWeightedSum h) <= WeightedMagnitude h.
Proof.
  induction h as [|[x w] h IH]; [unfold WeightedMagnitude, ExactWeightedSum; cbn; rewrite Rabs_R0; lra |].
  change (WeightedMagnitude ((x, w) :: h)) with (Rabs (val x * val w) + WeightedMagnitude h). change (ExactWeightedSum ((x, w) :: h)) with (val x * val w + ExactWeightedSum h).
  eapply Rle_trans; [apply Rabs_triang |]. lra.
Qed.
Lemma products_within i j h : (-450 <= i)%Z -> (i <= 450)%Z -> (-450 <= j)%Z -> (j <= 450)%Z -> Within (bpow radix2 i) (map fst h) -> Weights (bpow radix2 j) h ->
  Within (bpow radix2 (i + j)) (products h).
Proof.
  intros I I' J J' H W. induction W as [|[x w] h [F [P Q]] _ IH]; [constructor |]. cbn [map fst snd] in *. inversion H as [|? ? Bx H']; subst.
  constructor; [| apply IH; exact H']. cbn [fst snd]. apply (mul_below i j x w); try lia; [exact Bx |]. split; [exact F |]. rewrite Rabs_pos_eq; assumption.
Qed.

Lemma quotient_close A W V S s e th : 0 < A -> 0 < W -> 0 <= e <= / 100 -> 0 <= th <= / 100 -> Rabs (V - W) <= th * W -> Rabs S <= A * W -> Rabs (s - S) <= e * (A * W) ->
  0 < V /\ Rabs (s / V) <= 1.1 * A /\ Rabs (s / V - S / W) <= 1.02 * (e + th) * A.
Proof.
  intros HA HW He Hth HV HS Hs. assert (HV1 := Rabs_le_inv _ _ HV). assert (thW : th * W <= / 100 * W) by (apply Rmult_le_compat_r; lra). assert (AW : 0 < A * W) by nra.
  assert (P : 0 < V) by lra. split; [exact P |].
  assert (eAW : e * (A * W) <= / 100 * (A * W)) by (apply Rmult_le_compat_r; lra).
  assert (B := close_bound _ _ _ _ Hs HS). assert (AV : 0.99 * (A * W) <= A * V) by nra.
  split.
  - unfold Rdiv. rewrite Rabs_mult, (Rabs_pos_eq (/ V)) by (left; apply Rinv_0_lt_compat; lra). apply Rmult_le_reg_r with V; [lra |]. rewrite Rmult_assoc, Rinv_l by lra. lra.
  - replace (s / V - S / W) with (((s - S) + S / W * (W - V)) * / V) by (field; lra).
    rewrite Rabs_mult, (Rabs_pos_eq (/ V)) by (left; apply Rinv_0_lt_compat; lra). apply Rmult_le_reg_r with V; [lra |]. rewrite Rmult_assoc, Rinv_l, Rmult_1_r by lra.
    assert (Q1 : Rabs (S / W) <= A).
    { unfold Rdiv. rewrite Rabs_mult, (Rabs_pos_eq (/ W)) by (left; apply Rinv_0_lt_compat; lra). apply Rmult_le_reg_r with W; [lra |]. rewrite Rmult_assoc, Rinv_l by lra. lra. }
    assert (Q2 : Rabs (S / W * (W - V)) <= A * (th * W)) by (rewrite Rabs_mult; apply Rmult_le_compat; auto using Rabs_pos; rewrite Rabs_minus_sym; exact HV).
    eapply Rle_trans; [apply Rabs_triang |]. assert (X : (e + th) * (A * W) <= 1.02 * (e + th) * (A * V)).
    { assert (0 <= e + th) by lra. assert ((e + th) * (0.99 * (A * W)) <= (e + th) * (A * V)) by (apply Rmult_le_compat_l; lra). nra. }
    nra.
Qed.
Lemma tiny_weight i : (-450 <= i)%Z -> 1000 * bpow radix2 40 * tiny <= / 4 * (roundoff * (bpow radix2 i * bpow radix2 (-450))).
Proof.
  intros I. rewrite tiny_is, roundoff_is. unfold b64_u. change (/ 2) with (bpow radix2 (-1)). change (/ 4) with (bpow radix2 (-2)).
  apply Rle_trans with (bpow radix2 10 * bpow radix2 40 * (bpow radix2 (-1) * bpow radix2 (-1074))).
  - apply Rmult_le_compat_r; [apply Rmult_le_pos; apply bpow_ge_0 |]. apply Rmult_le_compat_r; [apply bpow_ge_0 |]. change (bpow radix2 10) with 1024. lra.
  - rewrite <- !bpow_plus. apply bpow_le. lia.
Qed.
Lemma dwmean_is h : wmean_set_mean DoubleN (wmean_set_run DoubleN d_zero d_zero h) = d_div (sum_run DoubleN d_zero (products h)) (Wsum h).
Proof. rewrite wmean_set_is. reflexivity. Qed.

Lemma weighted_mean_close i j h : Few h -> (-450 <= i)%Z -> (i <= 450)%Z -> (-450 <= j)%Z -> (j <= 450)%Z -> h <> [] ->
  Within (bpow radix2 i) (map fst h) -> Weights (bpow radix2 j) h -> bpow radix2 (-450) <= ExactWeight h ->
  let m := wmean_set_mean DoubleN (wmean_set_run DoubleN d_zero d_zero h) in
  finite m /\ Rabs (val m - ExactWeightedMean h) <= 4 * INR (length h) * roundoff * bpow radix2 i.
Proof.
  intros L I I' J J' N WA WB LW. cbv zeta. rewrite dwmean_is. assert (Hu := roundoff_small). assert (Ht := tiny_pos).
  destruct (weight_close j h L J J' WB) as [[Fw _] Ew]. assert (WP := products_within i j h I I' J J' WA WB).
  assert (Lp : length (products h) = length h) by apply map_length.
  destruct (sum_within (i + j) (products h)) as [Fs _]; [apply few_countable; rewrite Lp; exact L | lia | lia | exact WP |].
  assert (Es := weighted_sum_error h). rewrite wmean_set_is in Es. cbn [wm_sum] in Es. specialize (Es Fs).
  assert (PA := bpow_gt_0 radix2 i). set (A := bpow radix2 i) in *.
  assert (Ms := weighted_magnitude_le A _ h (Rlt_le _ _ PA) WA WB). assert (Sm := weighted_sum_magnitude h).
  assert (N1 : 1 <= INR (length h)). { replace 1 with (INR 1) by reflexivity. apply le_INR. destruct h; [congruence | cbn; lia]. }
  assert (Nu := few_samples _ L). assert (PW : 0 < ExactWeight h) by (assert (H := bpow_gt_0 radix2 (-450)); lra).
  assert (G := pow_close (length h) ltac:(lra)). assert (G1 := pow_ge_1 (length h)).
  assert (T := tiny_weight i I). fold A in T. assert (C40 := count_below _ L).
  set (n := INR (length h)) in *. set (W := ExactWeight h) in *. set (g := (1 + roundoff) ^ length h) in *. set (s := sum_run DoubleN d_zero (products h)) in *.
  assert (AW : 0 < A * W) by (apply Rmult_lt_0_compat; assumption). assert (M0 := weighted_magnitude_nonneg h).
  assert (T1 : 1000 * (n * tiny) <= / 4 * (roundoff * (A * W))).
  { apply Rle_trans with (1000 * bpow radix2 40 * tiny); [nra |]. eapply Rle_trans; [exact T |]. apply Rmult_le_compat_l; [lra |]. apply Rmult_le_compat_l; [lra |]. apply Rmult_le_compat_l; lra. }
  assert (Es' : Rabs (val s - ExactWeightedSum h) <= 1.03 * (n * roundoff) * (A * W)).
  { eapply Rle_trans; [exact Es |]. assert (X1 : (g - 1) * WeightedMagnitude h <= 1.02 * (n * roundoff) * (A * W)) by (apply Rmult_le_compat; lra).
    assert (n0 : 0 <= n * tiny) by nra. assert (X2 : g * n * tiny <= 2 * (n * tiny)) by (rewrite Rmult_assoc; apply Rmult_le_compat_r; lra).
    assert (X3 : roundoff * (A * W) <= n * roundoff * (A * W)) by (apply Rmult_le_compat_r; nra). lra. }
  destruct (quotient_close A W (val (Wsum h)) (ExactWeightedSum h) (val s) (1.03 * (n * roundoff)) (1.02 * (n * roundoff))) as (PV & Q1 & Q2); try assumption; try lra; try (split; [nra | lra]).
  assert (Q1' : Rabs (val s / val (Wsum h)) <= bpow radix2 (i + 1)) by (rewrite bpow_plus; change (bpow radix2 1) with 2; fold A; lra).
  destruct (fits _ (i + 1) ltac:(lia) ltac:(lia) Q1') as [_ F1].
  destruct (div_ok s (Wsum h)) as [F E]; [unfold val in PV; lra | exact Fs | exact F1 |]. split; [exact F |].
  unfold val at 1. rewrite E. fold (val s) (val (Wsum h)).
  assert (R := near_le _ _ _ _ _ (Rlt_le _ _ (proj1 Hu)) (round_near (val s / val (Wsum h))) Q1).
  assert (R' := close_trans _ _ _ _ _ R Q2). unfold ExactWeightedMean. fold W. eapply Rle_trans; [exact R' |].
  destruct (tiny_small i I) as [T2 _]. fold A in T2. assert (uA : 0 <= roundoff * A) by nra. assert (nuA : roundoff * A <= n * roundoff * A) by (apply Rmult_le_compat_r; nra). lra.
Qed.

(** ** The immediate weighted mean *)
Definition dimean (h : list (double * double)) : double := wv_mean DoubleN (wvar_set_run DoubleN d_zero d_zero h).
Lemma wvar_weight h : wv_W DoubleN (wvar_set_run DoubleN d_zero d_zero h) = Wsum h.
Proof.
  unfold Wsum. induction h as [|[x w] h IH] using rev_ind; [reflexivity |]. unfold wvar_set_run in *. rewrite fold_left_app, map_app. cbn [fold_left map snd].
  rewrite sum_snoc. cbn [wvar_set_push wv_W]. rewrite IH. reflexivity.
Qed.
Lemma Wsum_snoc h x w : Wsum (h ++ [(x, w)]) = d_add (Wsum h) w.
Proof. unfold Wsum. rewrite map_app. cbn [map snd]. apply sum_snoc. Qed.
Lemma dimean_snoc h x w : dimean (h ++ [(x, w)]) =
  d_div (d_add (d_mul (dimean h) (d_sub (Wsum (h ++ [(x, w)])) w)) (d_mul x w)) (Wsum (h ++ [(x, w)])).
Proof.
  assert (E := wvar_weight h). rewrite Wsum_snoc, <- E. unfold dimean, wvar_set_run. rewrite fold_left_app. reflexivity.
Qed.
Definition Lead (h : list (double * double)) : Prop := match h with [] => True | p :: _ => bpow radix2 (-450) <= val (snd p) end.
Lemma exact_weight_snoc h x w : ExactWeight (h ++ [(x, w)]) = ExactWeight h + val w.
Proof. unfold ExactWeight. rewrite map_app. cbn [map snd]. apply exact_snoc. Qed.
Lemma exact_weighted_sum_snoc h x w : ExactWeightedSum (h ++ [(x, w)]) = ExactWeightedSum h + val x * val w.
Proof. exact (total_snoc RN RN_field (fun p => val (fst p) * val (snd p)) h (x, w)). Qed.
Lemma lead_weight c h : h <> [] -> Lead h -> Weights c h -> bpow radix2 (-450) <= ExactWeight h.
Proof.
  intros N H W. destruct h as [|[x w] h]; [congruence |]. inversion W as [|? ? _ W']; subst. destruct (weights_magnitude _ _ W') as [_ P].
  change (ExactWeight ((x, w) :: h)) with (val w + ExactWeight h). cbn [Lead snd] in H. lra.
Qed.
Lemma exact_mean_bound a c h : 0 <= a -> Lead h -> Within a (map fst h) -> Weights c h -> Rabs (ExactWeightedMean h) <= a /\ ExactWeightedMean h * ExactWeight h = ExactWeightedSum h.
Proof.
  intros A H WA WB. destruct h as [|p h].
  - unfold ExactWeightedMean, ExactWeightedSum, ExactWeight, ExactSum. cbn. unfold Rdiv. rewrite !Rmult_0_l, Rabs_R0. split; [exact A | reflexivity].
  - set (g := p :: h) in *. assert (LW := lead_weight _ g ltac:(discriminate) H WB). assert (P : 0 < ExactWeight g) by (assert (Q := bpow_gt_0 radix2 (-450)); lra).
    assert (B1 := weighted_magnitude_le a _ g A WA WB). assert (B2 := weighted_sum_magnitude g). unfold ExactWeightedMean. split; [| field; lra].
    unfold Rdiv. rewrite Rabs_mult, (Rabs_pos_eq (/ _)) by (left; apply Rinv_0_lt_compat; lra). apply Rmult_le_reg_r with (ExactWeight g); [lra |]. rewrite Rmult_assoc, Rinv_l by lra. lra.
Qed.

Lemma immediate_close i j h : Few h -> (-450 <= i)%Z -> (i <= 450)%Z -> (-450 <= j)%Z -> (j <= 450)%Z ->
  Within (bpow radix2 i) (map fst h) -> Weights (bpow radix2 j) h -> Lead h ->
  finite (dimean h) /\ Rabs (val (dimean h) - ExactWeightedMean h) <= 12 * (INR (length h) * roundoff) * bpow radix2 i.
Proof.
  intros L I I' J J'. assert (Hu := roundoff_small). assert (Ht := tiny_pos). assert (PA := bpow_gt_0 radix2 i). set (A := bpow radix2 i) in *.
  induction h as [|[x w] h IH] using rev_ind; intros WA WB H.
  { split; [reflexivity |]. unfold ExactWeightedMean, ExactWeightedSum. cbn. unfold Rdiv. rewrite Rmult_0_l, Rminus_0_r, Rabs_R0. lra. }
  assert (Ls : length (h ++ [(x, w)]) = S (length h)) by (rewrite app_length; cbn; lia).
  assert (L0 : Few h) by (unfold Few in *; rewrite Ls in L; lia).
  assert (H0 : Lead h) by (destruct h; [exact Logic.I | exact H]).
  assert (LW := lead_weight _ (h ++ [(x, w)]) ltac:(destruct h; discriminate) H WB). rewrite exact_weight_snoc in LW.
  assert (WA0 := WA). rewrite map_app in WA0. cbn [map fst] in WA0. apply Forall_app in WA0 as [WA0 Wx]. inversion Wx as [|? ? Bx _]; subst.
  assert (WB0 := WB). apply Forall_app in WB0 as [WB0 Ww]. inversion Ww as [|? ? [Fw [P Q]] _]; subst. cbn [snd] in Fw, P, Q.
  destruct (IH L0 WA0 WB0 H0) as [Fm Em]. destruct (exact_mean_bound A _ h (Rlt_le _ _ PA) H0 WA0 WB0) as [Bm Sm].
  destruct (weight_close j h L0 J J' WB0) as [BV EV]. destruct (weights_magnitude _ _ WB0) as [_ W0].
  assert (Nu := few_samples _ L). rewrite Ls, S_INR in Nu. assert (n0 := pos_INR (length h)).
  rewrite Ls, S_INR. set (n := INR (length h)) in *.
  assert (nu0 : 0 <= n * roundoff) by nra. assert (PW : 0 < ExactWeight h + val w) by (assert (Q' := bpow_gt_0 radix2 (-450)); lra).
  assert (Bw : below (j + 40) w) by (split; [exact Fw |]; rewrite Rabs_pos_eq by exact P; eapply Rle_trans; [exact Q | apply bpow_le; lia]).
  (* the operations *)
  destruct (add_below (j + 40) _ _ ltac:(lia) ltac:(lia) BV Bw) as [BV' EV'].
  rewrite dimean_snoc. rewrite Wsum_snoc. set (V' := d_add (Wsum h) w) in *.
  assert (Bw' : below (j + 40 + 1) w) by (apply below_le with (j + 40)%Z; [lia | exact Bw]).
  destruct (sub_below (j + 40 + 1) _ _ ltac:(lia) ltac:(lia) BV' Bw') as [Bd Ed].
  assert (nuA : n * roundoff * A <= / 8192 * A) by (apply Rmult_le_compat_r; lra).
  assert (Mb : Rabs (val (dimean h)) <= 1.1 * A) by (assert (C := close_bound _ _ _ _ Em Bm); lra).
  assert (Bm' : below (i + 1) (dimean h)) by (split; [exact Fm |]; rewrite bpow_plus; change (bpow radix2 1) with 2; fold A; lra).
  destruct (mul_below (i + 1) (j + 40 + 1 + 1) _ _ ltac:(lia) ltac:(lia) Bm' Bd) as [Ba Ea].
  destruct (mul_below i (j + 40) x w ltac:(lia) ltac:(lia) Bx Bw) as [Bp Ep].
  assert (Ba' : below (i + j + 43) (d_mul (dimean h) (d_sub V' w))) by (apply below_le with (i + 1 + (j + 40 + 1 + 1))%Z; [lia | exact Ba]).
  assert (Bp' : below (i + j + 43) (d_mul x w)) by (apply below_le with (i + (j + 40))%Z; [lia | exact Bp]).
  destruct (add_below (i + j + 43) _ _ ltac:(lia) ltac:(lia) Ba' Bp') as [Bs Es].
  set (a := d_mul (dimean h) (d_sub V' w)) in *. set (p := d_mul x w) in *. set (s := d_add a p) in *.
  assert (Hth : 0 <= 1.02 * (n * roundoff) <= / 100) by (split; lra).
  assert (Vl : 0.99 * ExactWeight h <= val (Wsum h)).
  { apply Rabs_le_inv in EV. assert (1.02 * (n * roundoff) * ExactWeight h <= / 100 * ExactWeight h) by (apply Rmult_le_compat_r; lra). lra. }
  destruct (tiny_small i I) as [T1 _]. fold A in T1. assert (T := tiny_weight i I). fold A in T.
  assert (T2 : 1000 * tiny <= roundoff * (A * (val (Wsum h) + val w))).
  { assert (0 < A * bpow radix2 (-450)) by (apply Rmult_lt_0_compat; [exact PA | apply bpow_gt_0]).
    apply Rle_trans with (1000 * bpow radix2 40 * tiny).
    - assert (1 <= bpow radix2 40) by (change 1 with (bpow radix2 0); apply bpow_le; lia). nra.
    - eapply Rle_trans; [exact T |]. rewrite <- Rmult_assoc, (Rmult_comm (/ 4)), Rmult_assoc. apply Rmult_le_compat_l; [lra |].
      rewrite <- Rmult_assoc, (Rmult_comm (/ 4)), Rmult_assoc. apply Rmult_le_compat_l; [lra |]. lra. }
  assert (Hu' : 0 < roundoff <= / 1000). { split; [lra |]. assert (n * roundoff + roundoff <= / 8192) by lra. lra. }
  destruct (wmean_arg A roundoff tiny (1.02 * (n * roundoff)) PA Hu' (Rlt_le _ _ Ht) Hth (ExactWeight h) (val w) (val V') (val (Wsum h)) W0 P PW EV EV' T1 T2
    (val (dimean h)) (val (d_sub V' w)) (val a) (val p) (val s) (val x) Mb (proj2 Bx) Ed Ea Ep Es) as (PV & Q1 & Q2).
  assert (Em' : Rabs (val (dimean h) - ExactWeightedMean h) <= 2 * A * (1.02 * (n * roundoff)) + 9.96 * (n * roundoff * A)) by lra.
  assert (Q3 := wmean_shift A (1.02 * (n * roundoff)) Hth (ExactWeight h) (val w) (val (Wsum h)) W0 P PW EV (val (dimean h)) (ExactWeightedMean h) (val x) _ Em' ltac:(nra) Bm (proj2 Bx)).
  assert (Q1' : Rabs (val s / val V') <= bpow radix2 (i + 1)) by (rewrite bpow_plus; change (bpow radix2 1) with 2; fold A; lra).
  destruct (fits _ (i + 1) ltac:(lia) ltac:(lia) Q1') as [_ F1].
  destruct (div_ok s V') as [F E]; [unfold val in PV; lra | exact (proj1 Bs) | exact F1 |]. split; [exact F |].
  unfold val at 1. rewrite E. fold (val s) (val V').
  assert (R := near_le _ _ _ _ _ (Rlt_le _ _ (proj1 Hu)) (round_near (val s / val V')) Q1).
  assert (R' := close_trans _ _ _ _ _ (close_trans _ _ _ _ _ R Q2) Q3).
  replace (ExactWeightedMean (h ++ [(x, w)])) with ((ExactWeightedMean h * ExactWeight h + val x * val w) / (ExactWeight h + val w)).
  2:{ rewrite Sm. unfold ExactWeightedMean. rewrite exact_weight_snoc, exact_weighted_sum_snoc. reflexivity. }
  eapply Rle_trans; [exact R' |]. assert (0 <= roundoff * A) by nra. lra.
Qed.
