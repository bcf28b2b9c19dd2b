(** The accuracy of the weighted skewness and the weighted kurtosis of doubles. *)
From Coq Require Import ZArith List Bool Reals Lra Lia Arith Psatz.
From Flocq Require Import Core IEEE754.BinarySingleNaN.
From Verif Require Import Num NumFacts ModelBasic ModelRolling ModelRounding ModelDouble SpecStats SpecDouble SpecDoubleVariance SpecDoubleWeighted SpecDoubleWVariance SpecDoubleMoment SpecDoubleShape SpecDoubleWShape ProofBasic ProofBasic2 ProofKahan ProofDouble ProofDouble2 ProofDouble3 ProofDouble4 ProofDoubleEx
  ProofDoubleVariance ProofDoubleVariance2 ProofDoubleVariance3 ProofDoubleVariance4 ProofDoubleWVariance3 ProofDoubleWeighted ProofDoubleWeighted2 ProofDoubleWeighted3 ProofDoubleWVariance ProofDoubleWVariance2 ProofDoubleMoment ProofDoubleMoment2 ProofDoubleRolling3 ProofDoubleRolling4 ProofDoubleError ProofDoubleShape ProofDoubleShape2 ProofDoubleShape3.
Import ListNotations.
Local Open Scope R_scope.

(** ** Weighted sums of reals *)
Lemma weighted_total (f g : R -> R) c l : Forall (fun q => 0 <= snd q /\ Rabs (f (fst q)) <= c * g (fst q)) l ->
  Rabs (total RN (fun q => snd q * f (fst q)) l) <= c * total RN (fun q => snd q * g (fst q)) l.
Proof.
  induction 1 as [|q l [P H] _ IH]; [rewrite !total_nil; cbn [zero RN]; rewrite Rabs_R0; lra |]. rewrite !total_cons. cbn [add RN].
  eapply Rle_trans; [apply Rabs_triang |]. rewrite Rmult_plus_distr_l. apply Rplus_le_compat; [| exact IH].
  rewrite Rabs_mult, (Rabs_pos_eq (snd q)) by exact P. replace (c * (snd q * g (fst q))) with (snd q * (c * g (fst q))) by ring. apply Rmult_le_compat_l; assumption.
Qed.
Lemma waverage_bound (f : R -> R) c l : 0 < TotalWeight RN l -> Forall (fun q => 0 <= snd q /\ Rabs (f (fst q)) <= c) l -> Rabs (waverage RN f l) <= c.
Proof.
  intros P H. unfold waverage. cbn [div RN]. unfold Rdiv. rewrite Rabs_mult, (Rabs_pos_eq (/ _)) by (left; apply Rinv_0_lt_compat; exact P).
  apply Rmult_le_reg_r with (TotalWeight RN l); [exact P |]. rewrite Rmult_assoc, Rinv_l, Rmult_1_r by (cbn [car RN] in *; lra).
  assert (W := weighted_total f (fun _ => 1) c l). eapply Rle_trans; [apply W |].
  - eapply Forall_impl; [| exact H]. intros q [A B]. split; [exact A | lra].
  - right. f_equal. unfold TotalWeight. apply total_ext. intros q _. apply Rmult_1_r.
Qed.
Lemma wcentral_powers b p l : 0 < TotalWeight RN l -> Forall (fun q => 0 <= snd q /\ Rabs (fst q) <= b) l -> Rabs (WCentralMoment RN (S (S p)) l) <= (2 * b) ^ p * WVariance RN l.
Proof.
  intros P H. assert (M : Rabs (WMean RN l) <= b) by (apply (waverage_bound (fun x => x)); assumption).
  unfold WVariance, WCentralMoment. set (m := WMean RN l) in *. unfold waverage. cbn [div RN]. unfold Rdiv. rewrite Rabs_mult, (Rabs_pos_eq (/ _)) by (left; apply Rinv_0_lt_compat; exact P).
  rewrite <- Rmult_assoc. apply Rmult_le_compat_r; [left; apply Rinv_0_lt_compat; exact P |].
  apply (weighted_total (fun x => power RN (x - m) (S (S p))) (fun x => power RN (x - m) 2)). eapply Forall_impl; [| exact H]. intros q [A B]. split; [exact A |]. cbn [sub RN]. rewrite !power_R.
  replace ((fst q - m) ^ S (S p)) with ((fst q - m) ^ p * (fst q - m) ^ 2) by (rewrite <- pow_add; f_equal; lia). rewrite Rabs_mult, (Rabs_pos_eq ((fst q - m) ^ 2)) by apply pow2_ge_0.
  apply Rmult_le_compat_r; [apply pow2_ge_0 |]. rewrite <- RPow_abs. apply pow_incr. split; [apply Rabs_pos |]. apply Rabs_le_inv in B. apply Rabs_le_inv in M. apply Rabs_le. lra.
Qed.

(** ** Weighted moments of several orders *)
Lemma wmoments_set Ns (h : list (double * double)) : Forall (fun N => 1 <= N)%nat Ns -> wmom_set_run DoubleN Ns d_zero d_zero h =
  Some (Build_wmom_set DoubleN (Wsum h) (sum_run DoubleN d_zero (products h)) (map (fun N => sum_run DoubleN d_zero (products (wpw N h))) Ns)).
Proof.
  intros H. induction h as [|[x w] h IH] using rev_ind; [reflexivity |].
  assert (E : wmom_set_run DoubleN Ns d_zero d_zero (h ++ [(x, w)]) = wmom_set_push DoubleN Ns (wmom_set_run DoubleN Ns d_zero d_zero h) (x, w)) by (unfold wmom_set_run; exact (fold_left_app _ h [(x, w)] _)).
  rewrite E, IH. unfold wmom_set_push. cbn [wo_sums wo_W wo_sum fst snd].
  assert (G : weighted_moment_ops DoubleN Ns (map (fun N => sum_run DoubleN d_zero (products (wpw N h))) Ns) x w = Some (map (fun N => sum_run DoubleN d_zero (products (wpw N (h ++ [(x, w)])))) Ns)).
  { clear E IH. induction H as [|N Ns HN _ IH]; [reflexivity |]. cbn [map weighted_moment_ops]. unfold weighted_moment_op. rewrite (npow_pw N x HN), IH.
    unfold wpw, products. rewrite !map_app. cbn [map fst snd]. rewrite !sum_snoc. rewrite (d_mul_comm (pw N x) w). reflexivity. }
  rewrite G. rewrite Wsum_snoc. unfold products. rewrite !map_app. cbn [map fst snd]. rewrite !sum_snoc. reflexivity.
Qed.
Definition the_wmoment N (h : list (double * double)) := wmean_set_mean DoubleN (wmean_set_run DoubleN d_zero d_zero (wpw N h)).
Lemma the_wmoment_1 h : the_wmoment 1 h = d_div (sum_run DoubleN d_zero (products h)) (Wsum h).
Proof. unfold the_wmoment. rewrite dwmean_is, wpw_W. f_equal. f_equal. unfold products, wpw. rewrite map_map. reflexivity. Qed.
Lemma weighted_skewness_is h : weighted_skewness_run DoubleN d_sqrt d_zero h = Some (skewness_result DoubleN d_sqrt (the_wmoment 3 h) (the_wmoment 2 h) (the_wmoment 1 h)).
Proof. unfold weighted_skewness_run. change (zero DoubleN) with d_zero. rewrite wmoments_set by (repeat constructor). rewrite the_wmoment_1. unfold the_wmoment. rewrite !dwmean_is, !wpw_W. reflexivity. Qed.
Lemma weighted_kurtosis_is h : weighted_kurtosis_run DoubleN d_zero h = Some (kurtosis_result DoubleN (the_wmoment 4 h) (the_wmoment 3 h) (the_wmoment 2 h) (the_wmoment 1 h)).
Proof. unfold weighted_kurtosis_run. change (zero DoubleN) with d_zero. rewrite wmoments_set by (repeat constructor). rewrite the_wmoment_1. unfold the_wmoment. rewrite !dwmean_is, !wpw_W. reflexivity. Qed.

(** ** The results *)
Section Weighted.
  Variables (k j : Z) (hs : list (double * double)).
  Hypothesis Hlen : (Z.of_nat (length hs) <= 2 ^ 39)%Z.
  Hypothesis NE : hs <> [].
  Hypothesis K : (-100 <= k <= 100)%Z.
  Hypothesis J : (-450 <= j <= 450)%Z.
  Hypothesis HW : Within (powerRZ 2 k) (map fst hs).
  Hypothesis HS : Weights (powerRZ 2 j) hs.
  Hypothesis LW : / 2 ^ 450 <= ExactWeight hs.
  Hypothesis HV : 2000 * INR (length hs) * roundoff * powerRZ 2 (2 * k) <= ExactWeightedVariance hs.
  Let h := 2 * (INR (length hs) * roundoff).
  Let Hu := roundoff_small.
  Let n1 := one_le hs NE.
  Let Hfew : Few hs. Proof. unfold Few. lia. Qed.
  Let Hh : roundoff <= h <= / 8192.
  Proof.
    assert (F : INR (length hs) * roundoff <= / 16384).
    { assert (N : INR (length hs) <= bpow radix2 39) by (rewrite INR_IZR_INZ; change (bpow radix2 39) with (IZR (2 ^ 39)); apply IZR_le; exact Hlen).
      apply Rle_trans with (bpow radix2 39 * roundoff); [apply Rmult_le_compat_r; lra |]. rewrite roundoff_is. unfold b64_u. rewrite <- bpow_plus. change (39 + -53)%Z with (-14)%Z. cbn. lra. }
    unfold h. split; [| lra]. assert (1 * roundoff <= INR (length hs) * roundoff) by (apply Rmult_le_compat_r; lra). lra.
  Qed.
  Let PW : 0 < TotalWeight RN (reals hs).
  Proof. rewrite reals_weight. eapply Rlt_le_trans; [| exact LW]. apply Rinv_0_lt_compat, pow_lt. lra. Qed.
  Let B := bpow radix2 k.
  Let bounded : Forall (fun q => 0 <= snd q /\ Rabs (fst q) <= B) (reals hs).
  Proof.
    unfold reals. apply Forall_map. apply Forall_forall. intros p I. cbn [fst snd]. unfold Weights in HS. rewrite Forall_forall in HS. destruct (HS p I) as [_ [P _]]. split; [exact P |].
    unfold B. rewrite (bpow_powerRZ radix2). assert (W := HW). unfold Within in W. rewrite Forall_forall in W. apply (W (fst p)). apply in_map. exact I.
  Qed.
  Lemma wmoments_app i : (1 <= i <= 4)%nat -> App k h i (the_wmoment i hs) (WMoment RN i (reals hs)) 1 (2 * (1 + INR i)).
  Proof.
    intros I. destruct (weighted_moment_accurate i k j hs ltac:(lia) Hfew NE ltac:(nia) J HW HS LW) as (v & Ev & Fv & Av). rewrite weighted_moment_is in Ev by lia. injection Ev as <-. fold (the_wmoment i hs) in *.
    rewrite <- !(bpow_powerRZ radix2) in Av. fold (up k i) in Av. assert (P := up_pos k i). assert (i0 := pos_INR i).
    split; [exact Fv |]. split.
    - rewrite Rmult_1_l. unfold WMoment. apply (waverage_bound (fun x => power RN x i)); [exact PW |]. eapply Forall_impl; [| exact bounded]. intros q [A H]. split; [exact A |].
      rewrite power_R, <- RPow_abs, up_pow. apply pow_incr. split; [apply Rabs_pos | exact H].
    - eapply Rle_trans; [exact Av |]. unfold h. replace (2 * (1 + INR i) * (2 * (INR (length hs) * roundoff) * up k i)) with (4 * (INR (length hs) + INR i * INR (length hs)) * (roundoff * up k i)) by ring.
      rewrite Rmult_assoc. apply Rmult_le_compat_r; [apply Rmult_le_pos; lra |]. nra.
  Qed.
  Ltac num := cbn; lra.
  Let M := WMean RN (reals hs).
  Let first : WMoment RN 1 (reals hs) = M.
  Proof. unfold M, WMoment, WMean, waverage. f_equal. apply total_ext. intros q _. apply (f_equal (Rmult (snd q))). rewrite power_R. apply pow_1. Qed.
  Let A1 : App k h 1 (the_wmoment 1 hs) M 1 4. Proof. rewrite <- first. replace 4 with (2 * (1 + INR 1)) by num. apply wmoments_app. lia. Qed.
  Let A2 : App k h 2 (the_wmoment 2 hs) (WMoment RN 2 (reals hs)) 1 6. Proof. replace 6 with (2 * (1 + INR 2)) by num. apply wmoments_app. lia. Qed.
  Let A3 : App k h 3 (the_wmoment 3 hs) (WMoment RN 3 (reals hs)) 1 8. Proof. replace 8 with (2 * (1 + INR 3)) by num. apply wmoments_app. lia. Qed.
  Let A4 : App k h 4 (the_wmoment 4 hs) (WMoment RN 4 (reals hs)) 1 10. Proof. replace 10 with (2 * (1 + INR 4)) by num. apply wmoments_app. lia. Qed.
  Let V := ExactWeightedVariance hs.
  Let PW' : TotalWeight RN (reals hs) <> 0. Proof. cbn [car RN] in *. lra. Qed.
  Let raw2 : V = WMoment RN 2 (reals hs) - M * M.
  Proof. unfold V, ExactWeightedVariance. fold (reals hs). rewrite (WVariance_raw RN RN_field) by exact PW'. reflexivity. Qed.
  Let raw3 : WCentralMoment RN 3 (reals hs) = WMoment RN 3 (reals hs) - 3 * WMoment RN 2 (reals hs) * M + 2 * M * M * M.
  Proof. rewrite (wcentral3_raw RN RN_field) by exact PW'. rewrite !R_ofnat. fold M. cbn [add sub mul RN]. replace (INR 3) with 3 by num. replace (INR 2) with 2 by num. reflexivity. Qed.
  Let raw4 : WCentralMoment RN 4 (reals hs) = WMoment RN 4 (reals hs) - 4 * WMoment RN 3 (reals hs) * M + 6 * WMoment RN 2 (reals hs) * M * M - 3 * M * M * M * M.
  Proof. rewrite (wcentral4_raw RN RN_field) by exact PW'. rewrite !R_ofnat. fold M. cbn [add sub mul RN]. replace (INR 3) with 3 by num. replace (INR 4) with 4 by num. replace (INR 6) with 6 by num. reflexivity. Qed.
  Let up_is i : up k i = powerRZ 2 (Z.of_nat i * k). Proof. rewrite <- (bpow_powerRZ radix2). unfold up. f_equal. lia. Qed.
  Let HV' : 1000 * (h * up k 2) <= V <= up k 2.
  Proof.
    split; [rewrite up_is; unfold h; eapply Rle_trans; [| exact HV]; right; change (Z.of_nat 2) with 2%Z; ring |].
    destruct A2 as (_ & H & _). apply Rabs_le_inv in H. rewrite raw2. assert (Q := Rle_0_sqr M). unfold Rsqr in Q. cbn [car RN] in *. lra.
  Qed.
  Let K' : (-200 <= k <= 200)%Z. Proof. lia. Qed.
  Let B1 : B = up k 1. Proof. unfold B, up. f_equal. lia. Qed.
  Lemma weighted_skewness_accurate : exists g, weighted_skewness_run DoubleN d_sqrt d_zero hs = Some g /\ finite g /\
    Rabs (val g - ExactWeightedSkewness hs) * sqrt (ExactWeightedVariance hs) ^ 3 <= 340 * INR (length hs) * roundoff * powerRZ 2 (3 * k).
  Proof.
    eexists. split; [exact (weighted_skewness_is hs) |]. destruct (below_close k h _ _ _ _ K' Hh A1 A2) as (Fd & _ & Ed). rewrite <- raw2 in Ed. destruct (third_close k h _ _ _ _ _ _ K' Hh A1 A2 A3) as (Fn & _ & En). rewrite <- raw3 in En.
    assert (C := wcentral_powers _ 1 _ PW bounded). rewrite pow_1, B1 in C.
    destruct (skewness_quotient k h _ _ K' Hh HV' Fd Ed _ _ Fn En C) as [F E]. split; [exact F |].
    assert (P : 0 < V) by (assert (0 < h * up k 2) by (apply Rmult_lt_0_compat; [lra | apply up_pos]); lra).
    unfold ExactWeightedSkewness. fold (reals hs). fold V. replace (sqrt V ^ 3) with (V * sqrt V) by (rewrite <- (sqrt_sqrt V) at 1 by lra; ring).
    eapply Rle_trans; [exact E |]. right. rewrite up_is. unfold h. change (Z.of_nat 3) with 3%Z. ring.
  Qed.
  Lemma weighted_kurtosis_accurate : exists g, weighted_kurtosis_run DoubleN d_zero hs = Some g /\ finite g /\
    Rabs (val g - ExactWeightedKurtosis hs) * ExactWeightedVariance hs ^ 2 <= 900 * INR (length hs) * roundoff * powerRZ 2 (4 * k).
  Proof.
    eexists. split; [exact (weighted_kurtosis_is hs) |]. destruct (below_close k h _ _ _ _ K' Hh A1 A2) as (Fd & _ & Ed). rewrite <- raw2 in Ed. destruct (fourth_close k h _ _ _ _ _ _ _ _ K' Hh A1 A2 A3 A4) as (Fn & _ & En). rewrite <- raw4 in En.
    assert (C := wcentral_powers _ 2 _ PW bounded). rewrite B1 in C.
    destruct (kurtosis_quotient k h _ _ K' Hh HV' Fd Ed _ _ Fn En C) as [F E]. split; [exact F |].
    unfold ExactWeightedKurtosis. fold (reals hs). fold V. replace (V ^ 2) with (V * V) by ring.
    eapply Rle_trans; [exact E |]. right. rewrite up_is. unfold h. change (Z.of_nat 4) with 4%Z. ring.
  Qed.
End Weighted.

(** ** Example *)
Lemma weighted_shape_ok : let hs := [(dbl 7 0, d_one); (dbl (-3) 0, dbl 7 0); (dbl 7 0, d_one)] in
  (Z.of_nat (length hs) <= 2 ^ 39)%Z /\ hs <> [] /\ Within (powerRZ 2 3) (map fst hs) /\ Weights (powerRZ 2 3) hs /\ / 2 ^ 450 <= ExactWeight hs /\
  2000 * INR (length hs) * roundoff * powerRZ 2 (2 * 3) <= ExactWeightedVariance hs /\ ExactWeightedVariance hs = 1400 / 81.
Proof.
  cbv zeta. destruct integer_moments_ok as [A _].
  assert (G : forall x y z, Are [7; -3; 7]%Z [x; y; z] -> (finite x /\ val x = 7) /\ (finite y /\ val y = -3)).
  { intros x y z H. inversion H as [|? ? ? ? H1 H2]; subst. inversion H2 as [|? ? ? ? H3 _]; subst. split; assumption. }
  destruct (G _ _ _ A) as [[F1 V1] [F2 V2]]. assert (V0 : val d_one = 1) by exact one_value. assert (us := roundoff_tiny).
  assert (P3 : powerRZ 2 3 = 8) by (change (powerRZ 2 3) with (2 ^ 3); ring).
  assert (EV : ExactWeightedVariance [(dbl 7 0, d_one); (dbl (-3) 0, dbl 7 0); (dbl 7 0, d_one)] = 1400 / 81).
  { unfold ExactWeightedVariance, WVariance, WCentralMoment, waverage, TotalWeight. cbn [map fst snd]. unfold WMean, waverage, TotalWeight. rewrite V0, V1, V2. rewrite !total_cons, !total_nil. cbn [add mul sub div zero RN fst snd]. cbn [power mul one add sub zero RN]. match goal with |- ?a = ?b => change (@eq R a b) end. cbn [pow]. field. }
  split; [vm_compute; discriminate |]. split; [discriminate |]. split.
  { rewrite P3. destruct sevens_ok as (_ & _ & _ & W & _). exact W. }
  split. { rewrite P3. repeat constructor; cbn [snd]; try exact F1; try lra; reflexivity. }
  split. { change (ExactWeight [(dbl 7 0, d_one); (dbl (-3) 0, dbl 7 0); (dbl 7 0, d_one)]) with (val d_one + (val (dbl 7 0) + (val d_one + 0))). rewrite V0, V1.
    apply Rle_trans with 1; [rewrite <- Rinv_1; apply Rinv_le; [lra |]; apply pow_R1_Rle; lra | lra]. }
  split; [| exact EV]. rewrite EV. change (length [(dbl 7 0, d_one); (dbl (-3) 0, dbl 7 0); (dbl 7 0, d_one)]) with 3%nat. replace (INR 3) with 3 by (cbn; lra).
  replace (powerRZ 2 (2 * 3)) with 64 by (change (powerRZ 2 (2 * 3)) with (2 ^ 6); ring). lra.
Qed.
