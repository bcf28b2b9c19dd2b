(** Rolling statistics of doubles, full window or not, and the lazy rolling variance. *)
From Coq Require Import ZArith List Bool Reals Lra Lia Arith Psatz.
From Flocq Require Import Core IEEE754.BinarySingleNaN.
From Verif Require Import Num NumFacts ModelBasic ModelRolling ModelRounding ModelDouble SpecStats SpecRolling SpecDouble SpecDoubleVariance SpecDoubleMoment SpecDoubleRolling ProofBasic ProofBasic2 ProofRolling ProofKahan ProofDouble ProofDouble2 ProofDouble3 ProofDouble4 ProofDouble5 ProofDoubleEx
  ProofDoubleVariance ProofDoubleVariance2 ProofDoubleVariance3 ProofDoubleVariance4 ProofDoubleMoment ProofDoubleMoment2 ProofDoubleRolling ProofDoubleRolling2 ProofDoubleRolling3.
Import ListNotations.
Local Open Scope R_scope.

Lemma lastN_all {A} N (xs : list A) : (length xs <= N)%nat -> LastN N xs = xs.
Proof. intros L. unfold LastN. replace (length xs - N)%nat with 0%nat by lia. reflexivity. Qed.
Lemma rolling_moment_near N M k xs : (1 <= M)%nat -> (1 <= N)%nat -> xs <> [] -> Few xs -> (-900 <= k * Z.of_nat M <= 900)%Z -> Within (powerRZ 2 k) xs -> (Z.of_nat M <= 2 ^ 40)%Z ->
  exists s, rolling N M xs s /\ finite (ro_moment DoubleN N s) /\
    Rabs (val (ro_moment DoubleN N s) - ExactMoment M (LastN N xs)) <= 4 * (INR (length xs) + INR M) * roundoff * powerRZ 2 (k * Z.of_nat M).
Proof.
  intros HM HN NE L K W H. destruct (Nat.le_gt_cases N (length xs)) as [C|C]; [exact (rolling_moment_accurate N M k xs HM HN C L K W H) |].
  destruct (roll_run_total DoubleN N M d_zero xs HM) as [s E]. exists s. split; [exact E |].
  destruct (filling N M xs HM ltac:(lia) s E) as [F _]. destruct (moment_accurate M k xs HM L NE K W) as (v & Ev & Fv & _ & Av).
  rewrite F in Ev. injection Ev as <-. split; [exact Fv |]. rewrite (lastN_all N xs) by lia. eapply Rle_trans; [exact Av |].
  assert (P : 0 < powerRZ 2 (k * Z.of_nat M)) by (apply powerRZ_lt; lra). assert (Hu := roundoff_small).
  apply Rmult_le_compat_r; [lra |]. apply Rmult_le_compat_r; [lra |]. assert (P1 := pos_INR (length xs)). assert (P2 := pos_INR M). lra.
Qed.
Lemma exact_first xs : ExactMoment 1 xs = ExactMean xs.
Proof.
  rewrite exact_moment_is. unfold ExactMean. f_equal. unfold ExactSum, vals. induction xs as [|x xs IH]; [reflexivity |].
  change (val x ^ 1 + total RN (fun x => x ^ 1) (map val xs) = val x + total RN val xs). cbn [car RN] in *. rewrite IH. ring.
Qed.
Lemma exact_second xs : ExactMoment 2 xs = S2 xs / INR (length xs).
Proof.
  rewrite exact_moment_is. f_equal. unfold S2, vals. induction xs as [|x xs IH]; [reflexivity |].
  change (val x ^ 2 + total RN (fun x => x ^ 2) (map val xs) = val x * val x + total RN (fun x => x * x) (map val xs)). cbn [car RN] in *. rewrite IH. ring.
Qed.
Lemma rolling_lazy_mean_near N M k xs : (1 <= M)%nat -> (1 <= N)%nat -> xs <> [] -> Few xs -> (-900 <= k <= 900)%Z -> Within (powerRZ 2 k) xs ->
  exists s, rolling N M xs s /\ finite (ro_lazy_mean DoubleN N s) /\
    Rabs (val (ro_lazy_mean DoubleN N s) - ExactMean (LastN N xs)) <= 5 * INR (length xs) * roundoff * powerRZ 2 k.
Proof.
  intros HM HN NE L K W. destruct (Nat.le_gt_cases N (length xs)) as [C|C]; [exact (rolling_lazy_mean_accurate N M k xs HM HN C L K W) |].
  destruct (roll_run_total DoubleN N M d_zero xs HM) as [s E]. exists s. split; [exact E |].
  destruct (filling N M xs HM ltac:(lia) s E) as [_ F]. destruct (moment_accurate 1 k xs (le_n _) L NE ltac:(lia) W) as (v & Ev & Fv & _ & Av).
  rewrite first_moment, F in Ev. injection Ev as <-. split; [exact Fv |]. rewrite (lastN_all N xs) by lia. rewrite exact_first in Av. replace (k * Z.of_nat 1)%Z with k in Av by lia. eapply Rle_trans; [exact Av |].
  assert (P : 0 < powerRZ 2 k) by (apply powerRZ_lt; lra). assert (Hu := roundoff_small). change (INR 1) with 1.
  assert (1 <= INR (length xs)) by (apply one_le_nat; destruct xs; [congruence | cbn; lia]).
  apply Rmult_le_compat_r; [lra |]. apply Rmult_le_compat_r; lra.
Qed.

(** ** The second moment and the mean do not depend on the order asked for *)
Lemma push_last N M (xs : list double) x s : rolling N M (xs ++ [x]) s -> exists r, rolling N M xs r /\ roll_push DoubleN N M (Some r) x = Some s.
Proof.
  unfold rolling, roll_run. intros E. rewrite fold_left_app in E. cbn [fold_left] in E. destruct (fold_left _ xs _) as [r|]; [| discriminate E].
  exists r. split; [reflexivity | exact E].
Qed.
Lemma other_order N M (xs : list double) : (1 <= M)%nat -> forall s t, rolling N M xs s -> rolling N 2 xs t ->
  ro_buf DoubleN s = ro_buf DoubleN t /\ ro_mom2 DoubleN s = ro_mom DoubleN t /\ ro_mean DoubleN s = ro_mean DoubleN t /\ ro_sum DoubleN s = ro_sum DoubleN t.
Proof.
  intros HM. induction xs as [|x xs IH] using rev_ind; intros s t Es Et; [injection Es as <-; injection Et as <-; auto |].
  apply push_last in Es as (s0 & Es0 & Es). apply push_last in Et as (t0 & Et0 & Et).
  destruct (IH s0 t0 Es0 Et0) as (I1 & I2 & I3 & I4). cbn [roll_push] in Es, Et. rewrite I1, I2, I3, I4 in Es.
  destruct (rolling_sum_op DoubleN N (rwp1_op N (ro_buf DoubleN t0) x) (ro_sum DoubleN t0) x); [| discriminate Et].
  destruct (rolling_moment_op DoubleN M N (rwp1_op N (ro_buf DoubleN t0) x) (ro_mom DoubleN s0) x); [| discriminate Es].
  destruct (rolling_moment_op DoubleN 2 N (rwp1_op N (ro_buf DoubleN t0) x) (ro_mom DoubleN t0) x); [| discriminate Et].
  destruct (rolling_moment_op DoubleN 2 N (rwp1_op N (ro_buf DoubleN t0) x) (ro_mom2 DoubleN t0) x); [| discriminate Et].
  destruct (immediate_rolling_mean_op DoubleN N (rwp1_op N (ro_buf DoubleN t0) x) (ro_mean DoubleN t0) x) as [mean|]; [| discriminate Et].
  destruct (rolling_variance_op DoubleN N (rwp1_op N (ro_buf DoubleN t0) x) (ro_var DoubleN s0) mean x); [| discriminate Es].
  destruct (rolling_variance_op DoubleN N (rwp1_op N (ro_buf DoubleN t0) x) (ro_var DoubleN t0) mean x); [| discriminate Et].
  injection Es as <-. injection Et as <-. cbn. auto.
Qed.

(** ** The lazy variance from a close mean and a close second moment *)
Section Lazy.
  Variable k : Z.
  Hypothesis K : (-450 <= k <= 450)%Z.
  Let B := bpow radix2 k.
  Let PB : 0 < B. Proof. apply bpow_gt_0. Qed.
  Let W := B * B.
  Let PW : 0 < W. Proof. unfold W. nra. Qed.
  Let Hu := roundoff_small.
  Let uW : 0 < roundoff * W. Proof. nra. Qed.
  Let us : roundoff <= / 1000000. Proof. unfold roundoff. apply Rinv_le; [lra |]. apply Rle_trans with (2 ^ 20); [lra | apply Rle_pow; [lra | lia]]. Qed.
  Lemma lazy_variance_close m m2 (c : nat) (n X Y : R) : finite m -> finite m2 -> (2 <= c)%nat -> INR c <= n -> n * roundoff <= / 8192 -> n <= 1099511627776 ->
    Rabs X <= B -> 0 <= Y - X * X <= W -> Y <= W -> Rabs (val m - X) <= 8 * n * (roundoff * B) -> Rabs (val m2 - Y) <= 4 * (n + 2) * (roundoff * W) ->
    let r := lazy_rolling_variance_result DoubleN m m2 c in
    finite r /\ Rabs (val r - INR c * (Y - X * X) / INR (c - 1)) <= 55 * n * (roundoff * W).
  Proof.
    intros Fm Fm2 C2 Cn Nu N40 BX HV HY Em Em2. cbv zeta. unfold lazy_rolling_variance_result. destruct (Nat.ltb_spec c 2) as [H|_]; [lia |].
    change (div DoubleN) with d_div. change (mul DoubleN) with d_mul. change (sub DoubleN) with d_sub.
    assert (c2 : 2 <= INR c) by (replace 2 with (INR 2) by reflexivity; apply le_INR; exact C2). assert (n2 : 2 <= n) by lra.
    assert (uB : 0 < roundoff * B) by nra. assert (uWs : roundoff * W <= / 1000000 * W) by (apply Rmult_le_compat_r; lra).
    assert (nW : n * (roundoff * W) <= / 8192 * W) by (rewrite <- Rmult_assoc; apply Rmult_le_compat_r; lra).
    assert (nB : n * (roundoff * B) <= / 8192 * B) by (rewrite <- Rmult_assoc; apply Rmult_le_compat_r; lra).
    assert (Bm : Rabs (val m) <= 1.001 * B) by (assert (H := close_bound _ _ _ _ Em BX); lra).
    (* the square *)
    assert (P : Rabs (val m * val m) <= 1.01 * W) by (rewrite Rabs_mult; apply Rle_trans with (1.001 * B * (1.001 * B)); [apply Rmult_le_compat; auto using Rabs_pos | unfold W; nra]).
    assert (L1 : Rabs (b64_round (val m * val m)) < bpow radix2 1024) by (apply (round_square k K _ 1.01 1); [change (IZR (Zpower radix2 1)) with 2; lra | lia | exact P]).
    destruct (mul_ok m m Fm Fm L1) as [F1 V1]. fold (val (d_mul m m)) (val m) in V1. assert (R1 := round_err k K _ _ P). rewrite <- V1 in R1. fold B W in R1.
    assert (C1 := close_mult _ _ _ _ _ _ _ _ Em Em BX Bm).
    assert (E1 : Rabs (val (d_mul m m) - X * X) <= 16.1 * (n * (roundoff * W)) + 1.1 * (roundoff * W)).
    { eapply Rle_trans; [exact (close_trans _ _ _ _ _ R1 C1) |]. replace (n * (roundoff * W)) with (n * (roundoff * B) * B) by (unfold W; ring). assert (0 < n * (roundoff * B) * B) by (repeat apply Rmult_lt_0_compat; lra). nra. }
    set (p := d_mul m m) in *. clearbody p.
    (* the difference *)
    assert (X2 := Rle_0_sqr X). unfold Rsqr in X2.
    assert (D : Rabs (val m2 - val p - (Y - X * X)) <= 20.1 * (n * (roundoff * W)) + 9.1 * (roundoff * W)) by (apply Rabs_le_inv in E1; apply Rabs_le_inv in Em2; apply Rabs_le; lra).
    assert (D1 : Rabs (val m2 - val p) <= 1.01 * W) by (apply Rabs_le_inv in D; apply Rabs_le; lra).
    assert (L2 : Rabs (b64_round (val m2 - val p)) < bpow radix2 1024) by (apply (round_square k K _ 1.01 1); [change (IZR (Zpower radix2 1)) with 2; lra | lia | exact D1]).
    destruct (sub_ok m2 p Fm2 F1 L2) as [F2 V2]. fold (val (d_sub m2 p)) (val m2) (val p) in V2. assert (R2 := round_err k K _ _ D1). rewrite <- V2 in R2. fold B W in R2.
    assert (nu2 : 2 * (roundoff * W) <= n * (roundoff * W)) by (apply Rmult_le_compat_r; lra).
    assert (E2 := close_trans _ _ _ _ _ R2 D).
    assert (E2' : Rabs (val (d_sub m2 p) - (Y - X * X)) <= 25.3 * (n * (roundoff * W))) by lra. clear E2.
    set (d := d_sub m2 p) in *. clearbody d. set (V := Y - X * X) in *. clearbody V.
    (* times the count *)
    destruct (ofnat_exact c) as [Fc Ec]; [apply INR_le in Cn || idtac |].
    { assert (IZR (Z.of_nat c) <= 1099511627776) by (rewrite <- INR_IZR_INZ; lra). apply le_IZR in H. lia. }
    destruct (ofnat_exact (c - 1)) as [Fd Ed].
    { assert (IZR (Z.of_nat c) <= 1099511627776) by (rewrite <- INR_IZR_INZ; lra). apply le_IZR in H. lia. }
    assert (Hc : INR c = INR (c - 1) + 1) by (rewrite <- S_INR; f_equal; lia). set (z := INR (c - 1)) in *. rewrite Hc in *.
    assert (Q : Rabs ((z + 1) * val d) <= (z + 1) * (1.01 * W)).
    { rewrite Rabs_mult, Rabs_pos_eq by lra. apply Rmult_le_compat_l; [lra |]. apply Rabs_le_inv in E2'. apply Rabs_le. lra. }
    assert (L3 : Rabs (b64_round ((z + 1) * val d)) < bpow radix2 1024) by (apply (round_square k K _ ((z + 1) * 1.01) 41); [change (IZR (Zpower radix2 41)) with 2199023255552; lra | lia | fold B W; lra]).
    destruct (mul_ok (ofnat DoubleN c) d Fc F2) as [F3 V3]; [rewrite Ec; exact L3 |]. rewrite Ec in V3. fold (val (d_mul (ofnat DoubleN c) d)) (val d) in V3. assert (R3 := round_err k K _ _ Q). rewrite <- V3 in R3. fold B W in R3.
    set (q := d_mul (ofnat DoubleN c) d) in *. clearbody q.
    assert (E3 : Rabs (val q - (z + 1) * V) <= (z + 1) * (26 * (n * (roundoff * W)))).
    { assert (C3 : Rabs ((z + 1) * val d - (z + 1) * V) <= (z + 1) * (25.3 * (n * (roundoff * W)))) by (rewrite <- Rmult_minus_distr_l, Rabs_mult, Rabs_pos_eq by lra; apply Rmult_le_compat_l; [lra | exact E2']).
      eapply Rle_trans; [exact (close_trans _ _ _ _ _ R3 C3) |].
      assert ((z + 1) * (2 * (roundoff * W)) <= (z + 1) * (n * (roundoff * W))) by (apply Rmult_le_compat_l; lra).
      assert (2 * (roundoff * W) <= (z + 1) * (roundoff * W)) by (apply Rmult_le_compat_r; lra). lra. }
    (* the quotient *)
    assert (Z1 : 0 < / z) by (apply Rinv_0_lt_compat; lra). assert (Z2 : (z + 1) * / z <= 2) by (apply Rmult_le_reg_r with z; [lra |]; rewrite Rmult_assoc, Rinv_l by lra; lra).
    assert (E4 : Rabs (val q / z - (z + 1) * V / z) <= 52 * (n * (roundoff * W))).
    { replace (val q / z - (z + 1) * V / z) with ((val q - (z + 1) * V) * / z) by (field; lra). rewrite Rabs_mult, (Rabs_pos_eq (/ z)) by lra.
      apply Rle_trans with ((z + 1) * (26 * (n * (roundoff * W))) * / z); [apply Rmult_le_compat_r; lra |].
      replace ((z + 1) * (26 * (n * (roundoff * W))) * / z) with ((z + 1) * / z * (26 * (n * (roundoff * W)))) by ring.
      apply Rle_trans with (2 * (26 * (n * (roundoff * W)))); [apply Rmult_le_compat_r; lra | lra]. }
    assert (B4 : 0 <= (z + 1) * V / z <= 2 * W).
    { unfold Rdiv. replace ((z + 1) * V * / z) with ((z + 1) * / z * V) by ring. assert (0 <= (z + 1) * / z) by (apply Rmult_le_pos; lra). split; [apply Rmult_le_pos; lra |].
      apply Rmult_le_compat; lra. }
    assert (Q4 : Rabs (val q / z) <= 2.01 * W) by (apply Rabs_le_inv in E4; apply Rabs_le; lra).
    assert (L4 : Rabs (b64_round (val q / z)) < bpow radix2 1024) by (apply (round_square k K _ 2.01 2); [change (IZR (Zpower radix2 2)) with 4; lra | lia | exact Q4]).
    destruct (div_ok q (ofnat DoubleN (c - 1))) as [F4 V4]; [rewrite Ed; lra | exact F3 | rewrite Ed; exact L4 |]. rewrite Ed in V4. fold (val (d_div q (ofnat DoubleN (c - 1)))) (val q) z in V4.
    assert (R4 := round_err k K _ _ Q4). rewrite <- V4 in R4. fold B W in R4. split; [exact F4 |].
    eapply Rle_trans; [exact (close_trans _ _ _ _ _ R4 E4) |]. lra.
  Qed.
End Lazy.
Lemma rolling_lazy_variance_accurate N M k xs : (1 <= M)%nat -> (2 <= N)%nat -> (2 <= length xs)%nat -> Few xs -> (-450 <= k <= 450)%Z -> Within (powerRZ 2 k) xs ->
  exists s, rolling N M xs s /\ let v := ro_lazy_variance DoubleN N s in let w := ro_lazy_variance_lazy_mean DoubleN N s in
    finite v /\ Rabs (val v - ExactSampleVariance (LastN N xs)) <= 55 * INR (length xs) * roundoff * powerRZ 2 (k + k) /\
    finite w /\ Rabs (val w - ExactSampleVariance (LastN N xs)) <= 55 * INR (length xs) * roundoff * powerRZ 2 (k + k).
Proof.
  intros HM HN L2 L K WB. assert (NE : xs <> []) by (destruct xs; [cbn in L2; lia | discriminate]).
  destruct (rolling_moment_near N 2 k xs ltac:(lia) ltac:(lia) NE L ltac:(lia) WB ltac:(lia)) as (t & Et & Ft & At).
  destruct (rolling_lazy_mean_near N M k xs HM ltac:(lia) NE L ltac:(lia) WB) as (s & E & Fl & Al).
  exists s. split; [exact E |]. cbv zeta. replace (k * Z.of_nat 2)%Z with (k + k)%Z in At by lia.
  rewrite <- !(bpow_powerRZ radix2) in *. assert (PB := bpow_gt_0 radix2 k). rewrite bpow_plus in *.
  destruct (r_mean_close0 k K N M xs HM ltac:(lia) L WB s E) as (Fm & Am & BM).
  assert (VW := SS_within _ _ (LastN_Forall _ N xs WB)). assert (S2W := S2_within _ _ (LastN_Forall _ N xs WB)). assert (LL := LastN_length N xs).
  destruct (other_order N M xs HM s t E Et) as (O1 & O2 & O3 & O4).
  assert (Hm2 : rolling_moment_result DoubleN (ro_mom2 DoubleN s) (ro_count DoubleN N s) = ro_moment DoubleN N t) by (unfold ro_moment, ro_count; rewrite O1, O2; reflexivity).
  unfold ro_lazy_variance, ro_lazy_variance_lazy_mean. rewrite Hm2. rewrite (run_count N M xs HM s E), <- LL. change (ro_mean DoubleN s) with (r_mean s).
  set (w := LastN N xs) in *. set (c := length w) in *. assert (c2 : (2 <= c)%nat) by (unfold c; lia).
  assert (P : 2 <= INR c) by (replace 2 with (INR 2) by reflexivity; apply le_INR; exact c2).
  assert (Hc : INR c = INR (c - 1) + 1) by (rewrite <- S_INR; f_equal; lia).
  assert (X2 : ExactMoment 2 w = S2 w / INR c) by apply exact_second.
  assert (XV : ExactSampleVariance w = INR c * (ExactMoment 2 w - ExactMean w * ExactMean w) / INR (c - 1)).
  { assert (XS : ExactSampleVariance w = SS w / INR (c - 1)).
    { unfold ExactSampleVariance, SampleVariance. cbn [div RN]. rewrite R_ofnat, map_length. fold c. f_equal. rewrite SS_deviations. fold (vals w). rewrite Mean_vals. reflexivity. }
    rewrite XS, X2. unfold SS. fold c. field. lra. }
  assert (HV : 0 <= ExactMoment 2 w - ExactMean w * ExactMean w <= bpow radix2 k * bpow radix2 k).
  { rewrite X2. replace (S2 w / INR c - ExactMean w * ExactMean w) with (SS w / INR c) by (unfold SS; fold c; field; lra).
    split; [apply Rmult_le_pos; [lra | left; apply Rinv_0_lt_compat; lra] |]. apply Rmult_le_reg_r with (INR c); [lra |]. unfold Rdiv. rewrite Rmult_assoc, Rinv_l, Rmult_1_r by lra. lra. }
  assert (HY : ExactMoment 2 w <= bpow radix2 k * bpow radix2 k) by (rewrite X2; apply Rmult_le_reg_r with (INR c); [lra |]; unfold Rdiv; rewrite Rmult_assoc, Rinv_l, Rmult_1_r by lra; lra).
  assert (cn : INR c <= INR (length xs)) by (apply le_INR; unfold c; lia). assert (Nu := few_samples _ L).
  assert (N40 : INR (length xs) <= 1099511627776) by (rewrite INR_IZR_INZ; apply IZR_le; exact L).
  assert (Hu := roundoff_small). set (n := INR (length xs)) in *. rewrite XV.
  assert (At' : Rabs (val (ro_moment DoubleN N t) - ExactMoment 2 w) <= 4 * (n + 2) * (roundoff * (bpow radix2 k * bpow radix2 k))) by (change (INR 2) with 2 in At; lra).
  assert (Al' : Rabs (val (ro_lazy_mean DoubleN N s) - ExactMean w) <= 8 * n * (roundoff * bpow radix2 k)).
  { eapply Rle_trans; [exact Al |]. assert (0 <= n * (roundoff * bpow radix2 k)) by (apply Rmult_le_pos; [lra | apply Rmult_le_pos; lra]). lra. }
  destruct (lazy_variance_close k K _ _ c n _ _ Fm Ft c2 cn Nu N40 BM HV HY Am At') as [F1 A1].
  destruct (lazy_variance_close k K _ _ c n _ _ Fl Ft c2 cn Nu N40 BM HV HY Al' At') as [F2 A2].
  split; [exact F1 |]. split; [lra |]. split; [exact F2 | lra].
Qed.
