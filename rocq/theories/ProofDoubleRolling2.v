(** The accuracy of rolling moments of doubles. *)
From Coq Require Import ZArith List Bool Reals Lra Lia Arith Psatz.
From Flocq Require Import Core IEEE754.BinarySingleNaN.
From Verif Require Import Num NumFacts ModelBasic ModelRolling ModelRounding ModelDouble SpecStats SpecRolling SpecDouble SpecDoubleVariance SpecDoubleMoment ProofBasic ProofBasic2 ProofRolling ProofKahan ProofDouble ProofDouble2 ProofDouble3 ProofDouble4 ProofDouble5 ProofDoubleEx
  ProofDoubleVariance ProofDoubleVariance2 ProofDoubleVariance3 ProofDoubleVariance4 ProofDoubleMoment ProofDoubleMoment2 ProofDoubleRolling.
Import ListNotations.
Local Open Scope R_scope.

Lemma lastN_map {A B} (f : A -> B) N l : LastN N (map f l) = map f (LastN N l).
Proof. unfold LastN. rewrite map_length. apply skipn_map. Qed.

(** ** The rolling moment is the rolling sum of the powers *)
Lemma mom_step N M (xs : list double) (x : double) s' : (1 <= M)%nat -> rolling N M (xs ++ [x]) s' ->
  exists s, rolling N M xs s /\ ro_buf DoubleN s' = LastN (N + 1) (xs ++ [x]) /\ rolling_moment_op DoubleN M N (ro_buf DoubleN s') (ro_mom DoubleN s) x = Some (ro_mom DoubleN s').
Proof.
  intros HM E. assert (Eb := roll_run_buf DoubleN N M d_zero _ HM s' E). unfold rolling, roll_run in *. rewrite fold_left_app in E. cbn [fold_left] in E.
  destruct (fold_left _ xs _) as [s|]; [| discriminate E]. exists s. split; [reflexivity |]. split; [exact Eb |].
  cbn [roll_push] in E. destruct (rolling_sum_op _ _ _ _ _) as [sum|]; [| discriminate E].
  destruct (rolling_moment_op _ M _ _ _ _) as [mom|] eqn:E1; [| discriminate E]. destruct (rolling_moment_op _ 2 _ _ _ _); [| discriminate E].
  destruct (immediate_rolling_mean_op _ _ _ _ _) as [mean|]; [| discriminate E].
  destruct (rolling_variance_op _ _ _ _ _ _) as [var|]; [| discriminate E].
  injection E as <-. cbn [ro_buf ro_mom]. exact E1.
Qed.
Lemma mom_is_sum N M (xs : list double) : (1 <= M)%nat -> forall s r, rolling N M xs s -> rolling N 1 (map (pw M) xs) r -> ro_mom DoubleN s = r_sum r.
Proof.
  intros HM. induction xs as [|x xs IH] using rev_ind; intros s r Es Er; [injection Es as <-; injection Er as <-; reflexivity |].
  rewrite map_app in Er. cbn [map] in Er.
  destruct (mom_step N M xs x s HM Es) as (s0 & Es0 & Eb & Em).
  destruct (roll_run_snoc DoubleN N 1 d_zero (map (pw M) xs) (pw M x) (le_n _) r Er) as (r0 & Er0 & _ & Sr & _).
  rewrite (roll_run_buf DoubleN N 1 d_zero _ (le_n _) r Er) in Sr. rewrite Eb in Em. specialize (IH s0 r0 Es0 Er0).
  change (r_sum r0) with (ro_sum DoubleN r0) in IH. change (r_sum r) with (ro_sum DoubleN r).
  replace (map (pw M) xs ++ [pw M x]) with (map (pw M) (xs ++ [x])) in Sr by (rewrite map_app; reflexivity). 
  assert (EL : LastN (N + 1) (map (pw M) (xs ++ [x])) = map (pw M) (LastN (N + 1) (xs ++ [x]))) by apply lastN_map.
  assert (Sr' := eq_trans (f_equal (fun b => rolling_sum_op DoubleN N b (ro_sum DoubleN r0) (pw M x)) (eq_sym EL)) Sr). clear Sr EL.
  unfold rolling_moment_op in Em. unfold rolling_sum_op in Sr'. rewrite (npow_pw M x HM) in Em.
  assert (FL : rwp1_full N (map (pw M) (LastN (N + 1) (xs ++ [x]))) = rwp1_full N (LastN (N + 1) (xs ++ [x]))) by (unfold rwp1_full, cb_full; rewrite map_length; reflexivity).
  cbn [car DoubleN] in *. rewrite FL in Sr'. rewrite IH in Em.
  destruct (rwp1_full N (LastN (N + 1) (xs ++ [x]))).
  - destruct (LastN (N + 1) (xs ++ [x])) as [|y t]; [discriminate Em |]. rewrite (npow_pw M y HM) in Em. cbn [map] in Sr'. congruence.
  - congruence.
Qed.

(** ** While the window fills, rolling moments are moments *)
Lemma filling_sum N M (xs : list double) : (1 <= M)%nat -> (length xs <= N)%nat -> forall s, rolling N M xs s -> r_sum s = sum_run DoubleN d_zero xs.
Proof.
  intros HM. induction xs as [|x xs IH] using rev_ind; intros L s E; [injection E as <-; reflexivity |].
  rewrite app_length in L. cbn [length] in L. rewrite sum_snoc.
  destruct (r_sum_step N M xs x s HM E) as (r & Er & [(y & Ey & Lw & Es) | (Ew & Es)]).
  - rewrite LastN_length in Lw. lia.
  - rewrite Es, (IH ltac:(lia) r Er). reflexivity.
Qed.
Lemma run_count N M (xs : list double) : (1 <= M)%nat -> forall s, rolling N M xs s -> ro_count DoubleN N s = Nat.min (length xs) N.
Proof. intros HM s E. unfold ro_count. rewrite (roll_run_buf DoubleN N M d_zero xs HM s E). apply count_of_buf. Qed.
Lemma filling N M (xs : list double) : (1 <= M)%nat -> (length xs <= N)%nat -> forall s, rolling N M xs s ->
  moment_run DoubleN M d_zero xs = Some (ro_moment DoubleN N s) /\ lazy_mean xs = ro_lazy_mean DoubleN N s.
Proof.
  intros HM L s E. destruct (roll_run_total DoubleN N 1 d_zero (map (pw M) xs) (le_n _)) as [r Er].
  unfold ro_moment, ro_lazy_mean, rolling_moment_result, lazy_rolling_mean_result. rewrite (run_count N M xs HM s E), (mom_is_sum N M xs HM s r E Er), Nat.min_l by exact L.
  rewrite (filling_sum N 1 (map (pw M) xs) (le_n _) ltac:(rewrite map_length; exact L) r Er). change (ro_sum DoubleN s) with (r_sum s). rewrite (filling_sum N M xs HM L s E).
  rewrite (moment_is M xs HM), !lazy_mean_is, map_length. split; reflexivity.
Qed.

(** ** Accuracy *)
Lemma r_sum_finite k N M xs : (1 <= M)%nat -> (1 <= N)%nat -> (Z.of_nat N <= 2 ^ 40)%Z -> Few xs -> (-900 <= k <= 900)%Z -> Within (bpow radix2 k) xs ->
  forall s, rolling N M xs s -> finite (r_sum s) /\ Rabs (val (r_sum s) - ExactSum (LastN N xs)) <= 2.1 * (INR (length xs) * roundoff) * (INR N * bpow radix2 k).
Proof.
  intros HM HN LN L K W s E. assert (PB := bpow_gt_0 radix2 k). assert (Hu := roundoff_small).
  assert (G : forall ys, Few ys -> Within (bpow radix2 k) ys -> forall r, rolling N M ys r -> finite (r_sum r) ->
    Rabs (val (r_sum r) - ExactSum (LastN N ys)) <= 2.1 * (INR (length ys) * roundoff) * (INR N * bpow radix2 k)).
  { intros ys Ly Wy r Er Fr. eapply Rle_trans; [exact (r_sum_error _ N M ys HM HN (Rlt_le _ _ PB) Wy r Er Fr) |].
    apply Rmult_le_compat_r; [apply Rmult_le_pos; [apply pos_INR | lra] |].
    assert (H := few_samples _ Ly). assert (H' : INR (2 * length ys) * roundoff <= / 4096) by (rewrite mult_INR; change (INR 2) with 2; lra).
    assert (P := pow_close (2 * length ys)). eapply Rle_trans; [apply P; lra |]. rewrite mult_INR. change (INR 2) with 2.
    assert (0 <= INR (length ys) * roundoff) by (apply Rmult_le_pos; [apply pos_INR | lra]). lra. }
  assert (F : finite (r_sum s)); [| split; [exact F | exact (G xs L W s E F)]].
  revert s E. induction xs as [|x xs IH] using rev_ind; intros s E; [injection E as <-; reflexivity |].
  assert (W0 := W). apply Forall_app in W as [W Wx]. inversion Wx as [|? ? [Fx Bx] _]; subst.
  assert (L' : Few xs) by (unfold Few in *; rewrite app_length in L; cbn [length] in L; lia).
  destruct (r_sum_step N M xs x s HM E) as (r & Er & S). specialize (IH L' W r Er). assert (H := G xs L' W r Er IH).
  assert (N40 : INR N <= bpow radix2 40) by (rewrite INR_IZR_INZ, <- IZR_Zpower by lia; apply IZR_le; exact LN).
  assert (T1 : INR N * bpow radix2 k <= bpow radix2 (40 + k)) by (rewrite bpow_plus; apply Rmult_le_compat_r; lra).
  assert (T2 : bpow radix2 k <= bpow radix2 (40 + k)) by (apply bpow_le; lia).
  assert (T0 : 0 <= INR N * bpow radix2 k) by (apply Rmult_le_pos; [apply pos_INR | lra]).
  assert (Nu := few_samples _ L').
  assert (B1 : Rabs (val (r_sum r)) <= 2 * bpow radix2 (40 + k)).
  { assert (Q := exact_bound_N _ N _ (Rlt_le _ _ PB) (LastN_Forall _ N xs W) (LastN_short N xs)). assert (C := close_bound _ _ _ _ H Q).
    assert (2.1 * (INR (length xs) * roundoff) * (INR N * bpow radix2 k) <= 1 * (INR N * bpow radix2 k)) by (apply Rmult_le_compat_r; lra). lra. }
  assert (RB : forall z c, (1 <= c <= 9)%Z -> Rabs z <= bpow radix2 c * bpow radix2 (40 + k) -> Rabs (b64_round z) <= bpow radix2 c * bpow radix2 (40 + k) /\ Rabs (b64_round z) < bpow radix2 1024).
  { intros z c C Z. rewrite <- bpow_plus in *. assert (R : Rabs (b64_round z) <= bpow radix2 (c + (40 + k))) by (apply round_abs; [apply generic_format_bpow; unfold FLT_exp; lia | exact Z]).
    split; [exact R |]. eapply Rle_lt_trans; [exact R | apply bpow_lt; lia]. }
  destruct S as [(y & Ey & Lw & Es) | (Ew & Es)]; rewrite Es.
  - assert (Y : finite y /\ Rabs (val y) <= bpow radix2 k).
    { assert (I : In y (LastN N xs ++ [x])) by (rewrite Ey; left; reflexivity). apply in_app_or in I as [I | [<- | []]]; [| split; assumption].
      exact (proj1 (Forall_forall _ _) (LastN_Forall _ N xs W) y I). }
    destruct Y as [Fy By].
    destruct (RB (val (r_sum r) - val y) 2%Z ltac:(lia)) as [R1 R2]; [change (bpow radix2 2) with 4; apply Rabs_le_inv in B1; apply Rabs_le_inv in By; apply Rabs_le; lra |].
    destruct (sub_ok _ _ IH Fy R2) as [F1 V1]. fold (val (d_sub (r_sum r) y)) (val (r_sum r)) (val y) in V1. rewrite <- V1 in R1. change (bpow radix2 2) with 4 in R1.
    destruct (RB (val (d_sub (r_sum r) y) + val x) 3%Z ltac:(lia)) as [_ R3]; [change (bpow radix2 3) with 8; apply Rabs_le_inv in R1; apply Rabs_le_inv in Bx; apply Rabs_le; lra |].
    exact (proj1 (add_ok _ _ F1 Fx R3)).
  - destruct (RB (val (r_sum r) + val x) 2%Z ltac:(lia)) as [_ R3]; [change (bpow radix2 2) with 4; apply Rabs_le_inv in B1; apply Rabs_le_inv in Bx; apply Rabs_le; lra |].
    exact (proj1 (add_ok _ _ IH Fx R3)).
Qed.

(** A quotient by the size of the window. *)
Lemma quotient_close k N s S e : (-900 <= k <= 900)%Z -> (1 <= N)%nat -> (Z.of_nat N <= 2 ^ 40)%Z -> finite s -> Rabs S <= INR N * bpow radix2 k -> 0 <= e <= 1 -> Rabs (val s - S) <= e * (INR N * bpow radix2 k) ->
  finite (d_div s (ofnat DoubleN N)) /\ Rabs (val (d_div s (ofnat DoubleN N)) - S / INR N) <= (e + 2.01 * roundoff) * bpow radix2 k.
Proof.
  intros K HN LN F BS He E. assert (PB := bpow_gt_0 radix2 k). assert (Hu := roundoff_small). assert (N1 := one_le_nat N HN).
  destruct (ofnat_exact N ltac:(lia)) as [Fn En].
  assert (T : 1000 * tiny <= roundoff * bpow radix2 k) by (apply tiny_low; lia).
  assert (E' : Rabs (val s / INR N - S / INR N) <= e * bpow radix2 k).
  { replace (val s / INR N - S / INR N) with ((val s - S) * / INR N) by (field; lra). rewrite Rabs_mult, (Rabs_pos_eq (/ _)) by (left; apply Rinv_0_lt_compat; lra).
    apply Rmult_le_reg_r with (INR N); [lra |]. rewrite Rmult_assoc, Rinv_l by lra. lra. }
  assert (BS' : Rabs (S / INR N) <= bpow radix2 k).
  { unfold Rdiv. rewrite Rabs_mult, (Rabs_pos_eq (/ _)) by (left; apply Rinv_0_lt_compat; lra). apply Rmult_le_reg_r with (INR N); [lra |]. rewrite Rmult_assoc, Rinv_l by lra. lra. }
  assert (B := close_bound _ _ _ _ E' BS'). assert (B2 : Rabs (val s / INR N) <= 2 * bpow radix2 k) by nra.
  assert (R : Rabs (b64_round (val s / INR N)) <= bpow radix2 (1 + k)) by (apply round_abs; [apply generic_format_bpow; unfold FLT_exp; lia | rewrite bpow_plus; exact B2]).
  destruct (div_ok s (ofnat DoubleN N)) as [F' V]; [rewrite En; lra | exact F | rewrite En; eapply Rle_lt_trans; [exact R | apply bpow_lt; lia] |].
  rewrite En in V. split; [exact F' |]. unfold val at 1. rewrite V. fold (val s).
  assert (Q := near_le roundoff tiny _ _ _ ltac:(lra) (round_near (val s / INR N)) B2).
  assert (D := close_trans _ _ _ _ _ Q E'). nra.
Qed.

Lemma rolling_moment_accurate N M k xs : (1 <= M)%nat -> (1 <= N)%nat -> (N <= length xs)%nat -> Few xs -> (-900 <= k * Z.of_nat M <= 900)%Z -> Within (powerRZ 2 k) xs -> (Z.of_nat M <= 2 ^ 40)%Z ->
  exists s, rolling N M xs s /\ finite (ro_moment DoubleN N s) /\
    Rabs (val (ro_moment DoubleN N s) - ExactMoment M (LastN N xs)) <= 4 * (INR (length xs) + INR M) * roundoff * powerRZ 2 (k * Z.of_nat M).
Proof.
  intros HM HN LN L K W MZ. assert (MU := few_samples _ MZ). rewrite <- !(bpow_powerRZ radix2) in *. destruct (roll_run_total DoubleN N M d_zero xs HM) as [s E]. exists s. split; [exact E |].
  destruct (roll_run_total DoubleN N 1 d_zero (map (pw M) xs) (le_n _)) as [r Er].
  unfold ro_moment, rolling_moment_result. rewrite (run_count N M xs HM s E), (mom_is_sum N M xs HM s r E Er), Nat.min_r by exact LN.
  destruct (powers_sum k M xs HM ltac:(lia) W) as [WP _].
  destruct (powers_sum k M (LastN N xs) HM ltac:(lia) (LastN_Forall _ N xs W)) as [WL SP].
  assert (LN40 : (Z.of_nat N <= 2 ^ 40)%Z) by (unfold Few in L; lia). assert (Lw : length (LastN N xs) = N) by (rewrite LastN_length; lia). rewrite Lw in SP.
  assert (Lp : Few (map (pw M) xs)) by (unfold Few in *; rewrite map_length; exact L).
  destruct (r_sum_finite (k * Z.of_nat M) N 1 (map (pw M) xs) (le_n _) HN LN40 Lp K WP r Er) as [F G].
  assert (G' : Rabs (val (r_sum r) - ExactSum (map (pw M) (LastN N xs))) <= 2.1 * (INR (length xs) * roundoff) * (INR N * up k M)).
  { rewrite lastN_map, map_length in G. exact G. }
  assert (D := close_trans _ _ _ _ _ G' SP). set (S := total RN (fun x => x ^ M) (vals (LastN N xs))) in *.
  assert (P := up_pos k M). assert (N1 := one_le_nat N HN). assert (M1 := one_le_nat M HM). assert (Hu := roundoff_small). assert (Nu := few_samples _ L).
  assert (n1 : 1 <= INR (length xs)) by (apply one_le_nat; lia).
  destruct (quotient_close (k * Z.of_nat M) N (r_sum r) S (2.1 * (INR (length xs) * roundoff) + 1.001 * roundoff * (INR M - 1)) K HN LN40 F) as [F' E'].
  - unfold S. assert (BS : forall ys, Within (bpow radix2 k) ys -> Rabs (total RN (fun x => x ^ M) (vals ys)) <= INR (length ys) * up k M).
    { induction 1 as [|x ys [Fx Bx] _ IH]; [cbn; rewrite Rabs_R0; lra |]. change (Rabs (val x ^ M + total RN (fun x => x ^ M) (vals ys)) <= INR (length (x :: ys)) * up k M).
      cbn [length]. rewrite S_INR. assert (PX := power_up (val x) k M ltac:(unfold up; rewrite Z.mul_1_r; exact Bx)). eapply Rle_trans; [apply Rabs_triang |]. cbn [car RN] in *. lra. }
    assert (BS' := BS _ (LastN_Forall _ N xs W)). rewrite Lw in BS'. exact BS'.
  - assert (A1 : 0 <= INR (length xs) * roundoff) by (apply Rmult_le_pos; lra). assert (A2 : 0 <= roundoff * (INR M - 1)) by (apply Rmult_le_pos; lra).
    rewrite (Rmult_assoc 1.001). split; lra.
  - fold (up k M). eapply Rle_trans; [exact D |]. right. ring.
  - split; [exact F' |]. rewrite exact_moment_is, Lw. fold S. eapply Rle_trans; [exact E' |]. fold (up k M). rewrite (Rmult_assoc (4 * _) roundoff).
    assert (U : 0 < roundoff * up k M) by nra.
    replace ((2.1 * (INR (length xs) * roundoff) + 1.001 * roundoff * (INR M - 1) + 2.01 * roundoff) * up k M) with ((2.1 * INR (length xs) + 1.001 * (INR M - 1) + 2.01) * (roundoff * up k M)) by ring.
    apply Rmult_le_compat_r; lra.
Qed.
Lemma rolling_lazy_mean_accurate N M k xs : (1 <= M)%nat -> (1 <= N)%nat -> (N <= length xs)%nat -> Few xs -> (-900 <= k <= 900)%Z -> Within (powerRZ 2 k) xs ->
  exists s, rolling N M xs s /\ finite (ro_lazy_mean DoubleN N s) /\
    Rabs (val (ro_lazy_mean DoubleN N s) - ExactMean (LastN N xs)) <= 5 * INR (length xs) * roundoff * powerRZ 2 k.
Proof.
  intros HM HN LN L K W. rewrite <- !(bpow_powerRZ radix2) in *. destruct (roll_run_total DoubleN N M d_zero xs HM) as [s E]. exists s. split; [exact E |].
  unfold ro_lazy_mean, lazy_rolling_mean_result. rewrite (run_count N M xs HM s E), Nat.min_r by exact LN.
  assert (LN40 : (Z.of_nat N <= 2 ^ 40)%Z) by (unfold Few in L; lia). assert (Lw : length (LastN N xs) = N) by (rewrite LastN_length; lia).
  destruct (r_sum_finite k N M xs HM HN LN40 L K W s E) as [F G].
  assert (PB := bpow_gt_0 radix2 k). assert (Hu := roundoff_small). assert (Nu := few_samples _ L). assert (n1 : 1 <= INR (length xs)) by (apply one_le_nat; lia).
  destruct (quotient_close k N (r_sum s) (ExactSum (LastN N xs)) (2.1 * (INR (length xs) * roundoff)) K HN LN40 F) as [F' E'].
  - apply exact_bound_N; [lra | apply LastN_Forall; exact W | lia].
  - assert (A1 : 0 <= INR (length xs) * roundoff) by (apply Rmult_le_pos; lra). split; lra.
  - exact G.
  - split; [exact F' |]. unfold ExactMean. rewrite Lw. eapply Rle_trans; [exact E' |]. 
    assert (U : 0 < roundoff * bpow radix2 k) by nra. rewrite (Rmult_assoc (5 * _) roundoff).
    replace ((2.1 * (INR (length xs) * roundoff) + 2.01 * roundoff) * bpow radix2 k) with ((2.1 * INR (length xs) + 2.01) * (roundoff * bpow radix2 k)) by ring.
    apply Rmult_le_compat_r; lra.
Qed.
