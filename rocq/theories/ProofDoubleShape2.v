(** The accuracy of the skewness and the kurtosis of doubles. *)
From Coq Require Import ZArith List Bool Reals Lra Lia Arith Psatz.
From Flocq Require Import Core IEEE754.BinarySingleNaN.
From Verif Require Import Num NumFacts ModelBasic ModelRolling ModelRounding ModelDouble SpecStats SpecDouble SpecDoubleVariance SpecDoubleMoment SpecDoubleShape ProofBasic ProofBasic2 ProofKahan ProofDouble ProofDouble2 ProofDouble3 ProofDouble4 ProofDoubleEx
  ProofDoubleVariance ProofDoubleVariance2 ProofDoubleVariance3 ProofDoubleVariance4 ProofDoubleMoment ProofDoubleMoment2 ProofDoubleRolling3 ProofDoubleRolling4 ProofDoubleError ProofDoubleShape.
Import ListNotations.
Local Open Scope R_scope.

(** ** Exact central moments *)
Lemma deviation_powers m c p l : Forall (fun x => Rabs (x - m) <= c) l -> Rabs (total RN (fun x => power RN (x - m) (S (S p))) l) <= c ^ p * total RN (fun x => power RN (x - m) 2) l.
Proof.
  induction 1 as [|x l H _ IH]; [rewrite !total_nil; cbn [zero RN]; rewrite Rabs_R0; lra |]. rewrite !total_cons. cbn [add RN]. rewrite !power_R in *.
  eapply Rle_trans; [apply Rabs_triang |]. rewrite Rmult_plus_distr_l. apply Rplus_le_compat; [| exact IH].
  replace ((x - m) ^ S (S p)) with ((x - m) ^ p * (x - m) ^ 2) by (rewrite <- pow_add; f_equal; lia). rewrite Rabs_mult, (Rabs_pos_eq ((x - m) ^ 2)) by apply pow2_ge_0.
  apply Rmult_le_compat_r; [apply pow2_ge_0 |]. rewrite <- RPow_abs. apply pow_incr. split; [apply Rabs_pos | exact H].
Qed.
Lemma central_powers b p xs : xs <> [] -> Within b xs -> Rabs (CentralMoment RN (S (S p)) (map val xs)) <= (2 * b) ^ p * ExactVariance xs.
Proof.
  intros NE W. assert (n1 := one_le xs NE). unfold ExactVariance, Variance, CentralMoment, average. cbn [div RN]. rewrite R_ofnat, map_length. fold (vals xs). rewrite Mean_vals.
  assert (M : Rabs (ExactMean xs) <= b).
  { unfold ExactMean. unfold Rdiv. rewrite Rabs_mult, (Rabs_pos_eq (/ _)) by (left; apply Rinv_0_lt_compat; lra). apply Rmult_le_reg_r with (INR (length xs)); [lra |]. rewrite Rmult_assoc, Rinv_l, Rmult_1_r by lra.
    clear - W. induction W as [|x xs [_ H] W IH]; [unfold ExactSum; cbn; rewrite Rabs_R0; lra |]. change (ExactSum (x :: xs)) with (val x + ExactSum xs). cbn [length]. rewrite S_INR.
    eapply Rle_trans; [apply Rabs_triang |]. lra. }
  assert (D : Forall (fun x => Rabs (x - ExactMean xs) <= 2 * b) (vals xs)).
  { unfold vals. apply Forall_map. eapply Forall_impl; [| exact W]. intros x [_ H]. apply Rabs_le_inv in H. apply Rabs_le_inv in M. apply Rabs_le. lra. }
  assert (H := deviation_powers (ExactMean xs) (2 * b) p _ D). unfold Rdiv. rewrite Rabs_mult, (Rabs_pos_eq (/ _)) by (left; apply Rinv_0_lt_compat; lra). rewrite <- Rmult_assoc.
  apply Rmult_le_compat_r; [left; apply Rinv_0_lt_compat; lra | exact H].
Qed.

Lemma up_pow k j : up k j = bpow radix2 k ^ j.
Proof. induction j as [|j IH]; [unfold up; rewrite Z.mul_0_r; reflexivity |]. change (S j) with (1 + j)%nat at 1. rewrite up_add. unfold up at 1. rewrite Z.mul_1_r. cbn [pow]. rewrite IH. reflexivity. Qed.
Lemma powers_total k j xs : Within (bpow radix2 k) xs -> Rabs (total RN (fun x => x ^ j) (vals xs)) <= INR (length xs) * up k j.
Proof.
  intros W. induction W as [|x l [_ H] _ IH]; [cbn; rewrite Rabs_R0; lra |].
  change (vals (x :: l)) with (val x :: vals l). rewrite total_cons. cbn [add RN length]. rewrite S_INR. eapply Rle_trans; [apply Rabs_triang |].
  assert (Rabs (val x ^ j) <= up k j); [| cbn [car RN] in *; lra]. rewrite <- RPow_abs, up_pow. apply pow_incr. split; [apply Rabs_pos | exact H].
Qed.

(** ** Quotients *)
Lemma quotient_gap Q F N N' eta e b : 0 < Q -> 0 <= eta <= 0.04 -> Rabs (F - Q) <= eta * Q -> Rabs (N' - N) <= e -> Rabs N <= b ->
  0 < F /\ Rabs (N' / F) * Q <= 1.05 * (b + e) /\ Rabs (N' / F - N / Q) * Q <= e + (b + e) * (1.05 * eta).
Proof.
  intros HQ He HF HN HB. assert (BN := close_bound _ _ _ _ HN HB).
  assert (PF : 0.96 * Q <= F) by (assert (eta * Q <= 0.04 * Q) by (apply Rmult_le_compat_r; lra); apply Rabs_le_inv in HF; lra).
  assert (F0 : 0 < F) by lra. assert (IF : 0 < / F) by (apply Rinv_0_lt_compat; exact F0).
  assert (QF : Q * / F <= 1.05) by (apply Rmult_le_reg_r with F; [exact F0 |]; rewrite Rmult_assoc, Rinv_l by lra; lra). assert (QF0 : 0 < Q * / F) by (apply Rmult_lt_0_compat; assumption).
  split; [exact F0 |]. split.
  - unfold Rdiv. rewrite Rabs_mult, (Rabs_pos_eq (/ F)) by lra. replace (Rabs N' * / F * Q) with (Q * / F * Rabs N') by ring. apply Rmult_le_compat; try lra. apply Rabs_pos.
  - rewrite <- (Rabs_pos_eq Q) at 2 by lra. rewrite <- Rabs_mult. replace ((N' / F - N / Q) * Q) with ((N' - N) + N' * ((Q - F) * / F)) by (field; lra).
    eapply Rle_trans; [apply Rabs_triang |]. apply Rplus_le_compat; [exact HN |]. rewrite Rabs_mult. apply Rmult_le_compat; try apply Rabs_pos; [exact BN |].
    rewrite Rabs_mult, (Rabs_pos_eq (/ F)), Rabs_minus_sym by lra. apply Rle_trans with (eta * Q * / F); [apply Rmult_le_compat_r; lra |]. replace (eta * Q * / F) with (eta * (Q * / F)) by ring.
    rewrite (Rmult_comm 1.05). apply Rmult_le_compat_l; lra.
Qed.
Lemma round_relative m y : (-1000 <= m)%Z -> bpow radix2 m <= y -> Rabs (b64_round y - y) <= 1.001 * roundoff * y.
Proof.
  intros M H. assert (P := bpow_gt_0 radix2 m). assert (Hu := roundoff_small). assert (T := tiny_low m M). assert (N := round_near y). unfold near in N. rewrite (Rabs_pos_eq y) in N by lra.
  assert (roundoff * bpow radix2 m <= roundoff * y) by (apply Rmult_le_compat_l; lra). lra.
Qed.
Lemma round_range m M y : (-1000 <= m)%Z -> (M <= 1000)%Z -> (-1000 <= M)%Z -> bpow radix2 m <= y <= bpow radix2 M -> Rabs (b64_round y) < bpow radix2 1024 /\ bpow radix2 m <= b64_round y.
Proof.
  intros H1 H2 H3 [A B]. assert (P := bpow_gt_0 radix2 m). split.
  - eapply Rle_lt_trans; [apply (round_abs _ (bpow radix2 M)); [apply generic_format_bpow; unfold FLT_exp; lia | rewrite Rabs_pos_eq; lra] | apply bpow_lt; lia].
  - apply round_ge_generic; [apply FLT_exp_valid; reflexivity | apply valid_rnd_N | apply generic_format_bpow; unfold FLT_exp; lia | exact A].
Qed.

(** ** The variance below and the numerators, from close moments *)
Section Polynomials.
  Variables (k : Z) (h : R) (m s2 s3 s4 : double) (M M2 M3 M4 : R).
  Hypothesis K : (-200 <= k <= 200)%Z.
  Hypothesis Hh : roundoff <= h <= / 8192.
  Hypothesis A1 : App k h 1 m M 1 4.
  Hypothesis A2 : App k h 2 s2 M2 1 6.
  Hypothesis A3 : App k h 3 s3 M3 1 8.
  Hypothesis A4 : App k h 4 s4 M4 1 10.
  Ltac num := cbn; lra.
  Let constant n c : (n <= 10)%nat -> INR n = c -> App k h 0 (ofnat DoubleN n) c c 0.
  Proof. intros N <-. apply app_nat. exact N. Qed.
  Let times i j l x y X Y c d cd e f g n : App k h i x X c e -> App k h j y Y d f -> (i + j = l)%nat -> (l <= 4)%nat -> c * d = cd -> 0 <= e <= 500 -> 0 <= f <= 500 -> 0 <= c -> 0 <= d -> cd <= 1000 ->
    c * f + d * e + e * f / 8192 <= n -> n <= 1000 -> n + cd + n / 8192 + / 1000 <= g -> App k h l (d_mul x y) (X * Y) cd g.
  Proof. intros H1 H2 <- L <- B1 B2 B3 B4 B5 B6 B7 B8. exact (app_mul k K h Hh i j x y X Y c d e f n g H1 H2 L B1 B2 B3 B4 B5 B6 B7 B8). Qed.
  Let plus j x y X Y c d cd e f g : App k h j x X c e -> App k h j y Y d f -> (j <= 4)%nat -> c + d = cd -> 0 <= e <= 500 -> 0 <= f <= 500 -> 0 <= c <= 500 -> 0 <= d <= 500 ->
    e + f + cd + (e + f) / 8192 + / 1000 <= g -> App k h j (d_add x y) (X + Y) cd g.
  Proof. intros H1 H2 L <- B1 B2 B3 B4 B5. exact (app_add k K h Hh j x y X Y c d e f g H1 H2 L B1 B2 B3 B4 B5). Qed.
  Let minus j x y X Y c d cd e f g : App k h j x X c e -> App k h j y Y d f -> (j <= 4)%nat -> c + d = cd -> 0 <= e <= 500 -> 0 <= f <= 500 -> 0 <= c <= 500 -> 0 <= d <= 500 ->
    e + f + cd + (e + f) / 8192 + / 1000 <= g -> App k h j (d_sub x y) (X - Y) cd g.
  Proof. intros H1 H2 L <- B1 B2 B3 B4 B5. exact (app_sub k K h Hh j x y X Y c d e f g H1 H2 L B1 B2 B3 B4 B5). Qed.
  Ltac product A B n g := eapply (times _ _ _ _ _ _ _ _ _ _ _ _ g n); [exact A | exact B | reflexivity | lia | reflexivity | lra ..].

  Let d := d_sub s2 (d_mul m m).
  Lemma below_close : App k h 2 d (M2 - M * M) 2 17.1.
  Proof.
    assert (S : App k h 2 (d_mul m m) (M * M) (1 * 1) 9.02) by product A1 A1 8.01 9.02.
    eapply minus; [exact A2 | exact S | lia | lra ..].
  Qed.
  Let n3 := d_add (d_sub s3 (d_mul (d_mul (ofnat DoubleN 3) s2) m)) (d_mul (d_mul (d_mul (ofnat DoubleN 2) m) m) m).
  Lemma third_close : App k h 3 n3 (M3 - 3 * M2 * M + 2 * M * M * M) 6 85.
  Proof.
    assert (C3 := constant 3 3 ltac:(lia) ltac:(num)). assert (C2 := constant 2 2 ltac:(lia) ltac:(num)).
    assert (P1 : App k h 2 (d_mul (ofnat DoubleN 3) s2) (3 * M2) (3 * 1) 21.1) by product C3 A2 18 21.1.
    assert (P2 : App k h 3 (d_mul (d_mul (ofnat DoubleN 3) s2) m) (3 * M2 * M) (3 * 1 * 1) 36.2) by product P1 A1 33.12 36.2.
    assert (P3 : App k h 1 (d_mul (ofnat DoubleN 2) m) (2 * M) (2 * 1) 10.1) by product C2 A1 8 10.1.
    assert (P4 : App k h 2 (d_mul (d_mul (ofnat DoubleN 2) m) m) (2 * M * M) (2 * 1 * 1) 20.2) by product P3 A1 18.12 20.2.
    assert (P5 : App k h 3 (d_mul (d_mul (d_mul (ofnat DoubleN 2) m) m) m) (2 * M * M * M) (2 * 1 * 1 * 1) 30.3) by product P4 A1 28.22 30.3.
    assert (P6 : App k h 3 (d_sub s3 (d_mul (d_mul (ofnat DoubleN 3) s2) m)) (M3 - 3 * M2 * M) 4 48.3) by (eapply minus; [exact A3 | exact P2 | lia | lra ..]).
    eapply plus; [exact P6 | exact P5 | lia | lra ..].
  Qed.
  Let n4 := d_sub (d_add (d_sub s4 (d_mul (d_mul (ofnat DoubleN 4) s3) m)) (d_mul (d_mul (d_mul (ofnat DoubleN 6) s2) m) m))
    (d_mul (d_mul (d_mul (d_mul (ofnat DoubleN 3) m) m) m) m).
  Lemma fourth_close : App k h 4 n4 (M4 - 4 * M3 * M + 6 * M2 * M * M - 3 * M * M * M * M) 14 260.
  Proof.
    assert (C3 := constant 3 3 ltac:(lia) ltac:(num)). assert (C4 := constant 4 4 ltac:(lia) ltac:(num)). assert (C6 := constant 6 6 ltac:(lia) ltac:(num)).
    assert (P1 : App k h 3 (d_mul (ofnat DoubleN 4) s3) (4 * M3) (4 * 1) 36.1) by product C4 A3 32 36.1.
    assert (P2 : App k h 4 (d_mul (d_mul (ofnat DoubleN 4) s3) m) (4 * M3 * M) (4 * 1 * 1) 56.2) by product P1 A1 52.12 56.2.
    assert (P3 : App k h 2 (d_mul (ofnat DoubleN 6) s2) (6 * M2) (6 * 1) 42.1) by product C6 A2 36 42.1.
    assert (P4 : App k h 3 (d_mul (d_mul (ofnat DoubleN 6) s2) m) (6 * M2 * M) (6 * 1 * 1) 72.2) by product P3 A1 66.13 72.2.
    assert (P5 : App k h 4 (d_mul (d_mul (d_mul (ofnat DoubleN 6) s2) m) m) (6 * M2 * M * M) (6 * 1 * 1 * 1) 102.3) by product P4 A1 96.24 102.3.
    assert (P6 : App k h 1 (d_mul (ofnat DoubleN 3) m) (3 * M) (3 * 1) 15.1) by product C3 A1 12 15.1.
    assert (P7 : App k h 2 (d_mul (d_mul (ofnat DoubleN 3) m) m) (3 * M * M) (3 * 1 * 1) 30.2) by product P6 A1 27.12 30.2.
    assert (P8 : App k h 3 (d_mul (d_mul (d_mul (ofnat DoubleN 3) m) m) m) (3 * M * M * M) (3 * 1 * 1 * 1) 45.3) by product P7 A1 42.23 45.3.
    assert (P9 : App k h 4 (d_mul (d_mul (d_mul (d_mul (ofnat DoubleN 3) m) m) m) m) (3 * M * M * M * M) (3 * 1 * 1 * 1 * 1) 60.4) by product P8 A1 57.33 60.4.
    assert (P10 : App k h 4 (d_sub s4 (d_mul (d_mul (ofnat DoubleN 4) s3) m)) (M4 - 4 * M3 * M) 5 71.3) by (eapply minus; [exact A4 | exact P2 | lia | lra ..]).
    assert (P11 : App k h 4 (d_add (d_sub s4 (d_mul (d_mul (ofnat DoubleN 4) s3) m)) (d_mul (d_mul (d_mul (ofnat DoubleN 6) s2) m) m))
      (M4 - 4 * M3 * M + 6 * M2 * M * M) 11 184.7) by (eapply plus; [exact P10 | exact P5 | lia | lra ..]).
    eapply minus; [exact P11 | exact P9 | lia | lra ..].
  Qed.
End Polynomials.

Section Shape.
  Variables (k : Z) (xs : list double).
  Hypothesis K : (-200 <= k <= 200)%Z.
  Hypothesis Hfew : Few xs.
  Hypothesis NE : xs <> [].
  Hypothesis HW : Within (powerRZ 2 k) xs.
  Let h := INR (length xs) * roundoff.
  Let Hu := roundoff_small.
  Let Hh : roundoff <= h <= / 8192.
  Proof. assert (n1 := one_le xs NE). assert (F := few_samples _ Hfew). unfold h. split; [rewrite <- (Rmult_1_l roundoff) at 1; apply Rmult_le_compat_r; lra | exact F]. Qed.
  Let m := lazy_mean xs.
  Let M := ExactMean xs.
  Lemma moments_app j : (1 <= j <= 4)%nat -> App k h j (the_moment j xs) (ExactMoment j xs) 1 (2 * (1 + INR j)).
  Proof.
    intros J. destruct (moment_accurate j k xs ltac:(lia) Hfew NE ltac:(nia) HW) as (v & Ev & Fv & _ & Av). rewrite moment_is in Ev by lia. injection Ev as <-. fold (the_moment j xs) in *.
    rewrite <- !(bpow_powerRZ radix2) in Av. fold (up k j) in Av. assert (P := up_pos k j). assert (n1 := one_le xs NE). assert (j0 := pos_INR j).
    split; [exact Fv |]. split.
    - rewrite exact_moment_is. unfold Rdiv. rewrite Rabs_mult, (Rabs_pos_eq (/ _)) by (left; apply Rinv_0_lt_compat; lra). apply Rmult_le_reg_r with (INR (length xs)); [lra |]. rewrite Rmult_assoc, Rinv_l, Rmult_1_r by lra.
      rewrite Rmult_1_l, (Rmult_comm (up k j)). apply powers_total. rewrite (bpow_powerRZ radix2). exact HW.
    - eapply Rle_trans; [exact Av |]. unfold h. replace (2 * (1 + INR j) * (INR (length xs) * roundoff * up k j)) with (2 * (INR (length xs) + INR j * INR (length xs)) * (roundoff * up k j)) by ring.
      rewrite Rmult_assoc. apply Rmult_le_compat_r; [apply Rmult_le_pos; lra |]. nra.
  Qed.
  Lemma mean_app : App k h 1 m M 1 4.
  Proof.
    assert (H := moments_app 1 ltac:(lia)). unfold the_moment in H. replace (map (pw 1) xs) with xs in H by (rewrite <- (map_id xs) at 1; apply map_ext; reflexivity).
    rewrite exact_first in H. replace (2 * (1 + INR 1)) with 4 in H by (cbn; lra). exact H.
  Qed.
  Ltac num := cbn; lra.
  Let A2 : App k h 2 (the_moment 2 xs) (ExactMoment 2 xs) 1 6. Proof. replace 6 with (2 * (1 + INR 2)) by num. apply moments_app. lia. Qed.
  Let A3 : App k h 3 (the_moment 3 xs) (ExactMoment 3 xs) 1 8. Proof. replace 8 with (2 * (1 + INR 3)) by num. apply moments_app. lia. Qed.
  Let A4 : App k h 4 (the_moment 4 xs) (ExactMoment 4 xs) 1 10. Proof. replace 10 with (2 * (1 + INR 4)) by num. apply moments_app. lia. Qed.
  Let A1 := mean_app.
  Let V := ExactVariance xs.
  Let vals_ne : map val xs <> []. Proof. intros E. apply map_eq_nil in E. exact (NE E). Qed.
  Lemma raw2 : V = ExactMoment 2 xs - M * M.
  Proof. unfold V, ExactVariance. rewrite (avg_sub_raw2 RN RN_field) by exact vals_ne. fold (vals xs). rewrite Mean_vals. reflexivity. Qed.
  Lemma raw3 : CentralMoment RN 3 (map val xs) = ExactMoment 3 xs - 3 * ExactMoment 2 xs * M + 2 * M * M * M.
  Proof. rewrite (central3_raw RN RN_field) by exact vals_ne. fold (vals xs). rewrite Mean_vals, !R_ofnat. unfold ExactMoment. fold (vals xs). fold M. cbn [add sub mul RN]. replace (INR 3) with 3 by num. replace (INR 2) with 2 by num. reflexivity. Qed.
  Lemma raw4 : CentralMoment RN 4 (map val xs) = ExactMoment 4 xs - 4 * ExactMoment 3 xs * M + 6 * ExactMoment 2 xs * M * M - 3 * M * M * M * M.
  Proof. rewrite (central4_raw RN RN_field) by exact vals_ne. fold (vals xs). rewrite Mean_vals, !R_ofnat. unfold ExactMoment. fold (vals xs). fold M. cbn [add sub mul RN]. replace (INR 3) with 3 by num. replace (INR 4) with 4 by num. replace (INR 6) with 6 by num. reflexivity. Qed.

  Lemma below_app : App k h 2 (d_sub (the_moment 2 xs) (d_mul m m)) V 2 17.1.
  Proof. rewrite raw2. exact (below_close k h _ _ _ _ K Hh A1 A2). Qed.
  Lemma third_app : App k h 3 (d_add (d_sub (the_moment 3 xs) (d_mul (d_mul (ofnat DoubleN 3) (the_moment 2 xs)) m)) (d_mul (d_mul (d_mul (ofnat DoubleN 2) m) m) m)) (CentralMoment RN 3 (map val xs)) 6 85.
  Proof. rewrite raw3. exact (third_close k h _ _ _ _ _ _ K Hh A1 A2 A3). Qed.
  Lemma fourth_app : App k h 4 (d_sub (d_add (d_sub (the_moment 4 xs) (d_mul (d_mul (ofnat DoubleN 4) (the_moment 3 xs)) m)) (d_mul (d_mul (d_mul (ofnat DoubleN 6) (the_moment 2 xs)) m) m))
    (d_mul (d_mul (d_mul (d_mul (ofnat DoubleN 3) m) m) m) m)) (CentralMoment RN 4 (map val xs)) 14 260.
  Proof. rewrite raw4. exact (fourth_close k h _ _ _ _ _ _ _ _ K Hh A1 A2 A3 A4). Qed.
End Shape.
