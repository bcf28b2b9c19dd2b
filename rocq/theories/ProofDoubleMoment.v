(** The accuracy of moments of doubles. *)
From Coq Require Import ZArith List Bool Reals Lra Lia Arith Psatz Permutation.
From Flocq Require Import Core IEEE754.BinarySingleNaN.
From Verif Require Import Num NumFacts ModelBasic ModelRounding ModelDouble SpecStats SpecDouble SpecDoubleVariance SpecDoubleWeighted SpecDoubleMoment ProofBasic ProofBasic2 ProofKahan ProofDouble ProofDouble2 ProofDouble3 ProofDouble5 ProofDoubleEx
  ProofDoubleVariance ProofDoubleVariance2 ProofDoubleVariance3 ProofDoubleWeighted ProofDoubleWeighted2 ProofDoubleWeighted3 ProofDoubleWVariance3.
Import ListNotations.
Local Open Scope R_scope.

(** ** Powers *)
Definition pw (N : nat) (x : double) : double := match npow DoubleN x N with Some p => p | None => x end.
Lemma npow_pw N x : (1 <= N)%nat -> npow DoubleN x N = Some (pw N x).
Proof. intros H. unfold pw. destruct (npow_total DoubleN x N H) as [p ->]. reflexivity. Qed.

Lemma tiny_low m : (-1000 <= m)%Z -> 1000 * tiny <= roundoff * bpow radix2 m.
Proof.
  intros M. rewrite tiny_is, roundoff_is. unfold b64_u.
  apply Rle_trans with (bpow radix2 10 * bpow radix2 (-1075)).
  { replace (bpow radix2 (-1075)) with (/ 2 * bpow radix2 (-1074)) by (change (-1075)%Z with (-1 + -1074)%Z; rewrite bpow_plus; reflexivity).
    apply Rmult_le_compat_r; [assert (0 < bpow radix2 (-1074)) by apply bpow_gt_0; lra | change (bpow radix2 10) with 1024; lra]. }
  rewrite <- bpow_plus. apply Rle_trans with (bpow radix2 (-53 + m)); [apply bpow_le; lia |]. rewrite bpow_plus. apply Rmult_le_compat_r; [apply bpow_ge_0 |].
  try (right; reflexivity). 
Qed.

Definition up (k : Z) (n : nat) : R := bpow radix2 (k * Z.of_nat n).
Lemma up_add k m n : up k (m + n) = up k m * up k n.
Proof. unfold up. rewrite Nat2Z.inj_add, Z.mul_add_distr_l. apply bpow_plus. Qed.
Lemma up_pos k n : 0 < up k n. Proof. apply bpow_gt_0. Qed.

(** One product of powers. *)
Lemma product_step k m n x y r s e f : (-1000 <= k * Z.of_nat (m + n) <= 1000)%Z ->
  finite x -> finite y -> Rabs (val x) <= up k m -> Rabs (val y) <= up k n -> Rabs r <= up k m ->
  Rabs (val x - r) <= e * up k m -> Rabs (val y - s) <= f * up k n ->
  finite (d_mul x y) /\ Rabs (val (d_mul x y)) <= up k (m + n) /\ Rabs (val (d_mul x y) - r * s) <= (e + f + 1.001 * roundoff) * up k (m + n).
Proof.
  intros H Fx Fy Bx By Br Ex Ey. assert (Hu := roundoff_small).
  assert (S : Rabs (val x * val y) <= up k (m + n)) by (rewrite up_add, Rabs_mult; apply Rmult_le_compat; auto using Rabs_pos).
  assert (R : Rabs (b64_round (B2R x * B2R y)) <= up k (m + n)) by (apply round_abs; [apply generic_format_bpow; unfold FLT_exp; lia | exact S]).
  destruct (mul_ok x y Fx Fy) as [F E]; [eapply Rle_lt_trans; [exact R | apply bpow_lt; lia] |].
  split; [exact F |]. unfold val at 1 2. rewrite E. split; [exact R |].
  assert (N := near_le roundoff tiny _ _ _ ltac:(lra) (round_near (val x * val y)) S).
  assert (T := tiny_low (k * Z.of_nat (m + n)) ltac:(lia)). fold (up k (m + n)) in T.
  assert (C := close_mult _ _ _ _ _ _ _ _ Ex Ey Br By).
  assert (D := close_trans _ _ _ _ _ N C). unfold val in D at 1 2. eapply Rle_trans; [exact D |].
  rewrite up_add in *. assert (P := up_pos k m). assert (Q := up_pos k n). nra.
Qed.

Lemma power_R (x : R) n : power RN x n = x ^ n.
Proof. induction n as [|n IH]; [reflexivity |]. cbn [power pow]. rewrite <- IH. reflexivity. Qed.
Lemma power_up x k n : Rabs x <= up k 1 -> Rabs (x ^ n) <= up k n.
Proof.
  intros H. rewrite <- RPow_abs. induction n as [|n IH]; [unfold up; rewrite Z.mul_0_r; cbn; lra |].
  change (S n) with (1 + n)%nat. rewrite up_add. cbn [pow Nat.add]. apply Rmult_le_compat; auto using Rabs_pos. apply pow_le, Rabs_pos.
Qed.
Lemma between k n N : (1 <= n <= N)%nat -> (-1000 <= k * Z.of_nat N <= 1000)%Z -> (-1000 <= k * Z.of_nat n <= 1000)%Z.
Proof. intros H B. nia. Qed.

Lemma npow_close k x f : finite x -> Rabs (val x) <= up k 1 -> forall n, (1 <= n)%nat -> (n <= f)%nat -> (-1000 <= k * Z.of_nat n <= 1000)%Z ->
  exists p, npow_fuel DoubleN f x n = Some p /\ finite p /\ Rabs (val p) <= up k n /\ Rabs (val p - val x ^ n) <= (1.001 * roundoff * (INR n - 1)) * up k n.
Proof.
  intros F B. induction f as [|f IH]; intros n N1 Nf H; [lia |]. cbn [npow_fuel]. destruct (Nat.eqb_spec n 1) as [->|N2].
  - exists x. split; [reflexivity |]. split; [exact F |]. split; [exact B |]. rewrite pow_1. replace (val x - val x) with 0 by ring. rewrite Rabs_R0. cbn [INR]. lra.
  - assert (Hdm := Nat.div_mod n 2 ltac:(lia)). assert (Hmod := Nat.mod_upper_bound n 2 ltac:(lia)).
    set (h := Nat.div n 2) in *. set (r := Nat.modulo n 2) in *.
    destruct (IH h ltac:(lia) ltac:(lia) (between k h n ltac:(lia) H)) as (y & -> & Fy & By & Ey).
    assert (Bh := power_up _ _ h B).
    destruct (product_step k h h y y (val x ^ h) (val x ^ h) _ _ (between k (h + h) n ltac:(lia) H) Fy Fy By By Bh Ey Ey) as (Fz & Bz & Ez).
    rewrite <- pow_add in Ez. cbv zeta. change (mul DoubleN) with d_mul.
    destruct (Nat.eqb_spec r 0) as [Hr|Hr].
    + eexists. split; [reflexivity |]. replace n with (h + h)%nat by lia. split; [exact Fz |]. split; [exact Bz |].
      eapply Rle_trans; [exact Ez |]. right. rewrite plus_INR. ring.
    + eexists. split; [reflexivity |]. replace n with (h + h + 1)%nat by lia.
      assert (Bhh := power_up _ _ (h + h) B).
      assert (E0 : Rabs (val x - val x ^ 1) <= 0 * up k 1) by (rewrite pow_1; replace (val x - val x) with 0 by ring; rewrite Rabs_R0; lra).
      destruct (product_step k (h + h) 1 (d_mul y y) x (val x ^ (h + h)) (val x ^ 1) _ _ (between k (h + h + 1) n ltac:(lia) H) Fz F Bz B Bhh Ez E0) as (Fw & Bw & Ew).
      rewrite <- pow_add in Ew. split; [exact Fw |]. split; [exact Bw |]. eapply Rle_trans; [exact Ew |]. right. rewrite !plus_INR. cbn [INR]. ring.
Qed.
Lemma pw_close k x n : finite x -> Rabs (val x) <= bpow radix2 k -> (1 <= n)%nat -> (-1000 <= k * Z.of_nat n <= 1000)%Z ->
  finite (pw n x) /\ Rabs (val (pw n x)) <= up k n /\ Rabs (val (pw n x) - val x ^ n) <= (1.001 * roundoff * (INR n - 1)) * up k n.
Proof.
  intros F B N H. unfold pw, npow.
  destruct (npow_close k x n F ltac:(unfold up; rewrite Z.mul_1_r; exact B) n N (le_n _) H) as (p & -> & R). exact R.
Qed.

(** ** The accumulated moment *)
Lemma moment_set N xs : (1 <= N)%nat -> mom_set_run DoubleN [N] d_zero xs =
  Some {| mo_count := length xs; mo_sum := sum_run DoubleN d_zero xs; mo_sums := [sum_run DoubleN d_zero (map (pw N) xs)] |}.
Proof.
  intros H. induction xs as [|x xs IH] using rev_ind; [reflexivity |].
  assert (E : mom_set_run DoubleN [N] d_zero (xs ++ [x]) = mom_set_push DoubleN [N] (mom_set_run DoubleN [N] d_zero xs) x) by (unfold mom_set_run; exact (fold_left_app _ xs [x] _)).
  rewrite E, IH. unfold mom_set_push. cbn [mo_sums mo_count mo_sum moment_ops]. unfold moment_op. rewrite (npow_pw N x H).
  rewrite map_app. cbn [map]. rewrite !sum_snoc, app_length, Nat.add_1_r. reflexivity.
Qed.
Lemma moment_is N xs : (1 <= N)%nat -> moment_run DoubleN N d_zero xs = Some (lazy_mean (map (pw N) xs)).
Proof. intros H. unfold moment_run. rewrite (moment_set N xs H), lazy_mean_is, map_length. reflexivity. Qed.

Lemma first_moment xs : moment_run DoubleN 1 d_zero xs = Some (lazy_mean xs).
Proof. rewrite moment_is by lia. f_equal. f_equal. rewrite <- (map_id xs) at 2. apply map_ext. reflexivity. Qed.

Lemma powers_sum k n xs : (1 <= n)%nat -> (-1000 <= k * Z.of_nat n <= 1000)%Z -> Within (bpow radix2 k) xs ->
  Within (up k n) (map (pw n) xs) /\
  Rabs (ExactSum (map (pw n) xs) - total RN (fun x => x ^ n) (vals xs)) <= INR (length xs) * (1.001 * roundoff * (INR n - 1) * up k n).
Proof.
  intros N H. induction 1 as [|x xs [F B] _ [IH1 IH2]].
  - split; [constructor |]. unfold ExactSum. cbn. rewrite Rminus_0_r, Rabs_R0. lra.
  - destruct (pw_close k x n F B N H) as (F' & B' & E). split; [constructor; [split; assumption | exact IH1] |].
    change (Rabs (val (pw n x) + ExactSum (map (pw n) xs) - (val x ^ n + total RN (fun x => x ^ n) (vals xs)))
      <= INR (length (x :: xs)) * (1.001 * roundoff * (INR n - 1) * up k n)).
    cbn [length]. rewrite S_INR. apply Rabs_le_inv in E. apply Rabs_le_inv in IH2. cbn [car RN] in *. apply Rabs_le. lra.
Qed.
Lemma exact_moment_is n xs : ExactMoment n xs = total RN (fun x => x ^ n) (vals xs) / INR (length xs).
Proof.
  unfold ExactMoment, Moment, average. fold (vals xs). cbn [div RN]. rewrite R_ofnat, vals_length. f_equal.
Qed.
Lemma one_le {A} (xs : list A) : xs <> [] -> 1 <= INR (length xs).
Proof. intros N. replace 1 with (INR 1) by reflexivity. apply le_INR. destruct xs; [congruence | cbn; lia]. Qed.
Lemma one_le_nat n : (1 <= n)%nat -> 1 <= INR n.
Proof. intros N. replace 1 with (INR 1) by reflexivity. apply le_INR. exact N. Qed.

Lemma moment_accurate N k xs : (1 <= N)%nat -> Few xs -> xs <> [] -> (-900 <= k * Z.of_nat N <= 900)%Z -> Within (powerRZ 2 k) xs ->
  exists v, moment_run DoubleN N d_zero xs = Some v /\ finite v /\ Rabs (val v) <= powerRZ 2 (k * Z.of_nat N) /\
    Rabs (val v - ExactMoment N xs) <= 2 * (INR (length xs) + INR N) * roundoff * powerRZ 2 (k * Z.of_nat N).
Proof.
  intros HN L NE H W. rewrite <- !(bpow_powerRZ radix2) in *. eexists. split; [exact (moment_is N xs HN) |].
  destruct (powers_sum k N xs HN ltac:(lia) W) as [WP SP]. set (ps := map (pw N) xs) in *.
  assert (Lp : length ps = length xs) by apply map_length.
  destruct (lazy_close (k * Z.of_nat N) ps) as (F & B & E); [rewrite Lp; exact L | lia | lia | destruct xs; [congruence | discriminate] | exact WP |].
  split; [exact F |]. split; [exact B |]. rewrite Lp in E. fold (up k N) in *.
  assert (T := tiny_low (k * Z.of_nat N) ltac:(lia)). fold (up k N) in T. assert (Hu := roundoff_small). assert (P := up_pos k N).
  assert (n1 := one_le xs NE). assert (N1 := one_le_nat N HN). rewrite exact_moment_is. set (n := INR (length xs)) in *.
  assert (S : Rabs (ExactMean ps - total RN (fun x => x ^ N) (vals xs) / n) <= 1.001 * roundoff * (INR N - 1) * up k N).
  { unfold ExactMean. rewrite Lp. fold n. replace (ExactSum ps / n - total RN (fun x => x ^ N) (vals xs) / n) with ((ExactSum ps - total RN (fun x => x ^ N) (vals xs)) * / n) by (cbn [car RN]; field; lra).
    rewrite Rabs_mult, (Rabs_pos_eq (/ n)) by (left; apply Rinv_0_lt_compat; lra). apply Rmult_le_reg_r with n; [lra |]. rewrite Rmult_assoc, Rinv_l by lra. cbn [car RN] in *. lra. }
  assert (D := close_trans _ _ _ _ _ E S). eapply Rle_trans; [exact D |].
  assert (U : 0 < roundoff * up k N) by nra. set (U' := roundoff * up k N) in *.
  replace (1.02 * (n * roundoff) * up k N + tiny + 1.001 * roundoff * (INR N - 1) * up k N) with (1.02 * n * U' + tiny + 1.001 * (INR N - 1) * U') by (unfold U'; ring).
  replace (2 * (n + INR N) * roundoff * up k N) with (2 * (n + INR N) * U') by (unfold U'; ring). nra.
Qed.
Lemma exact_moment_perm n xs ys : Permutation xs ys -> ExactMoment n xs = ExactMoment n ys.
Proof.
  intros P. rewrite !exact_moment_is. rewrite (Permutation_length P). f_equal. unfold vals. apply (Permutation_map val) in P.
  induction P as [|x l l' P IH|x y l|l l' l'' P1 IH1 P2 IH2]; [reflexivity | | |].
  - change (x ^ n + total RN (fun x => x ^ n) l = x ^ n + total RN (fun x => x ^ n) l'). rewrite IH. reflexivity.
  - change (y ^ n + (x ^ n + total RN (fun x => x ^ n) l) = x ^ n + (y ^ n + total RN (fun x => x ^ n) l)). ring.
  - congruence.
Qed.
Lemma moment_orders N k xs ys : Permutation xs ys -> (1 <= N)%nat -> Few xs -> xs <> [] -> (-900 <= k * Z.of_nat N <= 900)%Z -> Within (powerRZ 2 k) xs ->
  exists v w, moment_run DoubleN N d_zero xs = Some v /\ moment_run DoubleN N d_zero ys = Some w /\
    Rabs (val v - val w) <= 4 * (INR (length xs) + INR N) * roundoff * powerRZ 2 (k * Z.of_nat N).
Proof.
  intros P HN L NE H W. destruct (moment_accurate N k xs HN L NE H W) as (v & Ev & _ & _ & Bv).
  destruct (moment_accurate N k ys HN) as (w & Ew & _ & _ & Bw).
  { unfold Few in *. rewrite <- (Permutation_length P). exact L. } { intros ->. apply NE, Permutation_nil, Permutation_sym, P. } { exact H. }
  { unfold Within in *. rewrite Forall_forall in *. intros x X. apply W. eapply Permutation_in; [apply Permutation_sym, P | exact X]. }
  exists v, w. split; [exact Ev |]. split; [exact Ew |]. rewrite <- (exact_moment_perm N _ _ P), <- (Permutation_length P) in Bw.
  rewrite Rabs_minus_sym in Bw. assert (D := close_trans _ _ _ _ _ Bv Bw). lra.
Qed.

(** ** Even moments are not negative *)
Lemma pw_even_unsigned N x : (1 <= N)%nat -> Nat.even N = true -> unsigned (pw N x).
Proof.
  intros H E. unfold pw, npow. destruct N as [|f]; [lia |]. cbn [npow_fuel]. destruct (Nat.eqb_spec (S f) 1) as [E1|E1]; [rewrite E1 in E; discriminate |].
  assert (M : (S f mod 2 = 0)%nat). { apply Nat.even_spec in E. destruct E as [q ->]. rewrite Nat.mul_comm. apply Nat.mod_mul. lia. }
  destruct (npow_fuel_total DoubleN x f (Nat.div (S f) 2)) as [y ->].
  { apply Nat.div_le_lower_bound; lia. } { assert (D := Nat.div_lt (S f) 2 ltac:(lia) ltac:(lia)). lia. }
  rewrite M. cbn [Nat.eqb]. apply unsigned_square.
Qed.
Lemma even_moment N xs v : (1 <= N)%nat -> Nat.even N = true -> moment_run DoubleN N d_zero xs = Some v -> d_lt v d_zero = false.
Proof.
  intros H E. rewrite (moment_is N xs H). intros V. injection V as <-. apply unsigned_not_negative. rewrite lazy_mean_is. apply unsigned_div; [| apply unsigned_ofnat].
  induction xs as [|x xs IH] using rev_ind; [right; reflexivity |]. rewrite map_app. cbn [map]. rewrite sum_snoc. apply unsigned_add; [exact IH | apply pw_even_unsigned; assumption].
Qed.
