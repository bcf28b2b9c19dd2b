(** The accuracy of weighted moments of doubles, and moments of integers. *)
From Coq Require Import ZArith List Bool Reals Lra Lia Arith Psatz Permutation.
From Flocq Require Import Core IEEE754.BinarySingleNaN.
From Verif Require Import Num NumFacts ModelBasic ModelRounding ModelDouble SpecStats SpecDouble SpecDoubleVariance SpecDoubleWeighted SpecDoubleMoment ProofBasic ProofBasic2 ProofKahan ProofDouble ProofDouble2 ProofDouble3 ProofDouble5 ProofDoubleEx
  ProofDoubleVariance ProofDoubleVariance2 ProofDoubleVariance3 ProofDoubleWeighted ProofDoubleWeighted2 ProofDoubleWeighted3 ProofDoubleVariance4 ProofDoubleWVariance3 ProofDoubleMoment.
Import ListNotations.
Local Open Scope R_scope.

(** ** Weighted *)
Definition wpw (N : nat) (h : list (double * double)) : list (double * double) := map (fun p => (pw N (fst p), snd p)) h.
Lemma wmoment_set N (h : list (double * double)) : (1 <= N)%nat -> wmom_set_run DoubleN [N] d_zero d_zero h =
  Some (Build_wmom_set DoubleN (Wsum h) (sum_run DoubleN d_zero (products h)) [sum_run DoubleN d_zero (products (wpw N h))]).
Proof.
  intros H. induction h as [|[x w] h IH] using rev_ind; [reflexivity |].
  assert (E : wmom_set_run DoubleN [N] d_zero d_zero (h ++ [(x, w)]) = wmom_set_push DoubleN [N] (wmom_set_run DoubleN [N] d_zero d_zero h) (x, w)) by (unfold wmom_set_run; exact (fold_left_app _ h [(x, w)] _)).
  rewrite E, IH. unfold wmom_set_push. cbn [wo_sums wo_W wo_sum weighted_moment_ops fst snd]. unfold weighted_moment_op. rewrite (npow_pw N x H).
  rewrite Wsum_snoc. unfold wpw, products. rewrite !map_app. cbn [map fst snd]. rewrite !sum_snoc. rewrite (d_mul_comm (pw N x) w). reflexivity.
Qed.
Lemma wpw_W N h : Wsum (wpw N h) = Wsum h.
Proof. unfold Wsum, wpw. rewrite map_map. reflexivity. Qed.
Lemma weighted_moment_is N h : (1 <= N)%nat -> weighted_moment_run DoubleN N d_zero h = Some (wmean_set_mean DoubleN (wmean_set_run DoubleN d_zero d_zero (wpw N h))).
Proof. intros H. rewrite dwmean_is, wpw_W. unfold weighted_moment_run. change (zero DoubleN) with d_zero. rewrite (wmoment_set N h H). reflexivity. Qed.

Lemma wpowers_sum k n c h : (1 <= n)%nat -> (-1000 <= k * Z.of_nat n <= 1000)%Z -> Within (bpow radix2 k) (map fst h) -> Weights c h ->
  Within (up k n) (map fst (wpw n h)) /\ Weights c (wpw n h) /\ ExactWeight (wpw n h) = ExactWeight h /\ 0 <= ExactWeight h /\
  Rabs (ExactWeightedSum (wpw n h) - total RN (fun p => val (fst p) ^ n * val (snd p)) h) <= ExactWeight h * (1.001 * roundoff * (INR n - 1) * up k n).
Proof.
  intros N H W V. induction h as [|[x w] h IH].
  - split; [constructor |]. split; [constructor |]. unfold ExactWeight, ExactWeightedSum, ExactSum. cbn. rewrite Rminus_0_r, Rabs_R0. lra.
  - inversion W as [|? ? [F B] W']; subst. inversion V as [|? ? [Fw [Pw Cw]] V']; subst. cbn [fst snd] in *.
    destruct (IH W' V') as (I1 & I2 & I3 & I4 & I5). destruct (pw_close k x n F B N H) as (F' & B' & E).
    split; [constructor; [split; assumption | exact I1] |]. split; [constructor; [repeat split; assumption | exact I2] |].
    change (ExactWeight (wpw n ((x, w) :: h))) with (val w + ExactWeight (wpw n h)). change (ExactWeight ((x, w) :: h)) with (val w + ExactWeight h).
    split; [rewrite I3; reflexivity |]. split; [lra |].
    change (Rabs (val (pw n x) * val w + ExactWeightedSum (wpw n h) - (val x ^ n * val w + total RN (fun p => val (fst p) ^ n * val (snd p)) h))
      <= (val w + ExactWeight h) * (1.001 * roundoff * (INR n - 1) * up k n)).
    assert (E' : Rabs (val (pw n x) * val w - val x ^ n * val w) <= val w * (1.001 * roundoff * (INR n - 1) * up k n)).
    { replace (val (pw n x) * val w - val x ^ n * val w) with (val w * (val (pw n x) - val x ^ n)) by ring. rewrite Rabs_mult, (Rabs_pos_eq (val w)) by exact Pw. apply Rmult_le_compat_l; assumption. }
    apply Rabs_le_inv in E'. apply Rabs_le_inv in I5. cbn [car RN] in *. apply Rabs_le. lra.
Qed.
Lemma exact_wmoment_is n h : ExactWeightedMoment n h = total RN (fun p => val (fst p) ^ n * val (snd p)) h / ExactWeight h.
Proof.
  assert (T : forall (A B : Type) (g : A -> B) (f : B -> R) (l : list A), total RN f (map g l) = total RN (fun p => f (g p)) l).
  { intros A B g f l. induction l as [|p l IH]; [reflexivity |]. cbn [map]. change (f (g p) + total RN f (map g l) = f (g p) + total RN (fun p => f (g p)) l). rewrite IH. reflexivity. }
  unfold ExactWeightedMoment, WMoment, waverage, TotalWeight, ExactWeight, ExactSum. cbn [div RN]. f_equal; [| f_equal].
  - etransitivity; [apply T |]. cbn [fst snd]. induction h as [|p h IH]; [reflexivity |].
    change (val (snd p) * power RN (val (fst p)) n + total RN (fun p => val (snd p) * power RN (val (fst p)) n) h = val (fst p) ^ n * val (snd p) + total RN (fun p => val (fst p) ^ n * val (snd p)) h).
    cbn [mul RN car] in IH. rewrite IH, power_R. f_equal. apply Rmult_comm.
  - etransitivity; [apply T |]. symmetry. apply T.
Qed.
Lemma weighted_moment_accurate N k j h : (1 <= N)%nat -> Few h -> h <> [] -> (-450 <= k * Z.of_nat N <= 450)%Z -> (-450 <= j <= 450)%Z ->
  Within (powerRZ 2 k) (map fst h) -> Weights (powerRZ 2 j) h -> / 2 ^ 450 <= ExactWeight h ->
  exists v, weighted_moment_run DoubleN N d_zero h = Some v /\ finite v /\
    Rabs (val v - ExactWeightedMoment N h) <= 4 * (INR (length h) + INR N) * roundoff * powerRZ 2 (k * Z.of_nat N).
Proof.
  intros HN L NE H J W V LW. rewrite <- !(bpow_powerRZ radix2) in *. rewrite low_pow in LW. eexists. split; [exact (weighted_moment_is N h HN) |].
  destruct (wpowers_sum k N _ h HN ltac:(lia) W V) as (W' & V' & EW & _ & S).
  assert (Lp : length (wpw N h) = length h) by apply map_length.
  destruct (weighted_mean_close (k * Z.of_nat N) j (wpw N h)) as [F E]; [unfold Few in *; rewrite Lp; exact L | lia | lia | lia | lia | destruct h; [congruence | discriminate] | exact W' | exact V' | rewrite EW; exact LW |].
  split; [exact F |]. rewrite Lp in E. fold (up k N) in *. assert (Hu := roundoff_small). assert (P := up_pos k N).
  assert (n1 := one_le h NE). assert (N1 := one_le_nat N HN). rewrite exact_wmoment_is. assert (WP : 0 < ExactWeight h) by (eapply Rlt_le_trans; [apply bpow_gt_0 | exact LW]).
  assert (D : Rabs (ExactWeightedMean (wpw N h) - total RN (fun p => val (fst p) ^ N * val (snd p)) h / ExactWeight h) <= 1.001 * roundoff * (INR N - 1) * up k N).
  { unfold ExactWeightedMean. rewrite EW. set (t := total RN _ h) in *. replace (ExactWeightedSum (wpw N h) / ExactWeight h - t / ExactWeight h) with ((ExactWeightedSum (wpw N h) - t) * / ExactWeight h) by (cbn [car RN] in *; field; lra).
    rewrite Rabs_mult, (Rabs_pos_eq (/ _)) by (left; apply Rinv_0_lt_compat; exact WP). apply Rmult_le_reg_r with (ExactWeight h); [exact WP |]. rewrite Rmult_assoc, Rinv_l by lra. cbn [car RN] in *. lra. }
  assert (C := close_trans _ _ _ _ _ E D). eapply Rle_trans; [exact C |].
  assert (U : 0 < roundoff * up k N) by nra. set (U' := roundoff * up k N) in *.
  replace (4 * INR (length h) * roundoff * up k N + 1.001 * roundoff * (INR N - 1) * up k N) with (4 * INR (length h) * U' + 1.001 * (INR N - 1) * U') by (unfold U'; ring).
  replace (4 * (INR (length h) + INR N) * roundoff * up k N) with (4 * (INR (length h) + INR N) * U') by (unfold U'; ring). nra.
Qed.

(** ** Integers *)
Definition holds (x : double) (z : Z) : Prop := finite x /\ val x = IZR z.
Lemma mul_holds x y a b : holds x a -> holds y b -> (Z.abs (a * b) <= 2 ^ 53)%Z -> holds (d_mul x y) (a * b).
Proof.
  intros [Fx Ex] [Fy Ey] B. unfold holds. assert (X : B2R x * B2R y = IZR (a * b)) by (rewrite mult_IZR; f_equal; assumption).
  destruct (mul_ok x y Fx Fy) as [F E]; [rewrite X, b64_exact_int by exact B; apply int_small; exact B |]. rewrite X, b64_exact_int in E by exact B. split; assumption.
Qed.
Lemma zpow_le z m n : (1 <= m <= n)%nat -> (Z.abs (z ^ Z.of_nat m) <= Z.abs (z ^ Z.of_nat n))%Z.
Proof.
  intros H. rewrite !Z.abs_pow. destruct (Z.eq_dec z 0) as [->|NZ]; [rewrite !Z.pow_0_l by lia; lia |]. apply Z.pow_le_mono_r; lia.
Qed.
Lemma npow_holds x z f : holds x z -> forall n, (1 <= n)%nat -> (n <= f)%nat -> (Z.abs (z ^ Z.of_nat n) <= 2 ^ 53)%Z ->
  exists p, npow_fuel DoubleN f x n = Some p /\ holds p (z ^ Z.of_nat n).
Proof.
  intros X. induction f as [|f IH]; intros n N1 Nf H; [lia |]. cbn [npow_fuel]. destruct (Nat.eqb_spec n 1) as [->|N2].
  - exists x. split; [reflexivity |]. rewrite Z.pow_1_r. exact X.
  - assert (Hdm := Nat.div_mod n 2 ltac:(lia)). assert (Hmod := Nat.mod_upper_bound n 2 ltac:(lia)).
    set (h := Nat.div n 2) in *. set (r := Nat.modulo n 2) in *.
    destruct (IH h ltac:(lia) ltac:(lia)) as (y & -> & Y); [eapply Z.le_trans; [apply (zpow_le z h n); lia | exact H] |].
    assert (E2 : (z ^ Z.of_nat h * z ^ Z.of_nat h = z ^ Z.of_nat (h + h))%Z) by (rewrite Nat2Z.inj_add, Z.pow_add_r by lia; reflexivity).
    assert (Q : holds (d_mul y y) (z ^ Z.of_nat (h + h))).
    { rewrite <- E2. apply mul_holds; [exact Y | exact Y |]. rewrite E2. eapply Z.le_trans; [apply (zpow_le z (h + h) n); lia | exact H]. }
    cbv zeta. change (mul DoubleN) with d_mul. destruct (Nat.eqb_spec r 0) as [Hr|Hr]; (eexists; split; [reflexivity |]).
    + replace n with (h + h)%nat by lia. exact Q.
    + assert (E3 : (z ^ Z.of_nat n = z ^ Z.of_nat (h + h) * z)%Z) by (replace n with (h + h + 1)%nat by lia; rewrite (Nat2Z.inj_add (h + h) 1), Z.pow_add_r by lia; rewrite Z.pow_1_r; reflexivity).
      rewrite E3 in *. apply mul_holds; assumption.
Qed.
Lemma integer_moment N zs xs : (1 <= N)%nat -> Countable xs -> xs <> [] -> Are zs xs -> (fold_right (fun z a => Z.abs (z ^ Z.of_nat N) + a) 0 zs <= 2 ^ 53)%Z ->
  exists v, moment_run DoubleN N d_zero xs = Some v /\ finite v /\ Rabs (val v - ExactMoment N xs) <= roundoff * Rabs (ExactMoment N xs) + tiny.
Proof.
  intros HN C NE A B. eexists. split; [exact (moment_is N xs HN) |].
  assert (P : Forall2 holds (map (pw N) xs) (map (fun z => z ^ Z.of_nat N)%Z zs) /\ ExactSum (map (pw N) xs) = total RN (fun x => x ^ N) (vals xs) /\
    fold_right (fun z a => Z.abs z + a)%Z 0%Z (map (fun z => z ^ Z.of_nat N)%Z zs) = fold_right (fun z a => Z.abs (z ^ Z.of_nat N) + a)%Z 0%Z zs).
  { clear C NE. revert B. induction A as [|x z xs zs X A IH]; intros B; [repeat split; constructor |]. cbn [fold_right] in B.
    assert (Z0 : (0 <= fold_right (fun z a => Z.abs (z ^ Z.of_nat N) + a) 0 zs)%Z) by (clear; induction zs; cbn [fold_right]; lia).
    destruct IH as (I1 & I2 & I3); [lia |]. destruct (npow_holds x z N X N HN (le_n _)) as (p & E & Hp); [lia |].
    assert (E' : pw N x = p) by (unfold pw, npow; rewrite E; reflexivity). cbn [map fold_right]. rewrite I3, E'. split; [constructor; assumption |]. split; [| reflexivity].
    change (val p + ExactSum (map (pw N) xs) = val x ^ N + total RN (fun x => x ^ N) (vals xs)). rewrite I2. f_equal. rewrite (proj2 Hp), (proj2 X). symmetry. apply pow_IZR. }
  destruct P as (P1 & P2 & P3). rewrite <- P3 in B. destruct (sum_integers _ _ P1 B) as [F E]. rewrite P2 in E.
  assert (n1 := one_le xs NE). destruct (ofnat_exact (length xs) C) as [Fn En]. rewrite lazy_mean_is, map_length.
  set (s := sum_run DoubleN d_zero (map (pw N) xs)) in *.
  destruct (div_ok s (ofnat DoubleN (length xs))) as [F' E']; [rewrite En; lra | exact F | |].
  { rewrite En. apply Rle_lt_trans with (Rabs (B2R s)).
    - apply round_abs; [apply generic_format_abs; exact (val_format s) |]. unfold Rdiv. rewrite Rabs_mult, (Rabs_pos_eq (/ _)) by (left; apply Rinv_0_lt_compat; lra).
      apply Rmult_le_reg_r with (INR (length xs)); [lra |]. rewrite Rmult_assoc, Rinv_l by lra. assert (0 <= Rabs (B2R s)) by apply Rabs_pos. nra.
    - apply abs_B2R_lt_emax. }
  split; [exact F' |]. unfold val at 1. rewrite E', En. fold (val s). rewrite E, exact_moment_is. apply round_near.
Qed.

(** ** Cases *)
Lemma three_moments_ok : Few [big1; big2; tenth] /\ (-900 <= 28 * Z.of_nat 5 <= 900)%Z /\ Within (powerRZ 2 28) [big1; big2; tenth].
Proof. split; [vm_compute; discriminate |]. split; [lia |]. exact (proj2 (proj2 three_ok)). Qed.
Lemma weighted_moments_ok : let h := [(big1, tenth); (big2, d_zero); (tenth, d_one)] in
  Few h /\ (-450 <= 28 * Z.of_nat 5 <= 450)%Z /\ Within (powerRZ 2 28) (map fst h) /\ Weights (powerRZ 2 0) h /\ / 2 ^ 450 <= ExactWeight h.
Proof.
  destruct weighted_ok as (L & _ & _ & W & V & T). cbv zeta. split; [exact L |]. split; [lia |]. split; [exact W |]. split; [exact V |].
  eapply Rle_trans; [exact T |]. change (ExactWeight [(big1, tenth); (big2, d_zero); (tenth, d_one)]) with (val tenth + (0 + (val d_one + 0))).
  inversion V as [|? ? _ V1]; subst. inversion V1 as [|? ? _ V2]; subst. inversion V2 as [|? ? [_ [P _]] _]; subst. cbn [snd] in P. lra.
Qed.
Lemma integer_moments_ok : Are [7; -3; 7]%Z [dbl 7 0; dbl (-3) 0; dbl 7 0] /\ (fold_right (fun z a => Z.abs (z ^ Z.of_nat 5) + a) 0 [7; -3; 7] <= 2 ^ 53)%Z.
Proof.
  split; [| vm_compute; discriminate]. destruct integers_ex as [I _]. inversion I as [|? ? ? ? _ I1]; subst. inversion I1 as [|? ? ? ? H3 I2]; subst. inversion I2 as [|? ? ? ? H7 _]; subst.
  repeat constructor; try apply H3; apply H7.
Qed.
Definition large := dbl 15 508.
Lemma moment_overflow : finite large /\ finite (pw 2 large) /\ moment_run DoubleN 2 d_zero [large] = Some (pw 2 large) /\ ExactMoment 2 [large; large] = val (pw 2 large) /\
  moment_run DoubleN 2 d_zero [large; large] = Some d_inf.
Proof.
  split; [vm_compute; reflexivity |]. split; [vm_compute; reflexivity |].
  split. { rewrite moment_is by lia. cbn [map]. f_equal. apply (f_equal (fun x => x)). apply B2SF_inj. vm_compute. reflexivity. }
  split.
  - rewrite exact_moment_is. destruct (shown_value large 8444249301319680 459 ltac:(vm_compute; reflexivity)) as [_ E1].
    destruct (shown_value (pw 2 large) 7916483719987200 971 ltac:(vm_compute; reflexivity)) as [_ E2].
    change (total RN (fun x => x ^ 2) (vals [large; large])) with (val large ^ 2 + (val large ^ 2 + 0)). rewrite E2. cbn [length INR].
    rewrite E1. replace (bpow radix2 971) with (bpow radix2 459 * bpow radix2 459 * bpow radix2 53) by (rewrite <- !bpow_plus; reflexivity).
    change (bpow radix2 53) with 9007199254740992. field.
  - rewrite moment_is by lia. f_equal.
Qed.
