(** Sum, mean and variance of doubles. *)
From Coq Require Import ZArith List Bool Reals Lra Lia Arith.
From Flocq Require Import Core Relative IEEE754.BinarySingleNaN.
From Verif Require Import Num NumFacts ModelBasic ModelRounding ModelDouble SpecStats SpecDouble ProofBasic ProofKahan ProofDouble.
Import ListNotations.
Local Open Scope R_scope.

Lemma roundoff_is : roundoff = b64_u.
Proof. unfold roundoff, b64_u. change (-53)%Z with (Z.opp 53). rewrite bpow_opp, <- IZR_Zpower by lia. f_equal. rewrite pow_IZR. f_equal. Qed.
Lemma roundoff_small : 0 < roundoff <= 1 / 100.
Proof.
  rewrite roundoff_is. split; [apply bpow_gt_0 |]. apply b64_u_small.
Qed.
Lemma tiny_is : tiny = / 2 * bpow radix2 (-1074).
Proof.
  unfold tiny. change (-1074)%Z with (Z.opp 1074). rewrite bpow_opp, <- IZR_Zpower by lia.
  rewrite <- Rinv_mult. f_equal.
  rewrite <- mult_IZR, pow_IZR. f_equal.
Qed.
Lemma tiny_pos : 0 < tiny.
Proof. rewrite tiny_is. assert (H := bpow_gt_0 radix2 (-1074)). lra. Qed.

Lemma val_format (x : double) : b64_format (val x).
Proof. apply generic_format_B2R. Qed.
Lemma round_add (x y : double) : exists d, Rabs d <= roundoff /\ b64_round (val x + val y) = (val x + val y) * (1 + d).
Proof. rewrite roundoff_is. apply (rm_add _ _ _ b64_rounding); apply val_format. Qed.
Lemma round_any (r : R) : exists d e, Rabs d <= roundoff /\ Rabs e <= tiny /\ b64_round r = r * (1 + d) + e.
Proof.
  destruct (error_N_FLT radix2 (-1074) 53 eq_refl (fun t => negb (Z.even t)) r) as (d & e & Hd & He & _ & E).
  exists d, e. rewrite tiny_is. split; [| split; [exact He | exact E]].
  eapply Rle_trans; [exact Hd |]. rewrite roundoff_is. unfold b64_u. right.
  change (/ 2) with (bpow radix2 (-1)). rewrite <- bpow_plus. reflexivity.
Qed.
Lemma round_le r s : r <= s -> b64_round r <= b64_round s.
Proof. apply round_le; [apply FLT_exp_valid; reflexivity | apply valid_rnd_N]. Qed.
Lemma round_format r : b64_format r -> b64_round r = r.
Proof. apply round_generic. apply valid_rnd_N. Qed.
Lemma round_abs r b : b64_format b -> Rabs r <= b -> Rabs (b64_round r) <= b.
Proof. intros F H. apply abs_round_le_generic; [apply FLT_exp_valid; reflexivity | apply valid_rnd_N | exact F | exact H]. Qed.

(** ** Sum *)
Lemma sum_snoc (xs : list double) (x : double) : sum_run DoubleN d_zero (xs ++ [x]) = d_add (sum_run DoubleN d_zero xs) x.
Proof. unfold sum_run. rewrite fold_left_app. reflexivity. Qed.
Lemma exact_snoc xs x : ExactSum (xs ++ [x]) = ExactSum xs + val x.
Proof. exact (total_snoc RN RN_field val xs x). Qed.
Lemma magnitude_snoc xs x : Magnitude (xs ++ [x]) = Magnitude xs + Rabs (val x).
Proof. exact (total_snoc RN RN_field (fun x => Rabs (val x)) xs x). Qed.
Lemma magnitude_exact xs : Rabs (ExactSum xs) <= Magnitude xs.
Proof.
  induction xs as [|x xs IH] using rev_ind; [unfold ExactSum, Magnitude; cbn; rewrite Rabs_R0; lra |].
  rewrite exact_snoc, magnitude_snoc. apply Rabs_add_le; [exact IH | lra].
Qed.
Lemma magnitude_nonneg xs : 0 <= Magnitude xs.
Proof. eapply Rle_trans; [apply Rabs_pos | apply magnitude_exact]. Qed.

Lemma sum_finite_all xs : finite (sum_run DoubleN d_zero xs) -> Forall finite xs.
Proof.
  induction xs as [|x xs IH] using rev_ind; intros H; [constructor |].
  rewrite sum_snoc in H. apply add_fin in H as (H1 & H2 & _). apply Forall_app. split; [apply IH, H1 | repeat constructor; exact H2].
Qed.

(** The relative error factor after [n] roundings. *)
Lemma pow_ge_1 n : 1 <= (1 + roundoff) ^ n.
Proof. assert (H := roundoff_small). induction n; cbn; [lra | nra]. Qed.

Lemma step_bound (S T E s x d g : R) : 0 <= E -> Rabs d <= roundoff -> Rabs S <= T -> Rabs (s - S) <= E * T + g ->
  Rabs ((s + x) * (1 + d) - (S + x)) <= ((1 + E) * (1 + roundoff) - 1) * (T + Rabs x) + g * (1 + roundoff).
Proof.
  intros HE Hd HS Hs. assert (Hu := roundoff_small). assert (HT : 0 <= T) by (eapply Rle_trans; [apply Rabs_pos | exact HS]).
  replace ((s + x) * (1 + d) - (S + x)) with ((s - S) * (1 + d) + (S + x) * d) by ring.
  assert (A : Rabs ((s - S) * (1 + d)) <= (E * T + g) * (1 + roundoff)) by (apply Rabs_mul_le; [exact Hs | apply Rabs_1p; exact Hd]).
  assert (B : Rabs ((S + x) * d) <= (T + Rabs x) * roundoff) by (apply Rabs_mul_le; [apply Rabs_add_le; [exact HS | lra] | exact Hd]).
  eapply Rle_trans; [apply Rabs_add_le; [exact A | exact B] |].
  assert (HX := Rabs_pos x). assert (0 <= E * (1 + roundoff) * Rabs x) by (repeat apply Rmult_le_pos; lra). nra.
Qed.

Lemma sum_error xs : finite (sum_run DoubleN d_zero xs) ->
  Rabs (val (sum_run DoubleN d_zero xs) - ExactSum xs) <= ((1 + roundoff) ^ (length xs - 1) - 1) * Magnitude xs.
Proof.
  induction xs as [|x xs IH] using rev_ind; intros H.
  - unfold ExactSum, Magnitude, val; cbn. rewrite Rminus_0_r, Rabs_R0. lra.
  - destruct xs as [|y xs].
    + clear IH H. cbn [app length Nat.sub pow]. unfold ExactSum, Magnitude, sum_run; cbn [fold_left total fold_right].
      assert (E : val (sum_op DoubleN (sum_init DoubleN d_zero) x) = val x) by (destruct x as [[]|[]| |]; reflexivity).
      rewrite E. cbn [RN add zero]. replace (val x - (val x + 0)) with 0 by ring. rewrite Rabs_R0. lra.
    + set (zs := y :: xs) in *. rewrite sum_snoc in *. apply add_fin in H as (H1 & H2 & H3).
      specialize (IH H1). rewrite exact_snoc, magnitude_snoc. unfold val at 1. rewrite H3.
      destruct (round_add (sum_run DoubleN d_zero zs) x) as (d & Hd & Ed). unfold val at 1 2 in Ed. rewrite Ed.
      eapply Rle_trans; [apply step_bound with (E := (1 + roundoff) ^ (length zs - 1) - 1) (g := 0) (T := Magnitude zs) (d := d)|].
      * assert (HP := pow_ge_1 (length zs - 1)). lra.
      * exact Hd.
      * apply magnitude_exact.
      * rewrite Rplus_0_r. exact IH.
      * right. rewrite app_length. cbn [length]. replace (length zs + 1 - 1)%nat with (S (length zs - 1)) by (unfold zs; cbn; lia).
        rewrite <- tech_pow_Rmult. unfold val. ring.
Qed.

(** Integers are added without error while the sum of their magnitudes is at most 2^53. *)
Lemma sum_integers xs zs : Forall2 (fun x z => finite x /\ val x = IZR z) xs zs ->
  (fold_right (fun z a => Z.abs z + a)%Z 0%Z zs <= 2 ^ 53)%Z ->
  finite (sum_run DoubleN d_zero xs) /\ val (sum_run DoubleN d_zero xs) = ExactSum xs.
Proof.
  intros H. assert (K : (Z.abs (fold_right Z.add 0 zs) <= fold_right (fun z a => Z.abs z + a) 0 zs)%Z)
    by (clear; induction zs; cbn; lia).
  cut (forall s z0 zs xs, finite s -> val s = IZR z0 -> Forall2 (fun x z => finite x /\ val x = IZR z) xs zs ->
        (Z.abs z0 + fold_right (fun z a => Z.abs z + a) 0 zs <= 2 ^ 53)%Z ->
        finite (fold_left d_add xs s) /\ val (fold_left d_add xs s) = IZR z0 + ExactSum xs).
  { intros C B. destruct (C d_zero 0%Z zs xs) as [C1 C2]; [reflexivity | reflexivity | exact H | lia |].
    split; [exact C1 |]. rewrite Rplus_0_l in C2. exact C2. }
  clear. intros s z0 zs xs Fs Es H. revert s z0 Fs Es. induction H as [|x z xs zs [Fx Ex] H IH]; intros s z0 Fs Es B.
  - cbn. split; [exact Fs |]. unfold ExactSum; cbn. rewrite Rplus_0_r. exact Es.
  - cbn [fold_left]. cbn [fold_right] in B.
    assert (P : (0 <= fold_right (fun z a => Z.abs z + a) 0 zs)%Z) by (clear; induction zs; cbn; lia).
    assert (X : B2R s + B2R x = IZR (z0 + z)) by (rewrite plus_IZR; f_equal; assumption).
    destruct (add_ok s x Fs Fx) as [F' E']; [rewrite X, b64_exact_int by lia; apply int_small; lia |].
    rewrite X, b64_exact_int in E' by lia.
    destruct (IH (d_add s x) (z0 + z)%Z F' E') as [I1 I2]; [lia |].
    split; [exact I1 |]. rewrite I2, plus_IZR. change (ExactSum (x :: xs)) with (val x + ExactSum xs). rewrite Ex. ring.
Qed.

(** ** Lazy mean *)
Lemma mean_set_is xs : mean_set_run DoubleN d_zero xs = {| ms_count := length xs; ms_sum := sum_run DoubleN d_zero xs |}.
Proof.
  induction xs as [|x xs IH] using rev_ind; [reflexivity |].
  unfold mean_set_run in *. rewrite fold_left_app. cbn [fold_left]. rewrite IH, app_length, sum_snoc. cbn [length].
  unfold mean_set_push. cbn [ms_count ms_sum]. rewrite Nat.add_1_r. reflexivity.
Qed.
Lemma INR_pos n : (0 < n)%nat -> 0 < INR n.
Proof. apply lt_0_INR. Qed.

Lemma lazy_mean_is xs : lazy_mean xs = d_div (sum_run DoubleN d_zero xs) (ofnat DoubleN (length xs)).
Proof. unfold lazy_mean. rewrite mean_set_is. reflexivity. Qed.

Lemma lazy_mean_error xs : Countable xs -> xs <> [] -> finite (lazy_mean xs) ->
  Rabs (val (lazy_mean xs) - ExactMean xs) <= ((1 + roundoff) ^ length xs - 1) * (Magnitude xs / INR (length xs)) + tiny.
Proof.
  intros C N H. rewrite lazy_mean_is in *.
  destruct (ofnat_exact (length xs) C) as [Fn En].
  assert (L : (0 < length xs)%nat) by (destruct xs; [congruence | cbn; lia]).
  assert (Pn := INR_pos _ L).
  apply div_fin in H as [Fs E]; [| rewrite En; lra].
  unfold val at 1. rewrite E, En.
  assert (B := sum_error xs Fs). unfold val in B. set (s := B2R (sum_run DoubleN d_zero xs)) in *.
  destruct (round_any (s / INR (length xs))) as (d & e & Hd & He & R). rewrite R.
  unfold ExactMean.
  replace (s / INR (length xs) * (1 + d) + e - ExactSum xs / INR (length xs))
    with (((s + 0) * (1 + d) - (ExactSum xs + 0)) / INR (length xs) + e) by (field; lra).
  apply Rabs_add_le; [| exact He].
  unfold Rdiv. rewrite Rabs_mult, (Rabs_pos_eq (/ INR (length xs))) by (left; apply Rinv_0_lt_compat, Pn).
  rewrite <- Rmult_assoc. apply Rmult_le_compat_r; [left; apply Rinv_0_lt_compat, Pn |].
  eapply Rle_trans.
  { apply step_bound with (g := 0) (E := (1 + roundoff) ^ (length xs - 1) - 1) (T := Magnitude xs).
    - assert (HP := pow_ge_1 (length xs - 1)). lra.
    - exact Hd.
    - apply magnitude_exact.
    - rewrite Rplus_0_r. exact B. }
  right. rewrite Rabs_R0. replace (length xs) with (S (length xs - 1)) at 2 by lia. rewrite <- tech_pow_Rmult. ring.
Qed.

(** ** Immediate mean *)
Section AnyNumbers.
  Context (K : Num).
  Lemma imean_count s0 xs : im_count K (imean_set_run K s0 xs) = length xs.
  Proof.
    induction xs as [|x xs IH] using rev_ind; [reflexivity |]. unfold imean_set_run in *. rewrite fold_left_app, app_length.
    cbn [fold_left length imean_set_push im_count]. rewrite IH. lia.
  Qed.
  Lemma imean_step s0 xs x : im_mean K (imean_set_run K s0 (xs ++ [x]))
    = div K (add K (mul K (im_mean K (imean_set_run K s0 xs)) (ofnat K (length xs))) x) (ofnat K (S (length xs))).
  Proof.
    unfold imean_set_run at 1. rewrite fold_left_app. cbn [fold_left]. fold (imean_set_run K s0 xs).
    cbn [imean_set_push im_mean]. rewrite imean_count. unfold imm_mean_op. rewrite Nat.sub_succ, Nat.sub_0_r. reflexivity.
  Qed.
  Lemma vset_count s0 xs : vs_count K (var_set_run K s0 xs) = length xs.
  Proof.
    induction xs as [|x xs IH] using rev_ind; [reflexivity |]. unfold var_set_run in *. rewrite fold_left_app, app_length.
    cbn [fold_left length var_set_push vs_count]. rewrite IH. lia.
  Qed.
  Lemma vset_mean s0 xs : vs_mean K (var_set_run K s0 xs) = im_mean K (imean_set_run K s0 xs).
  Proof.
    induction xs as [|x xs IH] using rev_ind; [reflexivity |]. unfold var_set_run, imean_set_run in *. rewrite !fold_left_app.
    cbn [fold_left var_set_push vs_mean imean_set_push im_mean].
    fold (var_set_run K s0 xs). fold (imean_set_run K s0 xs). fold (var_set_run K s0 xs) in IH. fold (imean_set_run K s0 xs) in IH.
    rewrite IH, vset_count, imean_count. reflexivity.
  Qed.
  Lemma vset_step s0 xs x : vs_var K (var_set_run K s0 (xs ++ [x]))
    = variance_op K (vs_var K (var_set_run K s0 xs)) (im_mean K (imean_set_run K s0 (xs ++ [x]))) (S (length xs)) x.
  Proof.
    rewrite <- (vset_mean s0 (xs ++ [x])). unfold var_set_run. rewrite !fold_left_app. cbn [fold_left].
    fold (var_set_run K s0 xs). cbn [var_set_push vs_var vs_mean]. rewrite vset_count. reflexivity.
  Qed.
End AnyNumbers.

Lemma imean_snoc (xs : list double) (x : double) : immediate_mean (xs ++ [x])
  = d_div (d_add (d_mul (immediate_mean xs) (ofnat DoubleN (length xs))) x) (ofnat DoubleN (S (length xs))).
Proof. exact (imean_step DoubleN d_zero xs x). Qed.

(** While the samples are at most 2^k in magnitude, so is the mean, and nothing overflows. *)
Lemma scaled_format (n : nat) k : (Z.of_nat n <= 2 ^ 53)%Z -> (-1000 <= k)%Z -> b64_format (INR n * bpow radix2 k).
Proof.
  intros H K. rewrite INR_IZR_INZ. destruct (Z.eq_dec (Z.of_nat n) (2 ^ 53)) as [E | E].
  - rewrite E. change (2 ^ 53)%Z with (Zpower radix2 53). rewrite IZR_Zpower by lia. rewrite <- bpow_plus.
    apply generic_format_bpow. unfold FLT_exp. lia.
  - apply generic_format_FLT. exists (Float radix2 (Z.of_nat n) k); unfold F2R; cbn [Fnum Fexp]; [reflexivity | cbn; lia | lia].
Qed.
Lemma scaled_small (n : nat) k : (Z.of_nat n <= 2 ^ 53)%Z -> (k <= 970)%Z -> INR n * bpow radix2 k < bpow radix2 1024.
Proof.
  intros H K. apply Rle_lt_trans with (bpow radix2 (53 + k)).
  - rewrite bpow_plus. apply Rmult_le_compat_r; [apply bpow_ge_0 |]. rewrite INR_IZR_INZ.
    rewrite <- IZR_Zpower by lia. apply IZR_le. exact H.
  - apply bpow_lt. lia.
Qed.

Lemma mean_within k xs : Countable xs -> (-1000 <= k)%Z -> (k <= 970)%Z -> Within (bpow radix2 k) xs ->
  finite (immediate_mean xs) /\ Rabs (val (immediate_mean xs)) <= bpow radix2 k.
Proof.
  intros C K K'. induction xs as [|x xs IH] using rev_ind; intros W.
  - split; [reflexivity |]. assert (H := bpow_ge_0 radix2 k).
    change (Rabs (B2R (d_div d_zero d_one)) <= bpow radix2 k). replace (B2R (d_div d_zero d_one)) with 0 by reflexivity. rewrite Rabs_R0. exact H.
  - unfold Countable in *. rewrite app_length in C. cbn [length] in C. apply Forall_app in W as [W Wx]. inversion Wx as [|? ? [Fx Bx] _]; subst.
    destruct IH as [Fm Bm]; [lia | exact W |]. rewrite imean_snoc.
    destruct (ofnat_exact (length xs)) as [Fn En]; [lia |]. destruct (ofnat_exact (S (length xs))) as [Fn' En']; [lia |].
    assert (P0 := bpow_ge_0 radix2 k). assert (Pn : 0 <= INR (length xs)) by apply pos_INR.
    assert (B1 : Rabs (b64_round (B2R (immediate_mean xs) * B2R (ofnat DoubleN (length xs)))) <= INR (length xs) * bpow radix2 k).
    { apply round_abs; [apply scaled_format; lia |]. rewrite En, Rabs_mult, Rmult_comm, (Rabs_pos_eq (INR _)) by exact Pn.
      apply Rmult_le_compat_l; [exact Pn | exact Bm]. }
    destruct (mul_ok (immediate_mean xs) (ofnat DoubleN (length xs)) Fm Fn) as [F1 E1].
    { eapply Rle_lt_trans; [exact B1 | apply scaled_small; lia]. }
    rewrite <- E1 in B1. set (a := d_mul (immediate_mean xs) (ofnat DoubleN (length xs))) in *.
    assert (B2 : Rabs (b64_round (B2R a + B2R x)) <= INR (S (length xs)) * bpow radix2 k).
    { apply round_abs; [apply scaled_format; lia |]. rewrite S_INR. rewrite Rmult_plus_distr_r, Rmult_1_l.
      apply Rabs_add_le; [exact B1 | exact Bx]. }
    destruct (add_ok a x F1 Fx) as [F2 E2]; [eapply Rle_lt_trans; [exact B2 | apply scaled_small; lia] |].
    rewrite <- E2 in B2. set (b := d_add a x) in *.
    assert (Pn' : 0 < INR (S (length xs))) by (apply lt_0_INR; lia).
    assert (B3 : Rabs (b64_round (B2R b / B2R (ofnat DoubleN (S (length xs))))) <= bpow radix2 k).
    { apply round_abs; [apply generic_format_bpow; unfold FLT_exp; lia |]. rewrite En'.
      unfold Rdiv. rewrite Rabs_mult, (Rabs_pos_eq (/ _)) by (left; apply Rinv_0_lt_compat; exact Pn').
      apply Rmult_le_reg_r with (INR (S (length xs))); [exact Pn' |]. rewrite Rmult_assoc, Rinv_l, Rmult_1_r by lra. rewrite Rmult_comm. exact B2. }
    destruct (div_ok b (ofnat DoubleN (S (length xs)))) as [F3 E3].
    + rewrite En'. lra.
    + exact F2.
    + eapply Rle_lt_trans; [exact B3 | apply bpow_lt; lia].
    + unfold val. fold a b. rewrite <- E3 in B3. split; [exact F3 | exact B3].
Qed.
