(** Immediate mean and variance of doubles. *)
From Coq Require Import ZArith List Bool Reals Lra Lia Arith.
From Flocq Require Import Core IEEE754.BinarySingleNaN.
From Verif Require Import Num NumFacts ModelBasic ModelRounding ModelDouble SpecStats SpecDouble ProofBasic ProofKahan ProofDouble ProofDouble2.
Import ListNotations.
Local Open Scope R_scope.

(** ** The error of the immediate mean *)
Lemma pow_3S n : (1 + roundoff) ^ (3 * S n) = (1 + roundoff) ^ (3 * n) * (1 + roundoff) * (1 + roundoff) * (1 + roundoff).
Proof. replace (3 * S n)%nat with (S (S (S (3 * n)))) by lia. cbn [pow]. ring. Qed.

Lemma imean_error_scaled xs : Countable xs -> finite (immediate_mean xs) ->
  Rabs (INR (length xs) * val (immediate_mean xs) - ExactSum xs)
  <= ((1 + roundoff) ^ (3 * length xs) - 1) * Magnitude xs
     + tiny * (1 + roundoff) ^ (3 * length xs) * (INR (length xs) * (INR (length xs) + 1)).
Proof.
  assert (Hu := roundoff_small). assert (Ht := tiny_pos).
  unfold Countable. induction xs as [|x xs IH] using rev_ind; intros C H.
  - unfold ExactSum, Magnitude. cbn. rewrite !Rmult_0_l, Rminus_0_r, Rabs_R0. lra.
  - rewrite app_length in *. cbn [length] in *. rewrite Nat.add_1_r in *. rewrite imean_snoc in *.
    destruct (ofnat_exact (length xs)) as [Fn En]; [lia |]. destruct (ofnat_exact (S (length xs))) as [Fn' En']; [lia |].
    assert (Pn' : 0 < INR (S (length xs))) by (apply lt_0_INR; lia).
    assert (Pn : 0 <= INR (length xs)) by apply pos_INR.
    apply div_fin in H as [H E3]; [| rewrite En'; lra]. apply add_fin in H as (H & Fx & E2). apply mul_fin in H as (H & _ & E1).
    specialize (IH ltac:(lia) H). rewrite exact_snoc, magnitude_snoc.
    set (n := length xs) in *. set (m := immediate_mean xs) in *.
    assert (V : val (d_div (d_add (d_mul m (ofnat DoubleN n)) x) (ofnat DoubleN (S n)))
                = b64_round (b64_round (b64_round (val m * INR n) + val x) / INR (S n))).
    { unfold val. rewrite E3, E2, E1, En, En'. reflexivity. }
    destruct (round_any (val m * INR n)) as (d1 & e1 & D1 & B1 & R1).
    assert (R2 : exists d2, Rabs d2 <= roundoff /\ b64_round (b64_round (val m * INR n) + val x) = (b64_round (val m * INR n) + val x) * (1 + d2)).
    { rewrite <- En. unfold val. rewrite <- E1. apply round_add. }
    destruct R2 as (d2 & D2 & R2).
    destruct (round_any (b64_round (b64_round (val m * INR n) + val x) / INR (S n))) as (d3 & e3 & D3 & B3 & R3).
    rewrite V, R3, R2, R1. clear V R1 R2 R3 E1 E2 E3.
    replace (INR (S n) * (((val m * INR n * (1 + d1) + e1 + val x) * (1 + d2)) / INR (S n) * (1 + d3) + e3) - (ExactSum xs + val x))
      with (((((INR n * val m + 0) * (1 + d1) + e1 + val x) * (1 + d2) + 0) * (1 + d3) - (ExactSum xs + val x + 0)) + INR (S n) * e3) by (field; lra).
    set (E := (1 + roundoff) ^ (3 * n) - 1) in *. set (G := tiny * (1 + roundoff) ^ (3 * n) * (INR n * (INR n + 1))) in *.
    assert (HE : 0 <= E) by (assert (HP := pow_ge_1 (3 * n)); unfold E; lra).
    assert (A1 := step_bound _ _ _ _ 0 d1 _ HE D1 (magnitude_exact xs) IH). rewrite Rabs_R0, !Rplus_0_r in A1.
    set (E1 := (1 + E) * (1 + roundoff) - 1) in *.
    assert (HE1 : 0 <= E1) by (unfold E1; nra).
    assert (A2 : Rabs (INR n * val m * (1 + d1) + e1 - ExactSum xs) <= E1 * Magnitude xs + (G * (1 + roundoff) + tiny)).
    { replace (INR n * val m * (1 + d1) + e1 - ExactSum xs) with ((INR n * val m * (1 + d1) - ExactSum xs) + e1) by ring.
      eapply Rle_trans; [apply Rabs_add_le; [exact A1 | exact B1] | right; ring]. }
    assert (A3 := step_bound _ _ _ _ (val x) d2 _ HE1 D2 (magnitude_exact xs) A2).
    set (E2 := (1 + E1) * (1 + roundoff) - 1) in *. assert (HE2 : 0 <= E2) by (unfold E2; nra).
    assert (M' : Rabs (ExactSum xs + val x) <= Magnitude xs + Rabs (val x)) by (apply Rabs_add_le; [apply magnitude_exact | lra]).
    assert (A4 := step_bound _ _ _ _ 0 d3 _ HE2 D3 M' A3). rewrite Rabs_R0, !Rplus_0_r in A4. rewrite !Rplus_0_r.
    assert (A5 : Rabs (INR (S n) * e3) <= INR (S n) * tiny) by (apply Rabs_mul_le; [rewrite Rabs_pos_eq; lra | exact B3]).
    eapply Rle_trans; [apply Rabs_add_le; [exact A4 | exact A5] |].
    rewrite pow_3S. set (P := (1 + roundoff) ^ (3 * n)) in *.
    replace ((1 + E2) * (1 + roundoff) - 1) with (P * (1 + roundoff) * (1 + roundoff) * (1 + roundoff) - 1) by (unfold E2, E1, E; ring).
    rewrite Rplus_assoc. apply Rplus_le_compat_l.
    assert (P1 : 1 <= P) by apply pow_ge_1. unfold G. rewrite S_INR.
    set (r := 1 + roundoff) in *. assert (r1 : 1 <= r) by (unfold r; lra). set (N := INR n) in *.
    assert (Q : 1 <= P * (r * r * r)) by (assert (1 <= r * r) by nra; assert (1 <= r * r * r) by nra; nra).
    assert (Q2 : r * r <= P * (r * r * r)) by (assert (1 <= P * r) by nra; assert (0 < r * r) by nra; nra).
    replace ((tiny * P * (N * (N + 1)) * r + tiny) * r * r + (N + 1) * tiny)
      with (tiny * (P * (r * r * r) * (N * (N + 1)) + r * r + (N + 1))) by ring.
    replace (tiny * (P * r * r * r) * ((N + 1) * (N + 1 + 1)))
      with (tiny * (P * (r * r * r) * (N * (N + 1)) + P * (r * r * r) * (2 * (N + 1)))) by ring.
    apply Rmult_le_compat_l; [lra |].
    assert ((N + 1) * 1 <= (N + 1) * (P * (r * r * r))) by (apply Rmult_le_compat_l; lra).
    assert (P * (r * r * r) * 1 <= P * (r * r * r) * (N + 1)) by (apply Rmult_le_compat_l; lra). lra.
Qed.

Lemma immediate_mean_error xs : Countable xs -> xs <> [] -> finite (immediate_mean xs) ->
  Rabs (val (immediate_mean xs) - ExactMean xs)
  <= ((1 + roundoff) ^ (3 * length xs) - 1) * (Magnitude xs / INR (length xs))
     + tiny * (1 + roundoff) ^ (3 * length xs) * (INR (length xs) + 1).
Proof.
  intros C N F. assert (B := imean_error_scaled xs C F). unfold ExactMean.
  assert (L : (0 < length xs)%nat) by (destruct xs; [congruence | cbn; lia]). assert (P := INR_pos _ L).
  set (n := INR (length xs)) in *.
  replace (val (immediate_mean xs) - ExactSum xs / n) with ((n * val (immediate_mean xs) - ExactSum xs) * / n) by (field; lra).
  rewrite Rabs_mult, (Rabs_pos_eq (/ n)) by (left; apply Rinv_0_lt_compat, P).
  apply Rmult_le_reg_r with n; [exact P |]. rewrite Rmult_assoc, Rinv_l, Rmult_1_r by lra.
  eapply Rle_trans; [exact B |]. right. field. lra.
Qed.

(** ** Variance *)
Lemma variance_first x : immediate_variance [x] = d_zero.
Proof. reflexivity. Qed.
Lemma variance_snoc (xs : list double) (x : double) : xs <> [] -> immediate_variance (xs ++ [x])
  = d_add (d_div (d_mul (immediate_variance xs) (ofnat DoubleN (length xs))) (ofnat DoubleN (S (length xs))))
          (d_div (d_mul (d_sub x (immediate_mean (xs ++ [x]))) (d_sub x (immediate_mean (xs ++ [x])))) (ofnat DoubleN (length xs))).
Proof.
  intros N. refine (eq_trans (vset_step DoubleN d_zero xs x) _). unfold variance_op.
  destruct xs as [|y xs]; [congruence |]. cbn [length Nat.ltb Nat.leb]. rewrite Nat.sub_succ, Nat.sub_0_r. reflexivity.
Qed.

Lemma variance_unsigned xs : unsigned (immediate_variance xs).
Proof.
  induction xs as [|x xs IH] using rev_ind; [right; reflexivity |].
  destruct xs as [|y xs]; [right; reflexivity |]. rewrite variance_snoc by discriminate.
  apply unsigned_add; apply unsigned_div; try apply unsigned_ofnat; [apply unsigned_mul; [exact IH | apply unsigned_ofnat] | apply unsigned_square].
Qed.

Lemma sqr_le a b : 0 <= a -> a <= b -> a * a <= b * b.
Proof. intros. apply Rmult_le_compat; assumption. Qed.

(** The variance of samples at most 2^k in magnitude is finite, and at most n 4^(k+1). *)
Lemma variance_within k xs : Countable xs -> (-450 <= k)%Z -> (k <= 450)%Z -> Within (bpow radix2 k) xs ->
  finite (immediate_variance xs) /\ 0 <= val (immediate_variance xs) <= INR (length xs) * bpow radix2 (2 * k + 2).
Proof.
  intros C K K'. assert (Hu := roundoff_small). assert (Ht := tiny_pos).
  set (B := bpow radix2 (2 * k + 2)).
  induction xs as [|x xs IH] using rev_ind; intros W.
  - split; [reflexivity |]. replace (val (immediate_variance [])) with 0 by reflexivity. cbn. lra.
  - destruct xs as [|y ys].
    { split; [reflexivity |]. replace (val (immediate_variance ([] ++ [x]))) with 0 by reflexivity.
      cbn [app length INR]. assert (0 < B) by apply bpow_gt_0. lra. }
    set (xs := y :: ys) in *. assert (L1 : (1 <= length xs)%nat) by (unfold xs; cbn; lia).
    destruct (mean_within k (xs ++ [x]) C ltac:(lia) ltac:(lia) W) as [Fm Bm].
    unfold Countable in *. rewrite app_length in *. cbn [length] in C |- *. rewrite Nat.add_1_r in *.
    apply Forall_app in W as [W Wx]. inversion Wx as [|? ? [Fx Bx] _]; subst.
    destruct IH as [Fv [V0 V1]]; [lia | exact W |]. rewrite variance_snoc by discriminate.
    destruct (ofnat_exact (length xs)) as [Fn En]; [lia |]. destruct (ofnat_exact (S (length xs))) as [Fn' En']; [lia |].
    set (n := length xs) in *. set (m := immediate_mean (xs ++ [x])) in *. set (v := immediate_variance xs) in *.
    assert (Pn : 1 <= INR n) by (replace 1 with (INR 1) by reflexivity; apply le_INR; exact L1).
    assert (Pn' : INR (S n) = INR n + 1) by apply S_INR.
    assert (nu : INR n * roundoff <= 1 - roundoff).
    { assert (INR (S n) * roundoff <= 1).
      { rewrite INR_IZR_INZ. apply Rle_trans with (IZR (2 ^ 53) * roundoff); [apply Rmult_le_compat_r; [lra | apply IZR_le; lia] |].
        rewrite roundoff_is. unfold b64_u. change (2 ^ 53)%Z with (Zpower radix2 53). rewrite IZR_Zpower, <- bpow_plus by lia. right. reflexivity. }
      rewrite Pn' in H. lra. }
    assert (PB : 0 < B) by apply bpow_gt_0.
    assert (tB : tiny <= B * roundoff).
    { rewrite tiny_is, roundoff_is. change (/ 2) with (bpow radix2 (-1)). unfold B, b64_u. rewrite <- !bpow_plus. apply bpow_le. lia. }
    assert (n53 : INR n <= bpow radix2 53).
    { rewrite INR_IZR_INZ, <- IZR_Zpower by lia. apply IZR_le. change (Zpower radix2 53) with (2 ^ 53)%Z. lia. }
    (* v * n *)
    assert (N0 : 0 <= INR n * (INR n * B)) by (repeat apply Rmult_le_pos; lra).
    assert (X1 : 0 <= val v * INR n <= INR n * (INR n * B)).
    { split; [apply Rmult_le_pos; lra |]. rewrite Rmult_comm. apply Rmult_le_compat_l; [lra | exact V1]. }
    assert (Fmt0 : b64_format 0) by apply generic_format_0.
    assert (R1lo : 0 <= b64_round (val v * INR n)).
    { rewrite <- (round_format 0 Fmt0). apply round_le. lra. }
    assert (R1 : b64_round (val v * INR n) <= INR n * (INR n * B) * (1 + roundoff) + tiny).
    { destruct (round_any (val v * INR n)) as (d & e & D & Ee & ->). apply Rabs_le_inv in D. apply Rabs_le_inv in Ee.
      apply Rplus_le_compat; [| lra]. apply Rmult_le_compat; lra. }
    assert (NB : INR n * (INR n * B) <= bpow radix2 (108 + 2 * k)).
    { replace (108 + 2 * k)%Z with (53 + (53 + (2 * k + 2)))%Z by lia. rewrite (bpow_plus _ 53 (53 + _)), (bpow_plus _ 53 (2 * k + 2)). fold B.
      apply Rmult_le_compat; [lra | apply Rmult_le_pos; lra | exact n53 |]. apply Rmult_le_compat_r; [lra | exact n53]. }
    assert (R1' : b64_round (val v * INR n) <= bpow radix2 (109 + 2 * k)).
    { eapply Rle_trans; [exact R1 |]. replace (109 + 2 * k)%Z with (1 + (108 + 2 * k))%Z by lia. rewrite bpow_plus.
      change (bpow radix2 1) with 2. assert (B <= INR n * (INR n * B)) by (assert (1 * B <= INR n * B) by (apply Rmult_le_compat_r; lra); assert (1 * (INR n * B) <= INR n * (INR n * B)) by (apply Rmult_le_compat_r; lra); lra).
      assert (B * roundoff <= B * (1/100)) by (apply Rmult_le_compat_l; lra).
      assert (INR n * (INR n * B) * (1 + roundoff) <= INR n * (INR n * B) * (1 + 1 / 100)) by (apply Rmult_le_compat_l; lra). lra. }
    destruct (mul_ok v (ofnat DoubleN n) Fv Fn) as [Fa Ea].
    { rewrite En. fold (val v). rewrite Rabs_pos_eq by exact R1lo. eapply Rle_lt_trans; [exact R1' |]. apply bpow_lt. lia. }
    rewrite En in Ea. fold (val v) in Ea. set (a := d_mul v (ofnat DoubleN n)) in *. rewrite <- Ea in R1, R1', R1lo.
    (* / (n+1) *)
    assert (X2 : 0 <= B2R a / INR (S n) <= INR n * B).
    { split; [apply Rmult_le_pos; [exact R1lo | left; apply Rinv_0_lt_compat; lra] |].
      apply Rmult_le_reg_r with (INR (S n)); [lra |]. unfold Rdiv. rewrite Rmult_assoc, Rinv_l, Rmult_1_r by lra.
      eapply Rle_trans; [exact R1 |]. rewrite Pn'.
      assert (INR n * B * (INR n * roundoff) <= INR n * B * (1 - roundoff)) by (apply Rmult_le_compat_l; [apply Rmult_le_pos; lra | exact nu]).
      assert (B * roundoff <= INR n * B * roundoff) by (apply Rmult_le_compat_r; [lra |]; assert (1 * B <= INR n * B) by (apply Rmult_le_compat_r; lra); lra). lra. }
    assert (R2 : 0 <= b64_round (B2R a / INR (S n)) <= INR n * B).
    { split; [rewrite <- (round_format 0 Fmt0); apply round_le; lra |].
      rewrite <- (round_format (INR n * B)) by (apply scaled_format; lia). apply round_le. lra. }
    assert (nB : INR (S n) * B < bpow radix2 1024) by (apply scaled_small; lia).
    destruct (div_ok a (ofnat DoubleN (S n))) as [Fb Eb]; [rewrite En'; lra | exact Fa | |].
    { rewrite En', Rabs_pos_eq by lra. rewrite Pn' in nB. lra. }
    rewrite En' in Eb. set (b := d_div a (ofnat DoubleN (S n))) in *. rewrite <- Eb in R2.
    (* x - mean *)
    assert (R3 : Rabs (b64_round (B2R x - B2R m)) <= bpow radix2 (k + 1)).
    { apply round_abs; [apply generic_format_bpow; unfold FLT_exp; lia |]. rewrite bpow_plus. change (bpow radix2 1) with 2.
      unfold Rminus. replace (bpow radix2 k * 2) with (bpow radix2 k + bpow radix2 k) by ring. apply Rabs_add_le; [exact Bx |]. rewrite Rabs_Ropp. exact Bm. }
    destruct (sub_ok x m Fx Fm) as [Ft Et]; [eapply Rle_lt_trans; [exact R3 | apply bpow_lt; lia] |].
    rewrite <- Et in R3. set (t := d_sub x m) in *.
    assert (R4 : 0 <= B2R t * B2R t <= B).
    { split; [apply Rle_0_sqr |]. rewrite <- (Rabs_pos_eq (B2R t * B2R t)) by apply Rle_0_sqr. rewrite Rabs_mult.
      replace B with (bpow radix2 (k + 1) * bpow radix2 (k + 1)) by (rewrite <- bpow_plus; unfold B; f_equal; lia).
      apply sqr_le; [apply Rabs_pos | exact R3]. }
    assert (FB : b64_format B) by (apply generic_format_bpow; unfold FLT_exp; lia).
    assert (B1024 : B < bpow radix2 1024) by (apply bpow_lt; lia).
    assert (R5 : 0 <= b64_round (B2R t * B2R t) <= B).
    { split; [rewrite <- (round_format 0 Fmt0); apply round_le; lra |]. rewrite <- (round_format B FB). apply round_le. lra. }
    destruct (mul_ok t t Ft Ft) as [Fq Eq]; [rewrite Rabs_pos_eq; lra |]. rewrite <- Eq in R5. set (q := d_mul t t) in *.
    assert (X6 : 0 <= B2R q / INR n <= B).
    { split; [apply Rmult_le_pos; [lra | left; apply Rinv_0_lt_compat; lra] |].
      apply Rmult_le_reg_r with (INR n); [lra |]. unfold Rdiv. rewrite Rmult_assoc, Rinv_l, Rmult_1_r by lra.
      assert (B * 1 <= B * INR n) by (apply Rmult_le_compat_l; lra). lra. }
    assert (R6 : 0 <= b64_round (B2R q / INR n) <= B).
    { split; [rewrite <- (round_format 0 Fmt0); apply round_le; lra |]. rewrite <- (round_format B FB). apply round_le. lra. }
    destruct (div_ok q (ofnat DoubleN n)) as [Fr Er]; [rewrite En; lra | exact Fq | rewrite En, Rabs_pos_eq; lra |].
    rewrite En in Er. rewrite <- Er in R6. set (r := d_div q (ofnat DoubleN n)) in *.
    assert (R7 : 0 <= b64_round (B2R b + B2R r) <= INR (S n) * B).
    { split; [rewrite <- (round_format 0 Fmt0); apply round_le; lra |].
      rewrite <- (round_format (INR (S n) * B)) by (apply scaled_format; lia). apply round_le. rewrite Pn'. lra. }
    destruct (add_ok b r Fb Fr) as [Fs Es]; [rewrite Rabs_pos_eq; lra |]. unfold val. rewrite Es. split; [exact Fs | exact R7].
Qed.

(** The error of the immediate mean is the root of a variance that is never negative. *)
Lemma sqrt_unsigned x : unsigned x -> finite x -> finite (d_sqrt x) /\ unsigned (d_sqrt x).
Proof.
  intros U F. destruct (Bsqrt_correct 53 1024 prec_pos prec_max mode_NE x) as (_ & A & S). fold (d_sqrt x) in A, S.
  unfold finite in *. destruct x as [s|s| |s m e He]; try discriminate F.
  - split; [reflexivity |]. destruct U as [U | U]; [discriminate U | cbn in U; subst; right; reflexivity].
  - destruct U as [U | U]; [discriminate U | cbn in U; subst]. split; [exact A |]. right. apply S. revert A. generalize (d_sqrt (B754_finite false m e He)).
    intros y Y. destruct y; [reflexivity | discriminate Y | discriminate Y | reflexivity].
Qed.

Lemma error_finite xs : Countable xs -> (2 <= length xs)%nat -> Within (bpow radix2 450) xs ->
  finite (error_of_immediate_mean xs) /\ d_lt (error_of_immediate_mean xs) d_zero = false.
Proof.
  intros C L W. destruct (variance_within 450 xs C ltac:(lia) ltac:(lia) W) as [F [V0 V1]].
  unfold error_of_immediate_mean, error_of_immediate_mean_run, error_of_mean_result. rewrite vset_count.
  change (vs_var DoubleN (var_set_run DoubleN (zero DoubleN) xs)) with (immediate_variance xs).
  change (div DoubleN (immediate_variance xs) (ofnat DoubleN (length xs - 1))) with (d_div (immediate_variance xs) (ofnat DoubleN (length xs - 1))).
  unfold Countable in C.
  destruct (ofnat_exact (length xs - 1)) as [Fn En]; [lia |].
  assert (Pn : 1 <= INR (length xs - 1)) by (replace 1 with (INR 1) by reflexivity; apply le_INR; lia).
  assert (X : 0 <= B2R (immediate_variance xs) / INR (length xs - 1) <= INR (length xs) * bpow radix2 (2 * 450 + 2)).
  { split; [apply Rmult_le_pos; [exact V0 | left; apply Rinv_0_lt_compat; lra] |]. eapply Rle_trans; [| exact V1].
    apply Rmult_le_reg_r with (INR (length xs - 1)); [lra |]. unfold Rdiv. rewrite Rmult_assoc, Rinv_l, Rmult_1_r by lra.
    unfold val in V0 |- *. assert (B2R (immediate_variance xs) * 1 <= B2R (immediate_variance xs) * INR (length xs - 1)) by (apply Rmult_le_compat_l; lra). lra. }
  destruct (div_ok (immediate_variance xs) (ofnat DoubleN (length xs - 1))) as [Fd Ed].
  - rewrite En. lra.
  - exact F.
  - rewrite En. eapply Rle_lt_trans; [apply round_abs; [apply scaled_format with (k := (2 * 450 + 2)%Z); [exact C | lia] | rewrite Rabs_pos_eq by lra; apply X] |].
    apply scaled_small; lia.
  - destruct (sqrt_unsigned (d_div (immediate_variance xs) (ofnat DoubleN (length xs - 1)))) as [S1 S2]; [| exact Fd |].
    + apply unsigned_div; [apply variance_unsigned | apply unsigned_ofnat].
    + split; [exact S1 | apply unsigned_not_negative, S2].
Qed.
