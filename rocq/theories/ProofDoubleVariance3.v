(** The accuracy of lazy variances of doubles. *)
From Coq Require Import ZArith List Bool Reals Lra Lia Arith Psatz Permutation.
From Flocq Require Import Core IEEE754.BinarySingleNaN.
From Verif Require Import Num NumFacts ModelBasic ModelRounding ModelDouble SpecStats SpecDouble ProofBasic ProofBasic2 ProofKahan ProofDouble ProofDouble2 ProofDouble3 ProofDoubleEx ProofDoubleVariance ProofDoubleVariance2.
Import ListNotations.
Local Open Scope R_scope.

Section AnyNumbers.
  Context (K : Num).
  Lemma lazy_set s0 xs : mom_set_run K [2%nat] s0 xs =
    Some {| mo_count := length xs; mo_sum := sum_run K s0 xs; mo_sums := [sum_run K s0 (map (fun x => mul K x x) xs)] |}.
  Proof.
    induction xs as [|x xs IH] using rev_ind; [reflexivity |].
    unfold mom_set_run in *. rewrite fold_left_app, IH. cbn [fold_left]. unfold mom_set_push.
    cbn [mo_sums mo_count mo_sum moment_ops]. unfold sum_run. rewrite map_app, !fold_left_app, app_length, Nat.add_1_r. reflexivity.
  Qed.
  Lemma lazy_is s0 xs : lazy_variance_run K s0 xs = Some (sub K (div K (sum_run K s0 (map (fun x => mul K x x) xs)) (ofnat K (length xs)))
    (mul K (div K (sum_run K s0 xs) (ofnat K (length xs))) (div K (sum_run K s0 xs) (ofnat K (length xs))))).
  Proof. unfold lazy_variance_run. rewrite lazy_set. reflexivity. Qed.
End AnyNumbers.

(** A sum of samples within a power of two. *)
Lemma sum_within k xs : Countable xs -> (-1000 <= k)%Z -> (k <= 970)%Z -> Within (bpow radix2 k) xs ->
  finite (sum_run DoubleN d_zero xs) /\ Rabs (val (sum_run DoubleN d_zero xs)) <= INR (length xs) * bpow radix2 k.
Proof.
  intros C K K'. induction xs as [|x xs IH] using rev_ind; intros W.
  - split; [reflexivity |]. cbn. rewrite Rabs_R0. lra.
  - unfold Countable in *. rewrite app_length in *. cbn [length] in *. rewrite Nat.add_1_r in *.
    apply Forall_app in W as [W Wx]. inversion Wx as [|? ? [Fx Bx] _]; subst. destruct IH as [F B]; [lia | exact W |].
    rewrite sum_snoc. assert (R : Rabs (b64_round (B2R (sum_run DoubleN d_zero xs) + B2R x)) <= INR (S (length xs)) * bpow radix2 k).
    { apply round_abs; [apply scaled_format; lia |]. eapply Rle_trans; [apply Rabs_triang |]. rewrite S_INR. unfold val in *. lra. }
    destruct (add_ok _ x F Fx) as [F' E]; [eapply Rle_lt_trans; [exact R | apply scaled_small; lia] |].
    unfold val. rewrite E. split; [exact F' | exact R].
Qed.

Lemma square_within k x : (-450 <= k)%Z -> (k <= 450)%Z -> finite x -> Rabs (val x) <= bpow radix2 k ->
  finite (d_mul x x) /\ Rabs (val (d_mul x x)) <= bpow radix2 (k + k) /\ Rabs (val (d_mul x x) - val x * val x) <= roundoff * (bpow radix2 k * bpow radix2 k) + tiny.
Proof.
  intros K K' F B.
  assert (S : Rabs (B2R x * B2R x) <= bpow radix2 k * bpow radix2 k) by (rewrite Rabs_mult; apply Rmult_le_compat; auto using Rabs_pos).
  assert (R : Rabs (b64_round (B2R x * B2R x)) <= bpow radix2 (k + k)).
  { apply round_abs; [apply generic_format_bpow; unfold FLT_exp; lia |]. rewrite bpow_plus. exact S. }
  destruct (mul_ok x x F F) as [F' E]; [eapply Rle_lt_trans; [exact R | apply bpow_lt; lia] |].
  unfold val. rewrite E. split; [exact F' |]. split; [exact R |].
  apply near_le; [assert (H := roundoff_small); lra | apply round_near | exact S].
Qed.

Lemma squares_sum k xs : (-450 <= k)%Z -> (k <= 450)%Z -> Within (bpow radix2 k) xs ->
  Within (bpow radix2 (k + k)) (map (fun x => d_mul x x) xs) /\
  Rabs (ExactSum (map (fun x => d_mul x x) xs) - total RN (fun x => x * x) (vals xs)) <= INR (length xs) * (roundoff * (bpow radix2 k * bpow radix2 k) + tiny).
Proof.
  intros K K'. induction 1 as [|x xs [F B] _ [IH1 IH2]].
  - split; [constructor |]. unfold ExactSum. cbn. rewrite Rminus_0_r, Rabs_R0. lra.
  - destruct (square_within k x K K' F B) as (F' & B' & E). split; [constructor; [split; assumption | exact IH1] |].
    change (Rabs (val (d_mul x x) + ExactSum (map (fun x => d_mul x x) xs) - (val x * val x + total RN (fun x => x * x) (vals xs)))
      <= INR (length (x :: xs)) * (roundoff * (bpow radix2 k * bpow radix2 k) + tiny)).
    cbn [length]. rewrite S_INR. apply Rabs_le_inv in E. apply Rabs_le_inv in IH2. cbn [car RN] in *. apply Rabs_le. lra.
Qed.

(** A mean of samples within a power of two. *)
Lemma lazy_close k xs : (Z.of_nat (length xs) <= 2 ^ 40)%Z -> (-900 <= k)%Z -> (k <= 900)%Z -> xs <> [] -> Within (bpow radix2 k) xs ->
  finite (lazy_mean xs) /\ Rabs (val (lazy_mean xs)) <= bpow radix2 k /\
  Rabs (val (lazy_mean xs) - ExactMean xs) <= 1.02 * (INR (length xs) * roundoff) * bpow radix2 k + tiny.
Proof.
  intros L K K' N W. assert (C := few_countable xs L). assert (Hu := roundoff_small).
  destruct (sum_within k xs C ltac:(lia) ltac:(lia) W) as [Fs Bs].
  destruct (ofnat_exact (length xs) C) as [Fn En].
  assert (N1 : 1 <= INR (length xs)). { replace 1 with (INR 1) by reflexivity. apply le_INR. destruct xs; [congruence | cbn; lia]. }
  assert (Q : Rabs (b64_round (B2R (sum_run DoubleN d_zero xs) / INR (length xs))) <= bpow radix2 k).
  { apply round_abs; [apply generic_format_bpow; unfold FLT_exp; lia |]. unfold Rdiv. rewrite Rabs_mult, (Rabs_pos_eq (/ _)) by (left; apply Rinv_0_lt_compat; lra).
    apply Rmult_le_reg_r with (INR (length xs)); [lra |]. rewrite Rmult_assoc, Rinv_l by lra. unfold val in Bs. lra. }
  destruct (div_ok (sum_run DoubleN d_zero xs) (ofnat DoubleN (length xs))) as [F E].
  { rewrite En. lra. } { exact Fs. } { rewrite En. eapply Rle_lt_trans; [exact Q | apply bpow_lt; lia]. }
  rewrite En in E. assert (F' : finite (lazy_mean xs)) by (rewrite lazy_mean_is; exact F).
  split; [exact F' |]. split; [rewrite lazy_mean_is; unfold val; rewrite E; exact Q |].
  eapply Rle_trans; [apply (lazy_mean_error xs C N F') |]. apply Rplus_le_compat_r.
  assert (M0 : 0 <= Magnitude xs / INR (length xs)) by (apply Rmult_le_pos; [apply magnitude_nonneg | left; apply Rinv_0_lt_compat; lra]).
  assert (G1 := pow_ge_1 (length xs)). assert (Nu := few_samples _ L).
  apply Rmult_le_compat; [lra | exact M0 | apply pow_close; lra |].
  apply Rmult_le_reg_r with (INR (length xs)); [lra |]. unfold Rdiv. rewrite Rmult_assoc, Rinv_l by lra. assert (H := magnitude_le _ xs W). lra.
Qed.

Lemma lazy_variance_is xs : lazy_variance_run DoubleN d_zero xs
  = Some (d_sub (lazy_mean (map (fun x => d_mul x x) xs)) (d_mul (lazy_mean xs) (lazy_mean xs))).
Proof. rewrite !lazy_mean_is, map_length. exact (lazy_is DoubleN d_zero xs). Qed.

Lemma lazy_variance_close k xs : (Z.of_nat (length xs) <= 2 ^ 40)%Z -> (-450 <= k)%Z -> (k <= 450)%Z -> xs <> [] -> Within (bpow radix2 k) xs ->
  exists v, lazy_variance_run DoubleN d_zero xs = Some v /\ finite v /\
  Rabs (val v - Variance RN (vals xs)) <= 10 * INR (length xs) * roundoff * (bpow radix2 k * bpow radix2 k).
Proof.
  intros L K K' N W. eexists. split; [apply lazy_variance_is |].
  assert (Hu := roundoff_small). assert (Ht := tiny_pos).
  destruct (squares_sum k xs K K' W) as [W2 S2]. set (sq := map (fun x => d_mul x x) xs) in *.
  assert (Lq : length sq = length xs) by apply map_length.
  destruct (lazy_close (k + k) sq) as (F2 & B2 & E2); [rewrite Lq; exact L | lia | lia | destruct xs; [congruence | discriminate] | exact W2 |]. rewrite Lq in E2.
  destruct (lazy_close k xs L ltac:(lia) ltac:(lia) N W) as (F1 & B1 & E1).
  rewrite bpow_plus in B2, E2. destruct (tiny_small k K) as [T1 T2].
  assert (Nu := few_samples _ L).
  assert (N1 : 1 <= INR (length xs)). { replace 1 with (INR 1) by reflexivity. apply le_INR. destruct xs; [congruence | cbn; lia]. }
  destruct (square_within k (lazy_mean xs) K K' F1 B1) as (F3 & B3 & E3). rewrite bpow_plus in B3.
  assert (Bk : bpow radix2 k * bpow radix2 k <= bpow radix2 900) by (rewrite <- bpow_plus; apply bpow_le; lia).
  assert (D : Rabs (BinarySingleNaN.B2R (lazy_mean sq) - BinarySingleNaN.B2R (d_mul (lazy_mean xs) (lazy_mean xs))) <= 2 * (bpow radix2 k * bpow radix2 k)).
  { apply Rabs_le_inv in B2. apply Rabs_le_inv in B3. apply Rabs_le. unfold val in *. lra. }
  assert (R : Rabs (b64_round (BinarySingleNaN.B2R (lazy_mean sq) - BinarySingleNaN.B2R (d_mul (lazy_mean xs) (lazy_mean xs)))) <= bpow radix2 (1 + (k + k))).
  { apply round_abs; [apply generic_format_bpow; unfold FLT_exp; lia |]. rewrite !bpow_plus. change (bpow radix2 1) with 2. exact D. }
  destruct (sub_ok _ _ F2 F3) as [F E]; [eapply Rle_lt_trans; [exact R | apply bpow_lt; lia] |].
  split; [exact F |]. unfold val at 1. rewrite E.
  assert (RD := round_diff (lazy_mean sq) (d_mul (lazy_mean xs) (lazy_mean xs))). fold (val (lazy_mean sq)) in *. fold (val (d_mul (lazy_mean xs) (lazy_mean xs))) in *.
  assert (RD' : Rabs (b64_round (val (lazy_mean sq) - val (d_mul (lazy_mean xs) (lazy_mean xs))) - (val (lazy_mean sq) - val (d_mul (lazy_mean xs) (lazy_mean xs)))) <= roundoff * (2 * (bpow radix2 k * bpow radix2 k))).
  { eapply Rle_trans; [exact RD |]. apply Rmult_le_compat_l; lra. }
  (* the exact variance *)
  assert (V := avg_sub_raw2 RN RN_field (vals xs) ltac:(destruct xs; [congruence | discriminate])). cbn [add mul sub div RN car] in V.
  assert (V2 : Moment RN 2 (vals xs) = total RN (fun x => x * x) (vals xs) / INR (length xs)).
  { unfold Moment, average. cbn [div RN]. rewrite R_ofnat, vals_length. f_equal. generalize (vals xs). intros l. clear. induction l as [|x l IH]; [reflexivity |].
    change (x * (x * 1) + total RN (fun x => power RN x 2) l = x * x + total RN (fun x => x * x) l). rewrite IH. ring. }
  rewrite V2, Mean_vals in V. rewrite V.
  assert (M1 := exact_mean_le _ xs N W).
  set (B := bpow radix2 k) in *. set (n := INR (length xs)) in *. set (W2' := B * B) in *. assert (PB : 0 < B) by apply bpow_gt_0.
  assert (PW : 0 < W2') by (unfold W2'; nra).
  assert (nuW : 0 <= n * roundoff * W2') by (repeat apply Rmult_le_pos; lra). assert (uW : roundoff * W2' <= n * roundoff * W2') by (apply Rmult_le_compat_r; nra).
  assert (S2' : Rabs (ExactMean sq - total RN (fun x => x * x) (vals xs) / n) <= roundoff * W2' + tiny).
  { unfold ExactMean. rewrite Lq. fold n. replace (ExactSum sq / n - total RN (fun x => x * x) (vals xs) / n) with ((ExactSum sq - total RN (fun x => x * x) (vals xs)) * / n) by (cbn [car RN]; field; lra).
    rewrite Rabs_mult, (Rabs_pos_eq (/ n)) by (left; apply Rinv_0_lt_compat; lra). apply Rmult_le_reg_r with n; [lra |]. rewrite Rmult_assoc, Rinv_l by lra. cbn [car RN] in *. lra. }
  assert (E2' := close_trans _ _ _ _ _ E2 S2').
  assert (SQ := close_mult _ _ _ _ _ _ _ _ E1 E1 M1 B1).
  assert (E3' := close_trans _ _ _ _ _ E3 SQ).
  assert (X : (1.02 * (n * roundoff) * B + tiny) * B + B * (1.02 * (n * roundoff) * B + tiny) <= 2.05 * (n * roundoff * W2')).
  { assert (tiny * B <= / 1000 * (roundoff * B) * B) by (apply Rmult_le_compat_r; lra). unfold W2' in *. nra. }
  apply Rabs_le_inv in E2'. apply Rabs_le_inv in E3'. apply Rabs_le_inv in RD'. cbn [car RN] in *. apply Rabs_le.
  unfold W2' in *. lra.
Qed.
