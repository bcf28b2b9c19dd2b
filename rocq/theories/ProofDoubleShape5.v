(** Skewness and kurtosis of doubles that are well spread. *)
From Coq Require Import ZArith List Bool Reals Lra Lia Arith Psatz.
From Flocq Require Import Core IEEE754.BinarySingleNaN.
From Verif Require Import Num NumFacts ModelBasic ModelRounding ModelDouble SpecStats SpecDouble SpecDoubleVariance SpecDoubleShape ProofBasic ProofDouble ProofDouble2 ProofDoubleEx ProofDoubleVariance2 ProofDoubleMoment ProofDoubleVariance4 ProofDoubleError ProofDoubleShape ProofDoubleShape2 ProofDoubleShape3.
Import ListNotations.
Local Open Scope R_scope.

Lemma well_spread k xs : Few xs -> xs <> [] -> (-200 <= k <= 200)%Z -> Within (powerRZ 2 k) xs -> powerRZ 2 (2 * k) / 4 <= ExactVariance xs ->
  (exists g, skewness_run DoubleN d_sqrt d_zero xs = Some g /\ finite g /\ Rabs (val g - ExactSkewness xs) <= 1360 * INR (length xs) * roundoff) /\
  (exists g, kurtosis_run DoubleN d_zero xs = Some g /\ finite g /\ Rabs (val g - ExactKurtosis xs) <= 7200 * INR (length xs) * roundoff).
Proof.
  intros F NE K W S. assert (P : 0 < powerRZ 2 k) by (apply powerRZ_lt; lra). set (B := powerRZ 2 k) in *.
  assert (B2 : powerRZ 2 (2 * k) = B * B) by (unfold B; rewrite <- powerRZ_add by lra; f_equal; lia).
  assert (B3 : powerRZ 2 (3 * k) = B * B * B) by (unfold B; rewrite <- !powerRZ_add by lra; f_equal; lia).
  assert (B4 : powerRZ 2 (4 * k) = B * B * (B * B)) by (unfold B; rewrite <- !powerRZ_add by lra; f_equal; lia).
  assert (PW : 0 < B * B) by (apply Rmult_lt_0_compat; lra).
  assert (H : 1000 * INR (length xs) * roundoff * powerRZ 2 (2 * k) <= ExactVariance xs).
  { rewrite B2 in *. eapply Rle_trans; [| exact S]. assert (N := few_samples _ F). replace (1000 * INR (length xs) * roundoff * (B * B)) with (INR (length xs) * roundoff * (1000 * (B * B))) by ring.
    apply Rle_trans with (/ 8192 * (1000 * (B * B))); [apply Rmult_le_compat_r; lra | lra]. }
  rewrite B2 in S. set (V := ExactVariance xs) in *. set (n := INR (length xs)) in *.
  assert (G : forall e c d D, 0 < d -> 0 <= e -> d <= D -> e * D <= c * n * roundoff * d -> e <= c * n * roundoff).
  { intros e c d D P1 P2 P3 P4. apply Rmult_le_reg_r with d; [exact P1 |]. eapply Rle_trans; [| exact P4]. apply Rmult_le_compat_l; assumption. }
  split.
  - destruct (skewness_accurate k xs F NE K W H) as (g & E & Fg & A). exists g. split; [exact E |]. split; [exact Fg |]. rewrite B3 in A. fold V n in A.
    assert (s : B / 2 <= sqrt V) by (rewrite <- (sqrt_square (B / 2)) by lra; apply sqrt_le_1; [apply Rmult_le_pos; lra | lra | lra]).
    assert (c : B * B * B / 8 <= sqrt V ^ 3) by (replace (B * B * B / 8) with ((B / 2) ^ 3) by field; apply pow_incr; lra).
    apply (G _ 1360 (B * B * B / 8) (sqrt V ^ 3)); [assert (0 < B * B * B) by (apply Rmult_lt_0_compat; lra); lra | apply Rabs_pos | exact c | lra].
  - destruct (kurtosis_accurate k xs F NE K W H) as (g & E & Fg & A). exists g. split; [exact E |]. split; [exact Fg |]. rewrite B4 in A. fold V n in A.
    assert (c : B * B * (B * B) / 16 <= V ^ 2) by (replace (B * B * (B * B) / 16) with ((B * B / 4) ^ 2) by field; apply pow_incr; lra).
    apply (G _ 7200 (B * B * (B * B) / 16) (V ^ 2)); [assert (0 < B * B * (B * B)) by (apply Rmult_lt_0_compat; lra); lra | apply Rabs_pos | exact c | lra].
Qed.
Lemma sevens_spread : powerRZ 2 (2 * 3) / 4 <= ExactVariance [dbl 7 0; dbl (-3) 0; dbl 7 0].
Proof. destruct sevens_shape_ok as (_ & _ & _ & _ & V). rewrite V. replace (powerRZ 2 (2 * 3)) with 64 by (change (powerRZ 2 (2 * 3)) with (2 ^ 6); ring). lra. Qed.
