(** The accuracy of weighted covariances of doubles: the statements for the property file. *)
From Coq Require Import ZArith List Bool Reals Lra Lia Arith Permutation.
From Flocq Require Import Core IEEE754.BinarySingleNaN.
From Verif Require Import Num NumFacts ModelBasic ModelDouble SpecStats SpecDouble SpecDoubleVariance SpecDoubleWeighted SpecDoubleWVariance SpecDoubleWCov ProofBasic ProofBasic2 ProofDouble ProofDouble2 ProofDoubleEx ProofDoubleVariance2 ProofDoubleVariance3 ProofDoubleVariance4 ProofDoubleCovariance ProofDoubleWeighted ProofDoubleWeighted2 ProofDoubleWeighted3 ProofDoubleWVariance4 ProofDoubleWCov2.
Import ListNotations.
Local Open Scope R_scope.

Lemma wcovariance_accurate b c r x v w h : let g := (x, v, w) :: h in Few g -> Mild b -> Moderate c ->
  Within b (map fst (weighted_samples g)) -> Within b (map fst (weighted_variates g)) -> Weights c (weighted_samples g) -> / 2 ^ 450 <= val w ->
  1 <= r -> r * INR (length g) * roundoff <= / 1000 -> Balanced r (weighted_samples g) ->
  finite (wc_cov DoubleN (wcov_set_run DoubleN d_zero d_zero d_zero g)) /\
  Rabs (val (wc_cov DoubleN (wcov_set_run DoubleN d_zero d_zero d_zero g)) - ExactWeightedCovariance g) <= 400 * INR (length g) * roundoff * (b * b).
Proof.
  intros g L MB MC WX WV WB LW R1 R2 Bl. destruct (mild_pow b MB) as (i & I & I' & A1 & A2). destruct (moderate_pow c MC) as (j & J & J' & B1 & B2). rewrite low_pow in LW. rewrite Rmult_assoc in R2.
  destruct (wcov_close i j r g L ltac:(lia) ltac:(lia) J ltac:(lia) R1 R2 (within_le _ _ _ A1 WX) (within_le _ _ _ A1 WV) (weights_le _ _ _ B1 WB) LW Bl) as [F E]. split; [exact F |].
  eapply Rle_trans; [exact E |]. rewrite <- (Rmult_assoc 100). apply scale_up2; [lra | apply pos_INR | apply bpow_ge_0 | exact A2 | lra].
Qed.
Lemma wcovariance_orders b c r x v w h x' v' w' h' : let g := (x, v, w) :: h in let g' := (x', v', w') :: h' in Permutation g g' -> Few g -> Mild b -> Moderate c ->
  Within b (map fst (weighted_samples g)) -> Within b (map fst (weighted_variates g)) -> Weights c (weighted_samples g) -> / 2 ^ 450 <= val w -> / 2 ^ 450 <= val w' ->
  1 <= r -> r * INR (length g) * roundoff <= / 1000 -> Balanced r (weighted_samples g) -> Balanced r (weighted_samples g') ->
  Rabs (val (wc_cov DoubleN (wcov_set_run DoubleN d_zero d_zero d_zero g)) - val (wc_cov DoubleN (wcov_set_run DoubleN d_zero d_zero d_zero g'))) <= 800 * INR (length g) * roundoff * (b * b).
Proof.
  intros g g' P L MB MC WX WV WB LW LW' R1 R2 Bl Bl'. assert (Ln := Permutation_length P).
  assert (E : ExactWeightedCovariance g = ExactWeightedCovariance g') by (apply (WCovariance_perm RN RN_field); apply Permutation_map; exact P).
  destruct (wcovariance_accurate b c r x v w h L MB MC WX WV WB LW R1 R2 Bl) as [_ C].
  destruct (wcovariance_accurate b c r x' v' w' h') as [_ C'];
    [ unfold Few in *; change ((x', v', w') :: h') with g'; rewrite <- Ln; exact L | exact MB | exact MC
    | exact (within_perm b _ _ (Permutation_map fst (Permutation_map _ P)) WX) | exact (within_perm b _ _ (Permutation_map fst (Permutation_map _ P)) WV)
    | exact (weights_perm c _ _ (Permutation_map _ P) WB) | exact LW' | exact R1 | change ((x', v', w') :: h') with g'; rewrite <- Ln; exact R2 | exact Bl' |].
  fold g in C. fold g' in C'. rewrite <- E, <- Ln in C'. apply Rabs_le_inv in C. apply Rabs_le_inv in C'. apply Rabs_le. lra.
Qed.
Lemma wcovariance_ok : let g := [(big1, big2, tenth); (big2, tenth, d_zero); (tenth, big1, d_one)] in
  Few g /\ Mild (2 ^ 28) /\ Moderate 1 /\ Within (2 ^ 28) (map fst (weighted_samples g)) /\ Within (2 ^ 28) (map fst (weighted_variates g)) /\ Weights 1 (weighted_samples g) /\ / 2 ^ 450 <= val tenth /\
  1 <= 16 /\ 16 * INR (length g) * roundoff <= / 1000 /\ Balanced 16 (weighted_samples g).
Proof.
  destruct wvariance_ok as (F & M & C & WA & WB & LW & O & R & B). cbv zeta. split; [exact F |]. split; [exact M |]. split; [exact C |]. split; [exact WA |].
  split; [| split; [exact WB |]; split; [exact LW |]; split; [exact O |]; split; [exact R | exact B]].
  inversion WA as [|? ? X1 WA1]; subst. inversion WA1 as [|? ? X2 WA2]; subst. inversion WA2 as [|? ? X3 _]; subst. repeat (constructor; [assumption |]). constructor.
Qed.
Lemma wcov_dominated c g x v w k : Few g -> Moderate c -> Weights c (weighted_samples g) -> g <> [] -> finite w -> / 2 ^ 450 <= val w -> 2 ^ 55 * ExactWeight (weighted_samples g) <= val w ->
  ~ finite (wc_cov DoubleN (wcov_set_run DoubleN d_zero d_zero d_zero (g ++ (x, v, w) :: k))).
Proof.
  intros L MC WB N Fw LW Big. change (~ finite (dwcov (g ++ (x, v, w) :: k))). rewrite low_pow in LW.
  destruct (moderate_pow c MC) as (j & J & J' & B1 & B2). assert (L' : Few (weighted_samples g)) by (unfold Few; rewrite SX_length; exact L).
  destruct (weight_close j _ L' J ltac:(lia) (weights_le _ _ _ B1 WB)) as [[Fg _] Eg]. destruct (weights_magnitude _ _ WB) as [_ W0].
  assert (Nu := few_samples _ L'). assert (Hu := roundoff_small). assert (P450 := bpow_gt_0 radix2 (-450)).
  assert (T : 1.02 * (INR (length (weighted_samples g)) * roundoff) * ExactWeight (weighted_samples g) <= / 100 * ExactWeight (weighted_samples g)) by (apply Rmult_le_compat_r; lra).
  apply Rabs_le_inv in Eg. assert (P0 : 0 <= val (Wsum (weighted_samples g))) by lra.
  assert (Sm : val (Wsum (weighted_samples g)) < val w * bpow radix2 (-54)).
  { change (bpow radix2 (-54)) with (/ 18014398509481984). replace (2 ^ 55) with 36028797018963968 in Big by ring. lra. }
  destruct (absorbed _ w Fg Fw P0 LW Sm) as [Ev Fv].
  destruct (same_difference _ w Fv Fw Ev) as [s Es].
  induction k as [|[[y z] u] k IH] using rev_ind.
  - rewrite dwcov_snoc. assert (Lt : Nat.ltb 1 (S (length g)) = true) by (apply Nat.ltb_lt; destruct g; [congruence | cbn; lia]). rewrite Lt. rewrite (SX_snoc g x v w) at 3 4. rewrite Wsum_snoc, Es.
    apply add_infinite_r, div_zero.
  - change (g ++ (x, v, w) :: k ++ [(y, z, u)]) with (g ++ ((x, v, w) :: k) ++ [(y, z, u)]). rewrite app_assoc, dwcov_snoc.
    destruct (Nat.ltb _ _); [| exact IH]. apply add_infinite_l, div_infinite_l, mul_infinite_l. exact IH.
Qed.
Lemma wcov_absorbing_ok : let g := [(d_one, tenth, dbl 1 (-60))] in
  Few g /\ Moderate 1 /\ Weights 1 (weighted_samples g) /\ g <> [] /\ finite d_one /\ / 2 ^ 450 <= val d_one /\ 2 ^ 55 * ExactWeight (weighted_samples g) <= val d_one.
Proof. destruct absorbing_ok as (F & M & W & _ & O & B & E). cbv zeta. split; [exact F |]. split; [exact M |]. split; [exact W |]. split; [discriminate |]. split; [exact O |]. split; [exact B | exact E]. Qed.
