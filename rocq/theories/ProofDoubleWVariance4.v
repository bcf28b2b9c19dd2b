(** The accuracy of weighted variances of doubles: a weight that absorbs all those before it, and the statements
    for the property file. *)
From Coq Require Import ZArith List Bool Reals Lra Lia Arith Psatz Permutation.
From Flocq Require Import Core IEEE754.BinarySingleNaN.
From Verif Require Import Num NumFacts ModelBasic ModelRounding ModelDouble SpecStats SpecDouble SpecDoubleVariance SpecDoubleWeighted SpecDoubleWVariance ProofBasic ProofBasic2 ProofKahan ProofDouble ProofDouble2 ProofDouble3 ProofDoubleEx ProofDoubleVariance ProofDoubleVariance2 ProofDoubleVariance3 ProofDoubleVariance4 ProofDoubleCovariance ProofDoubleWeighted ProofDoubleWeighted2 ProofDoubleWeighted3 ProofDoubleWVariance ProofDoubleWVariance2 ProofDoubleWVariance3.
Import ListNotations.
Local Open Scope R_scope.

(** ** Accuracy *)
Lemma mild_moderate b : Mild b -> Moderate b.
Proof.
  intros [L H]. split.
  - eapply Rle_trans; [| exact L]. apply Rinv_le; [apply pow_lt; lra |]. apply Rle_pow; [lra | lia].
  - eapply Rle_trans; [exact H |]. apply Rle_pow; [lra | lia].
Qed.
Lemma mild_pow b : Mild b -> exists k, (-220 <= k)%Z /\ (k <= 221)%Z /\ b <= bpow radix2 k /\ bpow radix2 k <= 2 * b.
Proof.
  intros M. destruct (moderate_pow b (mild_moderate b M)) as (k & _ & _ & A1 & A2). destruct M as [L H]. exists k.
  rewrite pow_bpow in L, H. rewrite <- bpow_opp in L. change (- Z.of_nat 220)%Z with (-220)%Z in L. change (Z.of_nat 220) with 220%Z in H.
  split; [| split; [| split; assumption]].
  - apply (le_bpow radix2). lra.
  - apply (le_bpow radix2). change 221%Z with (1 + 220)%Z. rewrite bpow_plus. change (bpow radix2 1) with 2. lra.
Qed.
Lemma scale_up2 k c n p b : 0 <= c -> 0 <= n -> 0 <= p -> p <= 2 * b -> k = 4 * c -> c * n * roundoff * (p * p) <= k * n * roundoff * (b * b).
Proof.
  intros C N P0 P ->. assert (Hu := roundoff_small). replace (4 * c * n * roundoff * (b * b)) with (c * n * roundoff * (4 * (b * b))) by ring. apply Rmult_le_compat_l; [| apply square_le; assumption].
  apply Rmult_le_pos; [apply Rmult_le_pos |]; lra.
Qed.
Lemma lazy_wvariance_accurate b c h : Few h -> Mild b -> Moderate c -> h <> [] -> Within b (map fst h) -> Weights c h -> / 2 ^ 450 <= ExactWeight h ->
  exists v, lazy_weighted_variance_run DoubleN d_zero h = Some v /\ finite v /\
  Rabs (val v - ExactWeightedVariance h) <= 68 * INR (length h) * roundoff * (b * b).
Proof.
  intros L MB MC N WA WB LW. destruct (mild_pow b MB) as (i & I & I' & A1 & A2). destruct (moderate_pow c MC) as (j & J & J' & B1 & B2). rewrite low_pow in LW.
  destruct (lazy_wvariance_close i j h L ltac:(lia) ltac:(lia) J ltac:(lia) N (within_le _ _ _ A1 WA) (weights_le _ _ _ B1 WB) LW) as (v & E & F & D). exists v. split; [exact E |]. split; [exact F |].
  eapply Rle_trans; [exact D |]. apply scale_up2; [lra | apply pos_INR | apply bpow_ge_0 | exact A2 | lra].
Qed.
Lemma wvariance_accurate b c r x w h : Few ((x, w) :: h) -> Mild b -> Moderate c -> Within b (map fst ((x, w) :: h)) -> Weights c ((x, w) :: h) -> / 2 ^ 450 <= val w ->
  1 <= r -> r * INR (length ((x, w) :: h)) * roundoff <= / 1000 -> Balanced r ((x, w) :: h) ->
  finite (wv_var DoubleN (wvar_set_run DoubleN d_zero d_zero ((x, w) :: h))) /\
  Rabs (val (wv_var DoubleN (wvar_set_run DoubleN d_zero d_zero ((x, w) :: h))) - ExactWeightedVariance ((x, w) :: h)) <= 400 * INR (length ((x, w) :: h)) * roundoff * (b * b).
Proof.
  intros L MB MC WA WB LW R1 R2 Bl. destruct (mild_pow b MB) as (i & I & I' & A1 & A2). destruct (moderate_pow c MC) as (j & J & J' & B1 & B2). rewrite low_pow in LW.
  set (g := (x, w) :: h) in *. rewrite Rmult_assoc in R2.
  destruct (wvariance_close i j r g L ltac:(lia) ltac:(lia) J ltac:(lia) R1 R2 (within_le _ _ _ A1 WA) (weights_le _ _ _ B1 WB) LW Bl) as [F E]. split; [exact F |].
  eapply Rle_trans; [exact E |]. rewrite <- (Rmult_assoc 100). apply scale_up2; [lra | apply pos_INR | apply bpow_ge_0 | exact A2 | lra].
Qed.
Lemma exact_variance_perm g h : Permutation g h -> ExactWeightedVariance g = ExactWeightedVariance h.
Proof. intros P. apply (WVariance_perm RN RN_field). apply Permutation_map. exact P. Qed.
Lemma wvariance_orders b c r g h x w : Permutation g ((x, w) :: h) -> Few g -> Mild b -> Moderate c -> Within b (map fst g) -> Weights c g -> / 2 ^ 450 <= val w ->
  1 <= r -> r * INR (length g) * roundoff <= / 1000 -> Balanced r ((x, w) :: h) ->
  exists u v, lazy_weighted_variance_run DoubleN d_zero g = Some u /\ lazy_weighted_variance_run DoubleN d_zero ((x, w) :: h) = Some v /\
  Rabs (val u - val v) <= 136 * INR (length g) * roundoff * (b * b) /\
  Rabs (val u - val (wv_var DoubleN (wvar_set_run DoubleN d_zero d_zero ((x, w) :: h)))) <= 468 * INR (length g) * roundoff * (b * b).
Proof.
  intros P L MB MC WA WB LW R1 R2 Bl. assert (Ln := Permutation_length P). destruct (exact_weighted_mean_perm _ _ P) as [_ EW]. assert (E := exact_variance_perm _ _ P).
  set (k := (x, w) :: h) in *. assert (L' : Few k) by (unfold Few; rewrite <- Ln; exact L). assert (N : g <> []) by (intros ->; discriminate).
  assert (WA' := within_perm b _ _ (Permutation_map fst P) WA). assert (WB' := weights_perm c _ _ P WB).
  assert (TW : / 2 ^ 450 <= ExactWeight k).
  { unfold k in *. inversion WB' as [|? ? _ W']; subst. destruct (weights_magnitude _ _ W') as [_ Q]. change (ExactWeight ((x, w) :: h)) with (val w + ExactWeight h). rewrite low_pow in *. lra. }
  destruct (lazy_wvariance_accurate b c g L MB MC N WA WB) as (u & U1 & _ & U2); [rewrite EW; exact TW |].
  destruct (lazy_wvariance_accurate b c k L' MB MC ltac:(discriminate) WA' WB' TW) as (v & V1 & _ & V2).
  rewrite Ln in R2. destruct (wvariance_accurate b c r x w h L' MB MC WA' WB' LW R1 R2 Bl) as [_ A3]. fold k in A3.
  exists u, v. split; [exact U1 |]. split; [exact V1 |]. rewrite <- E, <- Ln in V2, A3. apply Rabs_le_inv in U2. apply Rabs_le_inv in V2. apply Rabs_le_inv in A3. split; apply Rabs_le; lra.
Qed.

(** ** A weight that absorbs all those before it *)
Lemma absorbed (v w : double) : finite v -> finite w -> 0 <= val v -> bpow radix2 (-450) <= val w -> val v < val w * bpow radix2 (-54) -> val (d_add v w) = val w /\ finite (d_add v w).
Proof.
  intros Fv Fw P Q A. assert (Pw : 0 < val w) by (assert (H := bpow_gt_0 radix2 (-450)); lra).
  assert (F : generic_format radix2 (FLT_exp (-1074) 53) (val w)) by exact (generic_format_B2R 53 1024 w).
  assert (R : b64_round (val v + val w) = val w).
  { apply Rle_antisym.
    - unfold b64_round. apply round_N_le_midp; [apply FLT_exp_valid; reflexivity | exact F |].
      rewrite succ_eq_pos by lra.
      assert (U : val w * bpow radix2 (-53) <= ulp radix2 (FLT_exp (-1074) 53) (val w)).
      { rewrite ulp_neq_0 by lra. unfold cexp, FLT_exp. destruct (mag radix2 (val w)) as [e He]. cbn [mag_val]. specialize (He ltac:(lra)). rewrite Rabs_pos_eq in He by lra.
        apply Rle_trans with (bpow radix2 (e - 53)); [| apply bpow_le; lia]. unfold Zminus. rewrite bpow_plus. apply Rmult_le_compat_r; [apply bpow_ge_0 | lra]. }
      replace (val w * bpow radix2 (-54)) with (val w * bpow radix2 (-53) / 2) in A; [lra |].
      change (-53)%Z with (-54 + 1)%Z. rewrite bpow_plus. change (bpow radix2 1) with 2. field.
    - rewrite <- (round_generic radix2 (FLT_exp (-1074) 53) ZnearestE (val w) F) at 1. apply round_le; lra. }
  destruct (add_ok v w Fv Fw) as [F' E].
  { fold (val v) (val w). rewrite R. exact (abs_B2R_lt_emax 53 1024 w). }
  split; [unfold val at 1; rewrite E; exact R | exact F'].
Qed.
Lemma same_difference (v w : double) : finite v -> finite w -> val v = val w -> exists s, d_sub v w = B754_zero s.
Proof.
  intros Fv Fw E. destruct (sub_ok v w Fv Fw) as [F V].
  { fold (val v) (val w). rewrite E, Rminus_diag_eq by reflexivity. unfold b64_round. rewrite round_0 by apply valid_rnd_N. rewrite Rabs_R0. apply bpow_gt_0. }
  fold (val v) (val w) in V. rewrite E, Rminus_diag_eq in V by reflexivity. unfold b64_round in V. rewrite round_0 in V by apply valid_rnd_N.
  destruct (d_sub v w) as [s|s| |s m e H]; try discriminate F; [now exists s |]. exfalso. cbn in V. revert V. apply F2R_neq_0. destruct s; discriminate.
Qed.
Lemma div_zero (x : double) s : ~ finite (d_div x (B754_zero s)).
Proof. destruct x; discriminate. Qed.
Lemma add_infinite_r (x y : double) : ~ finite y -> ~ finite (d_add x y).
Proof. destruct y as [s|s| |s m e H]; intros N; try (elim N; reflexivity); destruct x as [[]|[]| |[] ? ? ?]; try destruct s; discriminate. Qed.
Lemma add_infinite_l (x y : double) : ~ finite x -> ~ finite (d_add x y).
Proof. destruct x as [s|s| |s m e H]; intros N; try (elim N; reflexivity); destruct y as [[]|[]| |[] ? ? ?]; try destruct s; discriminate. Qed.
Lemma mul_infinite_l (x y : double) : ~ finite x -> ~ finite (d_mul x y).
Proof. destruct x as [s|s| |s m e H]; intros N; try (elim N; reflexivity); destruct y as [[]|[]| |[] ? ? ?]; try destruct s; discriminate. Qed.
Lemma div_infinite_l (x y : double) : ~ finite x -> ~ finite (d_div x y).
Proof. destruct x as [s|s| |s m e H]; intros N; try (elim N; reflexivity); destruct y as [[]|[]| |[] ? ? ?]; try destruct s; discriminate. Qed.

Lemma dominated c g x w k : Few g -> Moderate c -> Weights c g -> g <> [] -> finite w -> / 2 ^ 450 <= val w -> 2 ^ 55 * ExactWeight g <= val w ->
  ~ finite (wv_var DoubleN (wvar_set_run DoubleN d_zero d_zero (g ++ (x, w) :: k))).
Proof.
  intros L MC WB N Fw LW Big. change (~ finite (dwvar (g ++ (x, w) :: k))). rewrite low_pow in LW.
  destruct (moderate_pow c MC) as (j & J & J' & B1 & B2).
  destruct (weight_close j g L J ltac:(lia) (weights_le _ _ _ B1 WB)) as [[Fg _] Eg]. destruct (weights_magnitude _ _ WB) as [_ W0].
  assert (Nu := few_samples _ L). assert (Hu := roundoff_small). assert (P450 := bpow_gt_0 radix2 (-450)).
  assert (T : 1.02 * (INR (length g) * roundoff) * ExactWeight g <= / 100 * ExactWeight g) by (apply Rmult_le_compat_r; lra).
  assert (T0 := pos_INR (length g)). apply Rabs_le_inv in Eg.
  assert (P0 : 0 <= val (Wsum g)) by lra.
  assert (Sm : val (Wsum g) < val w * bpow radix2 (-54)).
  { change (bpow radix2 (-54)) with (/ 18014398509481984). replace (2 ^ 55) with 36028797018963968 in Big by ring. lra. }
  destruct (absorbed _ w Fg Fw P0 LW Sm) as [Ev Fv].
  destruct (same_difference _ w Fv Fw Ev) as [s Es].
  induction k as [|[y v] k IH] using rev_ind.
  - rewrite dwvar_snoc. assert (Lt : Nat.ltb 1 (S (length g)) = true) by (apply Nat.ltb_lt; destruct g; [congruence | cbn; lia]). rewrite Lt, Wsum_snoc, Es.
    apply add_infinite_r, div_zero.
  - change (g ++ (x, w) :: k ++ [(y, v)]) with (g ++ ((x, w) :: k) ++ [(y, v)]). rewrite app_assoc, dwvar_snoc.
    destruct (Nat.ltb _ _); [| exact IH]. apply add_infinite_l, div_infinite_l, mul_infinite_l. exact IH.
Qed.

(** ** A concrete case *)
Lemma wvariance_ok : let h := [(big1, tenth); (big2, d_zero); (tenth, d_one)] in
  Few h /\ Mild (2 ^ 28) /\ Moderate 1 /\ Within (2 ^ 28) (map fst h) /\ Weights 1 h /\ / 2 ^ 450 <= val tenth /\ 1 <= 16 /\ 16 * INR (length h) * roundoff <= / 1000 /\ Balanced 16 h.
Proof.
  destruct weighted_ok as (F & _ & M1 & WA & WB & LW). cbv zeta in *. split; [exact F |]. split.
  { split; [| apply Rle_pow; [lra | lia]]. apply Rle_trans with 1; [| apply pow_R1_Rle; lra]. rewrite <- Rinv_1. apply Rinv_le; [lra |]. apply pow_R1_Rle; lra. }
  split; [exact M1 |]. split; [exact WA |]. split; [exact WB |]. split; [exact LW |]. split; [lra |]. split.
  { cbn [length INR]. rewrite roundoff_is. unfold b64_u. change (bpow radix2 (-53)) with (/ 9007199254740992). lra. }
  destruct (shown_value tenth 7205759403792794 (-56) ltac:(vm_compute; reflexivity)) as [Ft Et].
  assert (Bt : / 16 <= val tenth) by (rewrite Et; change (bpow radix2 (-56)) with (/ 72057594037927936); lra).
  assert (O : val d_one = 1). { destruct (shown_value d_one 4503599627370496 (-52) ltac:(vm_compute; reflexivity)) as [_ ->]. change (bpow radix2 (-52)) with (/ 4503599627370496). lra. }
  intros g x w k E Ng. destruct g as [|p1 [|p2 [|p3 [|p4 g]]]]; [congruence | | | |]; try (apply (f_equal (@length _)) in E; rewrite ?app_length in E; cbn in E; lia);
    injection E; intros; subst; unfold ExactWeight, ExactSum; cbn [map snd total fold_right add RN].
  - change (val d_zero) with 0. change (0 <= 16 * (val tenth + 0)). lra.
  - change (val d_one <= 16 * (val tenth + (0 + 0))). lra.
Qed.
Lemma absorbing_ok : let h := [(d_one, dbl 1 (-60))] in Few h /\ Moderate 1 /\ Weights 1 h /\ h <> [] /\ finite d_one /\ / 2 ^ 450 <= val d_one /\ 2 ^ 55 * ExactWeight h <= val d_one.
Proof.
  destruct weighted_ok as (_ & _ & M1 & _). cbv zeta.
  assert (O : val d_one = 1). { destruct (shown_value d_one 4503599627370496 (-52) ltac:(vm_compute; reflexivity)) as [_ ->]. change (bpow radix2 (-52)) with (/ 4503599627370496). lra. }
  destruct (shown_value (dbl 1 (-60)) 4503599627370496 (-112) ltac:(vm_compute; reflexivity)) as [Fd Ed]. assert (Ed' : val (dbl 1 (-60)) = bpow radix2 (-60)).
  { rewrite Ed. change 4503599627370496 with (bpow radix2 52). rewrite <- bpow_plus. reflexivity. }
  assert (S : bpow radix2 (-60) <= 1) by (change 1 with (bpow radix2 0); apply bpow_le; lia). assert (S0 := bpow_gt_0 radix2 (-60)).
  split; [unfold Few; cbn; lia |]. split; [exact M1 |]. split; [apply Forall_cons; [| apply Forall_nil]; split; [exact Fd | cbn [snd]; rewrite Ed'; lra] |].
  split; [discriminate |]. split; [reflexivity |]. split; [rewrite O; apply M1 |].
  rewrite O. unfold ExactWeight, ExactSum. cbn [map snd total fold_right add RN]. change (2 ^ 55 * (val (dbl 1 (-60)) + 0) <= 1). rewrite Ed'. change (bpow radix2 (-60)) with (/ 1152921504606846976). replace (2 ^ 55) with 36028797018963968 by ring. lra.
Qed.
