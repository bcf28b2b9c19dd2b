(** The accuracy of weighted means of doubles: the statements for the property file. *)
From Coq Require Import ZArith List Bool Reals Lra Lia Arith Psatz Permutation.
From Flocq Require Import Core IEEE754.BinarySingleNaN.
From Verif Require Import Num NumFacts ModelBasic ModelRounding ModelDouble SpecStats SpecDouble SpecDoubleVariance SpecDoubleWeighted ProofBasic ProofBasic2 ProofKahan ProofDouble ProofDouble2 ProofDouble3 ProofDoubleEx ProofDoubleVariance ProofDoubleVariance2 ProofDoubleVariance3 ProofDoubleVariance4 ProofDoubleCovariance ProofDoubleWeighted ProofDoubleWeighted2.
Import ListNotations.
Local Open Scope R_scope.

Lemma weights_le b c h : b <= c -> Weights b h -> Weights c h.
Proof. intros H. apply Forall_impl. intros x [F B]. split; [exact F | lra]. Qed.
Lemma low_pow : / 2 ^ 450 = bpow radix2 (-450).
Proof. rewrite pow_bpow, <- bpow_opp. reflexivity. Qed.
Lemma scale_up k c n p b : 0 <= c -> 0 <= n -> p <= 2 * b -> k = 2 * c -> c * n * roundoff * p <= k * n * roundoff * b.
Proof.
  intros C N P ->. assert (Hu := roundoff_small). replace (2 * c * n * roundoff * b) with (c * n * roundoff * (2 * b)) by ring. apply Rmult_le_compat_l; [| exact P].
  apply Rmult_le_pos; [apply Rmult_le_pos |]; lra.
Qed.
Lemma weighted_mean_accurate b c h : Few h -> Moderate b -> Moderate c -> h <> [] -> Within b (map fst h) -> Weights c h -> / 2 ^ 450 <= ExactWeight h ->
  finite (wmean_set_mean DoubleN (wmean_set_run DoubleN d_zero d_zero h)) /\
  Rabs (val (wmean_set_mean DoubleN (wmean_set_run DoubleN d_zero d_zero h)) - ExactWeightedMean h) <= 8 * INR (length h) * roundoff * b.
Proof.
  intros L MB MC N WA WB LW. destruct (moderate_pow b MB) as (i & I & I' & A1 & A2). destruct (moderate_pow c MC) as (j & J & J' & B1 & B2). rewrite low_pow in LW.
  destruct (weighted_mean_close i j h L I ltac:(lia) J ltac:(lia) N (within_le _ _ _ A1 WA) (weights_le _ _ _ B1 WB) LW) as [F E]. split; [exact F |].
  eapply Rle_trans; [exact E |]. apply scale_up; [lra | apply pos_INR | exact A2 | lra].
Qed.
Lemma immediate_mean_accurate b c x w h : Few ((x, w) :: h) -> Moderate b -> Moderate c -> Within b (map fst ((x, w) :: h)) -> Weights c ((x, w) :: h) -> / 2 ^ 450 <= val w ->
  finite (wv_mean DoubleN (wvar_set_run DoubleN d_zero d_zero ((x, w) :: h))) /\
  Rabs (val (wv_mean DoubleN (wvar_set_run DoubleN d_zero d_zero ((x, w) :: h))) - ExactWeightedMean ((x, w) :: h)) <= 24 * INR (length ((x, w) :: h)) * roundoff * b.
Proof.
  intros L MB MC WA WB LW. destruct (moderate_pow b MB) as (i & I & I' & A1 & A2). destruct (moderate_pow c MC) as (j & J & J' & B1 & B2). rewrite low_pow in LW.
  set (g := (x, w) :: h) in *.
  destruct (immediate_close i j g L I ltac:(lia) J ltac:(lia) (within_le _ _ _ A1 WA) (weights_le _ _ _ B1 WB) LW) as [F E]. split; [exact F |].
  eapply Rle_trans; [exact E |]. rewrite <- Rmult_assoc. apply scale_up; [lra | apply pos_INR | exact A2 | lra].
Qed.
Lemma exact_weighted_mean_perm g h : Permutation g h -> ExactWeightedMean g = ExactWeightedMean h /\ ExactWeight g = ExactWeight h.
Proof.
  intros P. assert (E : ExactWeight g = ExactWeight h) by exact (total_perm RN RN_field val _ _ (Permutation_map snd P)). split; [| exact E].
  unfold ExactWeightedMean. rewrite E. f_equal. exact (total_perm RN RN_field (fun p => val (fst p) * val (snd p)) _ _ P).
Qed.
Lemma weights_perm c g h : Permutation g h -> Weights c g -> Weights c h.
Proof. unfold Weights. rewrite !Forall_forall. intros P H x I. apply H. apply Permutation_in with h; [apply Permutation_sym |]; assumption. Qed.
Lemma weighted_orders b c g h x w : Permutation g ((x, w) :: h) -> Few g -> Moderate b -> Moderate c -> Within b (map fst g) -> Weights c g -> / 2 ^ 450 <= val w ->
  Rabs (val (wmean_set_mean DoubleN (wmean_set_run DoubleN d_zero d_zero g)) - val (wmean_set_mean DoubleN (wmean_set_run DoubleN d_zero d_zero ((x, w) :: h)))) <= 16 * INR (length g) * roundoff * b /\
  Rabs (val (wmean_set_mean DoubleN (wmean_set_run DoubleN d_zero d_zero g)) - val (wv_mean DoubleN (wvar_set_run DoubleN d_zero d_zero ((x, w) :: h)))) <= 32 * INR (length g) * roundoff * b.
Proof.
  intros P L MB MC WA WB LW. assert (Ln := Permutation_length P). destruct (exact_weighted_mean_perm _ _ P) as [E EW].
  set (k := (x, w) :: h) in *. assert (L' : Few k) by (unfold Few; rewrite <- Ln; exact L). assert (N : g <> []) by (intros ->; discriminate).
  assert (WA' := within_perm b _ _ (Permutation_map fst P) WA). assert (WB' := weights_perm c _ _ P WB).
  assert (TW : / 2 ^ 450 <= ExactWeight k).
  { unfold k in *. inversion WB' as [|? ? _ W']; subst. destruct (weights_magnitude _ _ W') as [_ Q]. change (ExactWeight ((x, w) :: h)) with (val w + ExactWeight h). rewrite low_pow in *. lra. }
  destruct (weighted_mean_accurate b c g L MB MC N WA WB) as [_ A1]; [rewrite EW; exact TW |].
  destruct (weighted_mean_accurate b c k L' MB MC ltac:(discriminate) WA' WB' TW) as [_ A2]. destruct (immediate_mean_accurate b c x w h L' MB MC WA' WB' LW) as [_ A3]. fold k in A3.
  rewrite <- E, <- Ln in A2, A3. apply Rabs_le_inv in A1. apply Rabs_le_inv in A2. apply Rabs_le_inv in A3. split; apply Rabs_le; lra.
Qed.

(** A first weight of zero. *)
Lemma nan_is x : nan x -> x = B754_nan.
Proof. destruct x; cbn; try discriminate; reflexivity. Qed.
Lemma leading_zero x h : finite x -> nan (wv_mean DoubleN (wvar_set_run DoubleN d_zero d_zero ((x, d_zero) :: h))).
Proof.
  intros F. change (nan (dimean ((x, d_zero) :: h))). induction h as [|[y v] h IH] using rev_ind.
  - change [(x, d_zero)] with ([] ++ [(x, d_zero)]). rewrite dimean_snoc. destruct x as [[]|[]| |[]]; try discriminate F; reflexivity.
  - change ((x, d_zero) :: h ++ [(y, v)]) with (((x, d_zero) :: h) ++ [(y, v)]). rewrite dimean_snoc, (nan_is _ IH). reflexivity.
Qed.
Lemma leading_zero_lazy : shown_double (wmean_set_mean DoubleN (wmean_set_run DoubleN d_zero d_zero [(dbl 5 0, d_zero); (d_one, d_one)])) = shown_double d_one.
Proof. vm_compute. reflexivity. Qed.

Lemma weighted_ok : let h := [(big1, tenth); (big2, d_zero); (tenth, d_one)] in
  Few h /\ Moderate (2 ^ 28) /\ Moderate 1 /\ Within (2 ^ 28) (map fst h) /\ Weights 1 h /\ / 2 ^ 450 <= val tenth.
Proof.
  destruct three_ok as (_ & M & W). cbv zeta. split; [unfold Few; cbn; lia |]. split; [exact M |].
  assert (L1 : / 2 ^ 450 <= 1). { rewrite <- Rinv_1. apply Rinv_le; [lra |]. apply pow_R1_Rle; lra. }
  destruct (shown_value tenth 7205759403792794 (-56) ltac:(vm_compute; reflexivity)) as [Ft Et].
  assert (Bt : bpow radix2 (-4) <= val tenth <= 1).
  { rewrite Et. change (bpow radix2 (-4)) with (/ 16). change (bpow radix2 (-56)) with (/ 72057594037927936). lra. }
  split; [split; [exact L1 | apply pow_R1_Rle; lra] |]. split; [exact W |]. split.
  - assert (B4 := bpow_gt_0 radix2 (-4)). apply Forall_cons; [| apply Forall_cons; [| apply Forall_cons; [| apply Forall_nil]]]; cbn [snd].
    + split; [exact Ft | lra].
    + split; [reflexivity |]. change (val d_zero) with 0. lra.
    + split; [reflexivity |]. replace (val d_one) with 1; [lra |]. symmetry. destruct (shown_value d_one 4503599627370496 (-52) ltac:(vm_compute; reflexivity)) as [_ ->]. change (bpow radix2 (-52)) with (/ 4503599627370496). lra.
  - rewrite low_pow. eapply Rle_trans; [| apply Bt]. apply bpow_le. lia.
Qed.
