(** The accuracy of variances of doubles. *)
From Coq Require Import ZArith List Bool Reals Lra Lia Arith Psatz Permutation.
From Flocq Require Import Core IEEE754.BinarySingleNaN.
From Verif Require Import Num NumFacts ModelBasic ModelRounding ModelDouble SpecStats SpecDouble ProofBasic ProofBasic2 ProofKahan ProofDouble ProofDouble2 ProofDouble3 ProofDoubleVariance.
Import ListNotations.
Local Open Scope R_scope.

Lemma pow_close n : INR n * roundoff <= / 100 -> (1 + roundoff) ^ n - 1 <= 1.02 * (INR n * roundoff).
Proof.
  assert (Hu := roundoff_small).
  assert (H : forall n, INR n * roundoff <= 1 -> (1 + roundoff) ^ n * (1 - INR n * roundoff) <= 1).
  { clear n. induction n as [|n IH]; intros H; [cbn; lra |]. rewrite S_INR in H |- *. cbn [pow].
    assert (P := pow_ge_1 n). assert (IH' := IH ltac:(lra)). assert (0 <= INR n) by apply pos_INR.
    assert ((1 + roundoff) * (1 - (INR n + 1) * roundoff) <= 1 - INR n * roundoff) by nra.
    replace ((1 + roundoff) * (1 + roundoff) ^ n * (1 - (INR n + 1) * roundoff)) with ((1 + roundoff) ^ n * ((1 + roundoff) * (1 - (INR n + 1) * roundoff))) by ring.
    eapply Rle_trans; [apply Rmult_le_compat_l; [lra | eassumption] | exact IH']. }
  intros Hn. assert (G := H n ltac:(lra)). assert (P := pow_ge_1 n). assert (0 <= INR n) by apply pos_INR.
  set (g := (1 + roundoff) ^ n) in *. set (a := INR n * roundoff) in *. assert (0 <= a) by (unfold a; nra). nra.
Qed.

Lemma round_near r : near roundoff tiny (b64_round r) r.
Proof.
  destruct (round_any r) as (d & e & D & E & ->). unfold near. replace (r * (1 + d) + e - r) with (r * d + e) by ring.
  eapply Rle_trans; [apply Rabs_triang |]. rewrite Rabs_mult. apply Rplus_le_compat; [| exact E]. rewrite Rmult_comm. apply Rmult_le_compat_r; [apply Rabs_pos | exact D].
Qed.
Lemma round_sum (x y : double) : Rabs (b64_round (val x + val y) - (val x + val y)) <= roundoff * Rabs (val x + val y).
Proof.
  destruct (round_add x y) as (d & D & ->). replace ((val x + val y) * (1 + d) - (val x + val y)) with (d * (val x + val y)) by ring.
  rewrite Rabs_mult. apply Rmult_le_compat_r; [apply Rabs_pos | exact D].
Qed.
Lemma round_diff (x y : double) : Rabs (b64_round (val x - val y) - (val x - val y)) <= roundoff * Rabs (val x - val y).
Proof.
  destruct (rm_add _ _ _ b64_rounding (val x) (- val y) (val_format x) (generic_format_opp _ _ _ (val_format y))) as (d & D & E).
  change (val x - val y) with (val x + - val y). rewrite E, <- roundoff_is in *.
  replace ((val x + - val y) * (1 + d) - (val x + - val y)) with (d * (val x + - val y)) by ring.
  rewrite Rabs_mult. apply Rmult_le_compat_r; [apply Rabs_pos | exact D].
Qed.

(** ** Exact values *)
Definition vals (xs : list double) : list R := map val xs.
Lemma vals_length xs : length (vals xs) = length xs.
Proof. apply map_length. Qed.
Lemma vals_snoc xs x : vals (xs ++ [x]) = vals xs ++ [val x].
Proof. apply map_app. Qed.
Lemma total_vals xs : total RN (fun x => x) (vals xs) = ExactSum xs.
Proof. induction xs as [|x xs IH]; [reflexivity |]. exact (f_equal (Rplus (val x)) IH). Qed.
Lemma Mean_vals xs : Mean RN (vals xs) = ExactMean xs.
Proof. unfold Mean, average, ExactMean. rewrite total_vals, vals_length. cbn [div RN]. rewrite R_ofnat. reflexivity. Qed.
Lemma magnitude_le b xs : Within b xs -> Magnitude xs <= INR (length xs) * b.
Proof.
  induction xs as [|x xs IH] using rev_ind; intros W; [unfold Magnitude; cbn; lra |].
  apply Forall_app in W as [W Wx]. inversion Wx as [|? ? [_ Bx] _]; subst.
  rewrite magnitude_snoc, app_length, plus_INR. change (INR (length [x])) with 1. assert (H := IH W). lra.
Qed.
Lemma exact_mean_le b xs : xs <> [] -> Within b xs -> Rabs (ExactMean xs) <= b.
Proof.
  intros N W. unfold ExactMean. assert (P : 0 < INR (length xs)) by (apply INR_pos; destruct xs; [congruence | cbn; lia]).
  unfold Rdiv. rewrite Rabs_mult, (Rabs_pos_eq (/ _)) by (left; apply Rinv_0_lt_compat; exact P).
  apply Rmult_le_reg_r with (INR (length xs)); [exact P |]. rewrite Rmult_assoc, Rinv_l, Rmult_1_r by lra.
  assert (H := magnitude_exact xs). assert (H' := magnitude_le b xs W). lra.
Qed.
Lemma imean_exact (l : list R) : l <> [] -> im_mean RN (imean_set_run RN 0 l) = Mean RN l.
Proof. exact (imean_run_spec RN RN_field 0 l). Qed.
Lemma var_exact_snoc (l : list R) (x : R) : l <> [] -> Variance RN (l ++ [x])
  = Variance RN l * INR (length l) / (INR (length l) + 1) + (x - Mean RN (l ++ [x])) * (x - Mean RN (l ++ [x])) / INR (length l).
Proof.
  intros N. assert (N' : l ++ [x] <> []) by (destruct l; discriminate).
  rewrite <- (var_run_spec RN RN_field l N), <- (var_run_spec RN RN_field _ N'), <- (imean_exact _ N').
  refine (eq_trans (vset_step RN 0 l x) _). unfold variance_op. destruct l as [|y l]; [congruence |].
  cbn [length Nat.ltb Nat.leb]. rewrite Nat.sub_succ, Nat.sub_0_r. cbn [add mul sub div RN]. rewrite !R_ofnat. rewrite <- !S_INR. reflexivity.
Qed.
Lemma var_bounds b (l : list R) : l <> [] -> Forall (fun x => Rabs x <= b) l -> 0 <= Variance RN l <= b * b.
Proof.
  intros N F. split; [apply R_Variance_nonneg |].
  assert (P : 0 < INR (length l)) by (apply INR_pos; destruct l; [congruence | cbn; lia]).
  assert (E : Variance RN l = total RN (fun x => x * x) l / INR (length l) - Mean RN l * Mean RN l).
  { assert (H := avg_sub_raw2 RN RN_field l N). cbn [add mul sub div RN car] in H. rewrite H. unfold Moment, average. cbn [div RN]. rewrite R_ofnat.
    assert (S : total RN (fun x => power RN x 2) l = total RN (fun x => x * x) l).
    { clear. induction l as [|x l IH]; [reflexivity |]. change (x * (x * 1) + total RN (fun x => power RN x 2) l = x * x + total RN (fun x => x * x) l). rewrite IH. ring. }
    rewrite S. reflexivity. }
  assert (T : total RN (fun x => x * x) l <= INR (length l) * (b * b)).
  { clear - F. induction F as [|x l Hx _ IH]; [cbn; lra |]. change (total RN (fun x => x * x) (x :: l)) with (x * x + total RN (fun x => x * x) l).
    cbn [length]. rewrite S_INR. assert (x * x <= b * b). { rewrite <- (Rabs_pos_eq (x * x)) by nra. rewrite Rabs_mult. apply Rmult_le_compat; auto using Rabs_pos. } lra. }
  rewrite E. assert (total RN (fun x => x * x) l / INR (length l) <= b * b).
  { apply Rmult_le_reg_r with (INR (length l)); [exact P |]. unfold Rdiv. rewrite Rmult_assoc, Rinv_l; lra. }
  assert (0 <= Mean RN l * Mean RN l) by (generalize (Mean RN l); cbn [car RN]; intros; nra). cbn [car RN] in *. lra.
Qed.
Lemma within_vals b xs : Within b xs -> Forall (fun x => Rabs x <= b) (vals xs).
Proof. induction 1 as [|x xs [_ H] _ IH]; constructor; assumption. Qed.

(** ** The immediate variance *)
Lemma few_samples n : (Z.of_nat n <= 2 ^ 40)%Z -> INR n * roundoff <= / 8192.
Proof.
  intros H. rewrite INR_IZR_INZ. apply Rle_trans with (IZR (2 ^ 40) * roundoff); [apply Rmult_le_compat_r; [assert (R := roundoff_small); lra | apply IZR_le; exact H] |].
  unfold roundoff. change (2 ^ 40)%Z with 1099511627776%Z. apply Rmult_le_reg_r with (2 ^ 53); [apply pow_lt; lra |].
  rewrite Rmult_assoc, Rinv_l by (apply pow_nonzero; lra). lra.
Qed.
Lemma few_countable {A : Type} (xs : list A) : (Z.of_nat (length xs) <= 2 ^ 40)%Z -> Countable xs.
Proof. unfold Countable. intros H. eapply Z.le_trans; [exact H |]. discriminate. Qed.
Lemma tiny_small k : (-450 <= k)%Z -> 1000 * tiny <= roundoff * bpow radix2 k /\ 1000 * tiny <= roundoff * (bpow radix2 k * bpow radix2 k).
Proof.
  intros K. rewrite tiny_is, roundoff_is. unfold b64_u. change (/ 2) with (bpow radix2 (-1)).
  assert (H : forall j, (-900 <= j)%Z -> 1000 * (bpow radix2 (-1) * bpow radix2 (-1074)) <= bpow radix2 (-53) * bpow radix2 j).
  { intros j J. apply Rle_trans with (bpow radix2 10 * (bpow radix2 (-1) * bpow radix2 (-1074))).
    - apply Rmult_le_compat_r; [apply Rmult_le_pos; apply bpow_ge_0 |]. change (bpow radix2 10) with 1024. lra.
    - rewrite <- !bpow_plus. apply bpow_le. lia. }
  split; [apply H; lia |]. rewrite <- (bpow_plus _ k k). apply H. lia.
Qed.
Lemma mean_close k xs : (Z.of_nat (length xs) <= 2 ^ 40)%Z -> (-450 <= k)%Z -> (k <= 450)%Z -> xs <> [] -> Within (bpow radix2 k) xs ->
  Rabs (val (immediate_mean xs) - Mean RN (vals xs)) <= 4 * INR (length xs) * roundoff * bpow radix2 k.
Proof.
  intros L K K' N W. assert (C := few_countable xs L). assert (Hu := roundoff_small). assert (Ht := tiny_pos).
  destruct (mean_within k xs C ltac:(lia) ltac:(lia) W) as [F _].
  assert (E := immediate_mean_error xs C N F). rewrite Mean_vals. cbn [car RN] in *.
  set (n := INR (length xs)) in *. set (B := bpow radix2 k) in *. assert (PB : 0 < B) by apply bpow_gt_0.
  assert (Nu : n * roundoff <= / 8192) by (apply few_samples; exact L).
  assert (N1 : 1 <= n). { unfold n. replace 1 with (INR 1) by reflexivity. apply le_INR. destruct xs; [congruence | cbn; lia]. }
  assert (T : 1000 * tiny <= roundoff * B) by (apply tiny_small; exact K).
  assert (P3 : INR (3 * length xs) = 3 * n) by (rewrite mult_INR; cbn [INR]; fold n; lra).
  assert (G := pow_close (3 * length xs)). rewrite P3 in G. specialize (G ltac:(lra)).
  assert (G1 := pow_ge_1 (3 * length xs)). set (g := (1 + roundoff) ^ (3 * length xs)) in *.
  assert (M : Magnitude xs / n <= B).
  { apply Rmult_le_reg_r with n; [lra |]. unfold Rdiv. rewrite Rmult_assoc, Rinv_l by lra. assert (H := magnitude_le B xs W). fold n in H. lra. }
  assert (M0 : 0 <= Magnitude xs / n) by (apply Rmult_le_pos; [apply magnitude_nonneg | left; apply Rinv_0_lt_compat; lra]).
  eapply Rle_trans; [exact E |].
  assert (A1 : (g - 1) * (Magnitude xs / n) <= 1.02 * (3 * n * roundoff) * B).
  { apply Rmult_le_compat; lra. }
  assert (A2 : tiny * g <= 2 * tiny) by nra.
  assert (A3 : tiny * g * (n + 1) <= 2 * tiny * (2 * n)) by (apply Rmult_le_compat; nra).
  assert (A4 : 4 * n * tiny <= n * (roundoff * B) * / 200) by nra. nra.
Qed.

Lemma variance_close k xs : (Z.of_nat (length xs) <= 2 ^ 40)%Z -> (-450 <= k)%Z -> (k <= 450)%Z -> xs <> [] -> Within (bpow radix2 k) xs ->
  Rabs (val (immediate_variance xs) - Variance RN (vals xs)) <= 64 * INR (length xs) * roundoff * (bpow radix2 k * bpow radix2 k).
Proof.
  intros L K K'. assert (Hu := roundoff_small). assert (Ht := tiny_pos). set (B := bpow radix2 k). assert (PB : 0 < B) by apply bpow_gt_0.
  induction xs as [|x xs IH] using rev_ind; intros N W; [congruence |].
  destruct xs as [|y ys].
  { replace (val (immediate_variance ([] ++ [x]))) with 0 by reflexivity.
    replace (Variance RN (vals ([] ++ [x]))) with 0.
    - rewrite Rminus_0_r, Rabs_R0. cbn [app length INR]. assert (0 <= roundoff * (B * B)) by nra. nra.
    - symmetry. rewrite <- (var_run_spec RN RN_field) by discriminate. cbn. unfold variance_init. cbn. lra. }
  set (xs := y :: ys) in *. assert (Nx : xs <> []) by discriminate.
  destruct (variance_within k (xs ++ [x]) (few_countable _ L) ltac:(lia) ltac:(lia) W) as [Fv _].
  destruct (mean_within k (xs ++ [x]) (few_countable _ L) ltac:(lia) ltac:(lia) W) as [Fm Bm].
  assert (Cm := mean_close k (xs ++ [x]) L K K' N W).
  assert (Bm' := exact_mean_le B (xs ++ [x]) N W). rewrite <- Mean_vals in Bm'.
  assert (Ls : INR (length (xs ++ [x])) = INR (length xs) + 1) by (rewrite app_length, plus_INR; reflexivity).
  rewrite Ls in *. assert (Nu := few_samples _ L). rewrite Ls in Nu.
  apply Forall_app in W as [W Wx]. inversion Wx as [|? ? [Fx Bx] _]; subst.
  assert (L0 : (Z.of_nat (length xs) <= 2 ^ 40)%Z) by (rewrite app_length in L; cbn [length] in L; lia).
  specialize (IH L0 Nx W).
  assert (Vb := var_bounds B (vals xs) ltac:(discriminate) (within_vals B xs W)).
  rewrite vals_snoc in *. rewrite (var_exact_snoc (vals xs) (val x)) by discriminate. rewrite vals_length.
  rewrite variance_snoc in Fv |- * by exact Nx. unfold finite in Fv.
  destruct (ofnat_exact (length xs)) as [Fn En]; [eapply Z.le_trans; [exact L0 | discriminate] |].
  destruct (ofnat_exact (S (length xs))) as [Fn' En']; [rewrite app_length in L; cbn [length] in L; rewrite Nat.add_1_r in L; eapply Z.le_trans; [exact L | discriminate] |].
  rewrite S_INR in En'. set (n := INR (length xs)) in *.
  assert (N1 : 1 <= n). { unfold n. replace 1 with (INR 1) by reflexivity. apply le_INR. unfold xs. cbn; lia. }
  destruct (add_fin _ _ Fv) as (Fb & Fr & Ew).
  destruct (div_fin _ _ ltac:(rewrite En'; lra) Fb) as (Fa & Eb). destruct (div_fin _ _ ltac:(rewrite En; lra) Fr) as (Fq & Er).
  destruct (mul_fin _ _ Fa) as (_ & _ & Ea). destruct (mul_fin _ _ Fq) as (Ft & _ & Eq). destruct (sub_fin _ _ Ft) as (_ & _ & Et).
  set (m := immediate_mean (xs ++ [x])) in *. set (v := immediate_variance xs) in *.
  set (t := d_sub x m) in *. set (q := d_mul t t) in *. set (r := d_div q _) in *. set (a := d_mul v _) in *. set (b := d_div a _) in *.
  rewrite En in Ea, Er. rewrite En' in Eb.
  destruct (tiny_small k K) as [T1 T2]. fold B in T1, T2.
  apply (var_step B roundoff tiny n) with (v := val v) (a := val a) (b := val b) (m := val m) (y := val t) (q := val q) (r := val r); try lra; try assumption.
  - unfold val at 1. rewrite Ea. apply round_near.
  - unfold val at 1. rewrite Eb. apply round_near.
  - unfold val at 1. rewrite Et. apply round_diff.
  - unfold val at 1. rewrite Eq. apply round_near.
  - unfold val at 1. rewrite Er. apply round_near.
  - unfold val at 1. rewrite Ew. apply round_sum.
Qed.
