(** The accuracy of variances of doubles: the statements for the property file. *)
From Coq Require Import ZArith List Bool Reals Lra Lia Arith Psatz Permutation.
From Flocq Require Import Core IEEE754.BinarySingleNaN.
From Verif Require Import Num NumFacts ModelBasic ModelRounding ModelDouble SpecStats SpecDouble SpecDoubleVariance ProofBasic ProofBasic2 ProofKahan ProofDouble ProofDouble2 ProofDouble3 ProofDoubleEx ProofDoubleVariance ProofDoubleVariance2 ProofDoubleVariance3.
Import ListNotations.
Local Open Scope R_scope.

Lemma moderate_pow b : Moderate b -> exists k, (-450 <= k)%Z /\ (k <= 441)%Z /\ b <= bpow radix2 k /\ bpow radix2 k <= 2 * b.
Proof.
  intros [L H]. assert (P : 0 < b).
  { assert (Q : 0 < / 2 ^ 450) by (apply Rinv_0_lt_compat; apply pow_lt; apply Rlt_0_2). exact (Rlt_le_trans _ _ _ Q L). }
  destruct (mag radix2 b) as [k Hk]. cbn in Hk. specialize (Hk (Rgt_not_eq _ _ P)). rewrite Rabs_pos_eq in Hk by (left; exact P).
  rewrite pow_bpow in L, H. rewrite <- bpow_opp in L. change (- Z.of_nat 450)%Z with (-450)%Z in L. change (Z.of_nat 440) with 440%Z in H.
  exists k. split; [|split; [|split]].
  - assert (-450 < k)%Z; [| lia]. apply (lt_bpow radix2). exact (Rle_lt_trans _ _ _ L (proj2 Hk)).
  - assert (k - 1 <= 440)%Z; [| lia]. apply (le_bpow radix2). exact (Rle_trans _ _ _ (proj1 Hk) H).
  - exact (Rlt_le _ _ (proj2 Hk)).
  - replace k with (k - 1 + 1)%Z by lia. rewrite bpow_plus. change (bpow radix2 1) with 2. rewrite Rmult_comm. apply Rmult_le_compat_l; [lra | exact (proj1 Hk)].
Qed.
Lemma within_le b c xs : b <= c -> Within b xs -> Within c xs.
Proof. intros H. apply Forall_impl. intros x [F B]. split; [exact F | lra]. Qed.
Lemma square_le a b : 0 <= a -> a <= 2 * b -> a * a <= 4 * (b * b).
Proof. intros. nra. Qed.

Lemma variance_accurate b xs : Few xs -> Moderate b -> xs <> [] -> Within b xs ->
  finite (immediate_variance xs) /\ Rabs (val (immediate_variance xs) - ExactVariance xs) <= 256 * INR (length xs) * roundoff * (b * b).
Proof.
  intros L M N W. destruct (moderate_pow b M) as (k & K & K' & B1 & B2). assert (W' := within_le _ _ _ B1 W).
  split; [destruct (variance_within k xs (few_countable _ L) ltac:(lia) ltac:(lia) W') as [F _]; exact F |].
  eapply Rle_trans; [apply (variance_close k xs L K ltac:(lia) N W') |].
  assert (S := square_le _ _ (bpow_ge_0 radix2 k) B2). assert (Hu := roundoff_small). assert (0 <= INR (length xs) * roundoff) by (apply Rmult_le_pos; [apply pos_INR | lra]).
  set (c := INR (length xs) * roundoff) in *. set (s := bpow radix2 k * bpow radix2 k) in *. set (t := b * b) in *.
  replace (64 * INR (length xs) * roundoff * s) with (64 * (c * s)) by (unfold c; ring). replace (256 * INR (length xs) * roundoff * t) with (64 * (c * (4 * t))) by (unfold c; ring).
  apply Rmult_le_compat_l; [lra |]. apply Rmult_le_compat_l; assumption.
Qed.
Lemma lazy_variance_accurate b xs : Few xs -> Moderate b -> xs <> [] -> Within b xs ->
  exists v, lazy_variance_run DoubleN d_zero xs = Some v /\ finite v /\ Rabs (val v - ExactVariance xs) <= 40 * INR (length xs) * roundoff * (b * b).
Proof.
  intros L M N W. destruct (moderate_pow b M) as (k & K & K' & B1 & B2). assert (W' := within_le _ _ _ B1 W).
  destruct (lazy_variance_close k xs L K ltac:(lia) N W') as (v & E & F & C). exists v. split; [exact E |]. split; [exact F |].
  eapply Rle_trans; [exact C |].
  assert (S := square_le _ _ (bpow_ge_0 radix2 k) B2). assert (Hu := roundoff_small). assert (0 <= INR (length xs) * roundoff) by (apply Rmult_le_pos; [apply pos_INR | lra]).
  set (c := INR (length xs) * roundoff) in *. set (s := bpow radix2 k * bpow radix2 k) in *. set (t := b * b) in *.
  replace (10 * INR (length xs) * roundoff * s) with (10 * (c * s)) by (unfold c; ring). replace (40 * INR (length xs) * roundoff * t) with (10 * (c * (4 * t))) by (unfold c; ring).
  apply Rmult_le_compat_l; [lra |]. apply Rmult_le_compat_l; assumption.
Qed.
Lemma exact_variance_perm xs ys : Permutation xs ys -> ExactVariance xs = ExactVariance ys.
Proof. intros P. apply (Variance_perm RN RN_field). apply Permutation_map. exact P. Qed.
Lemma within_perm b xs ys : Permutation xs ys -> Within b xs -> Within b ys.
Proof. unfold Within. rewrite !Forall_forall. intros P H x I. apply H. apply Permutation_in with ys; [apply Permutation_sym |]; assumption. Qed.
Lemma variance_orders b xs ys : Permutation xs ys -> Few xs -> Moderate b -> xs <> [] -> Within b xs ->
  Rabs (val (immediate_variance xs) - val (immediate_variance ys)) <= 512 * INR (length xs) * roundoff * (b * b) /\
  exists v, lazy_variance_run DoubleN d_zero ys = Some v /\ finite v /\ Rabs (val (immediate_variance xs) - val v) <= 296 * INR (length xs) * roundoff * (b * b).
Proof.
  intros P L M N W. assert (E := exact_variance_perm _ _ P). assert (Ln := Permutation_length P).
  assert (L' : Few ys) by (unfold Few; rewrite <- Ln; exact L). assert (N' : ys <> []) by (intros ->; destruct xs; [congruence | discriminate]).
  assert (W' := within_perm b _ _ P W).
  destruct (variance_accurate b xs L M N W) as [_ A]. destruct (variance_accurate b ys L' M N' W') as [_ A'].
  destruct (lazy_variance_accurate b ys L' M N' W') as (v & Ev & Fv & Av). rewrite <- E, <- Ln in *.
  split; [| exists v; split; [exact Ev |]; split; [exact Fv |]].
  - apply Rabs_le_inv in A. apply Rabs_le_inv in A'. apply Rabs_le. lra.
  - apply Rabs_le_inv in A. apply Rabs_le_inv in Av. apply Rabs_le. lra.
Qed.

(** Two large samples a unit apart and a small one. *)
Lemma three_ok : Few [big1; big2; tenth] /\ Moderate (2 ^ 28) /\ Within (2 ^ 28) [big1; big2; tenth].
Proof.
  split; [unfold Few; cbn; lia |]. split.
  - unfold Moderate. split.
    + apply Rle_trans with 1; [| apply pow_R1_Rle; lra]. rewrite <- Rinv_1. apply Rinv_le; [lra |]. apply pow_R1_Rle; lra.
    + apply Rle_pow; [lra | lia].
  - rewrite pow_bpow. change (Z.of_nat 28) with 28%Z.
    apply Forall_cons; [| apply Forall_cons; [| apply Forall_cons; [| apply Forall_nil]]].
    + apply (shown_bound big1 4503599660924928 (-25) 53); vm_compute; reflexivity || discriminate.
    + apply (shown_bound big2 4503599694479360 (-25) 53); vm_compute; reflexivity || discriminate.
    + apply (shown_bound tenth 7205759403792794 (-56) 84); vm_compute; reflexivity || discriminate.
Qed.
