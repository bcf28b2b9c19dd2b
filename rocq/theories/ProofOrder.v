(** Elementary facts about ordered fields. *)
From Coq Require Import List Arith Bool Field Lia QArith Qcanon Qround ZArith.
From Verif Require Import Num NumFacts SpecStats ProofBasic ProofRolling SpecTail.
Import ListNotations.

Section Ord.
Variable K : Num.
Hypothesis HO : OrderedLaws K.
Let HK : FieldLaws K := ord_field K HO.
Local Notation T := (car K).
Local Notation "0" := (zero K) : num_scope.
Local Notation "1" := (one K) : num_scope.
Local Notation "x + y" := (add K x y) : num_scope.
Local Notation "x - y" := (sub K x y) : num_scope.
Local Notation "x * y" := (mul K x y) : num_scope.
Local Notation "x / y" := (div K x y) : num_scope.
Local Notation "# n" := (ofnat K n) (at level 2) : num_scope.
Local Open Scope num_scope.
Add Field KfieldO : (fl_field K HK).

(** [lt], [le] as propositions *)
Definition klt (x y : T) : Prop := ltb K x y = true.
Definition kle (x y : T) : Prop := ltb K y x = false.
Local Infix "<" := klt : num_scope.
Local Infix "<=" := kle : num_scope.

Lemma klt_irrefl x : ~ x < x.
Proof. unfold klt. rewrite (ord_irrefl K HO). discriminate. Qed.
Lemma klt_trans x y z : x < y -> y < z -> x < z.
Proof. apply (ord_trans K HO). Qed.
Lemma kle_refl x : x <= x.
Proof. unfold kle. apply (ord_irrefl K HO). Qed.
Lemma klt_le x y : x < y -> x <= y.
Proof.
  unfold klt, kle. intros Hxy. destruct (ltb K y x) eqn:E; [|reflexivity].
  exfalso. apply (klt_irrefl x). eapply klt_trans; [exact Hxy|exact E].
Qed.
Lemma knot_lt x y : ~ x < y <-> y <= x.
Proof. unfold klt, kle. destruct (ltb K x y); split; intros; congruence. Qed.
Lemma knot_le x y : ~ x <= y <-> y < x.
Proof. unfold klt, kle. destruct (ltb K y x); split; intros; congruence. Qed.
Lemma kle_antisym x y : x <= y -> y <= x -> x = y.
Proof. unfold kle. intros Hxy Hyx. apply (ord_total K HO); assumption. Qed.
Lemma kle_lt_trans x y z : x <= y -> y < z -> x < z.
Proof.
  intros H1 H2. destruct (ltb K x y) eqn:E.
  - eapply klt_trans; [exact E|exact H2].
  - rewrite (kle_antisym x y H1 E). exact H2.
Qed.
Lemma klt_le_trans x y z : x < y -> y <= z -> x < z.
Proof.
  intros H1 H2. destruct (ltb K y z) eqn:E.
  - eapply klt_trans; [exact H1|exact E].
  - rewrite <- (kle_antisym y z H2 E). exact H1.
Qed.
Lemma kle_trans x y z : x <= y -> y <= z -> x <= z.
Proof.
  intros H1 H2. apply knot_lt. intros H3. apply (klt_irrefl x).
  eapply kle_lt_trans; [exact H1|]. eapply kle_lt_trans; [exact H2|exact H3].
Qed.
Lemma kle_or_lt x y : x <= y \/ y < x.
Proof. unfold klt, kle. destruct (ltb K y x); auto. Qed.
Lemma klt_cases x y : x < y \/ x = y \/ y < x.
Proof.
  destruct (kle_or_lt x y) as [H|H]; [|auto]. destruct (kle_or_lt y x) as [H'|H']; [|auto].
  right; left. apply kle_antisym; assumption.
Qed.
Lemma klt_neq x y : x < y -> x <> y.
Proof. intros H ->. exact (klt_irrefl _ H). Qed.

Lemma kadd_lt x y z : x < y -> x + z < y + z.
Proof. apply (ord_add K HO). Qed.
Lemma kadd_lt_inv x y z : x + z < y + z -> x < y.
Proof.
  intros H. apply (kadd_lt _ _ (0 - z)) in H.
  replace (x + z + (0 - z)) with x in H by ring. replace (y + z + (0 - z)) with y in H by ring. exact H.
Qed.
Lemma kadd_le x y z : x <= y -> x + z <= y + z.
Proof. intros H. apply knot_lt. intros C. apply kadd_lt_inv in C. apply knot_lt in H. contradiction. Qed.
Lemma kadd_le2 a b c d : a <= b -> c <= d -> a + c <= b + d.
Proof.
  intros H1 H2. apply kle_trans with (b + c); [apply kadd_le; exact H1|].
  replace (b + c) with (c + b) by ring. replace (b + d) with (d + b) by ring. apply kadd_le. exact H2.
Qed.
Lemma kadd_lt_le a b c d : a < b -> c <= d -> a + c < b + d.
Proof.
  intros H1 H2. apply klt_le_trans with (b + c); [apply kadd_lt; exact H1|].
  replace (b + c) with (c + b) by ring. replace (b + d) with (d + b) by ring. apply kadd_le. exact H2.
Qed.
Lemma ksub_pos x y : 0 < y - x <-> x < y.
Proof.
  split; intros H.
  - apply (kadd_lt _ _ x) in H. replace (0 + x) with x in H by ring. replace (y - x + x) with y in H by ring. exact H.
  - apply (kadd_lt_inv _ _ x). replace (0 + x) with x by ring. replace (y - x + x) with y by ring. exact H.
Qed.
Lemma ksub_nonneg x y : 0 <= y - x <-> x <= y.
Proof.
  rewrite <- !knot_lt. split; intros H C; apply H; clear H.
  - apply (kadd_lt _ _ (0 - x)) in C. replace (x + (0 - x)) with 0 in C by ring.
    replace (y + (0 - x)) with (y - x) in C by ring. exact C.
  - apply (kadd_lt_inv _ _ (0 - x)). replace (x + (0 - x)) with 0 by ring.
    replace (y + (0 - x)) with (y - x) by ring. exact C.
Qed.
Lemma kmul_pos x y : 0 < x -> 0 < y -> 0 < x * y.
Proof. apply (ord_mul K HO). Qed.
Lemma kmul_nonneg x y : 0 <= x -> 0 <= y -> 0 <= x * y.
Proof.
  intros H1 H2. destruct (klt_cases 0 x) as [A|[A|A]].
  - destruct (klt_cases 0 y) as [B|[B|B]].
    + apply klt_le, kmul_pos; assumption.
    + rewrite <- B. replace (x * 0) with 0 by ring. apply kle_refl.
    + apply knot_lt in H2. contradiction.
  - rewrite <- A. replace (0 * y) with 0 by ring. apply kle_refl.
  - apply knot_lt in H1. contradiction.
Qed.
Lemma kmul_lt x y z : 0 < z -> x < y -> x * z < y * z.
Proof.
  intros Hz H. apply ksub_pos. replace (y * z - x * z) with ((y - x) * z) by ring.
  apply kmul_pos; [apply ksub_pos; exact H|exact Hz].
Qed.
Lemma kmul_le x y z : 0 <= z -> x <= y -> x * z <= y * z.
Proof.
  intros Hz H. apply ksub_nonneg. replace (y * z - x * z) with ((y - x) * z) by ring.
  apply kmul_nonneg; [apply ksub_nonneg; exact H|exact Hz].
Qed.
Lemma kone_pos : 0 < 1.
Proof.
  assert (H : 0 <= 1). { assert (E := sq_nonneg K HO 1). replace (1 * 1) with 1 in E by ring. exact E. }
  destruct (klt_cases 0 1) as [A|[A|A]]; [exact A| |apply knot_lt in H; contradiction].
  exfalso. apply (one_neq0 K HK). symmetry. exact A.
Qed.
Lemma kofnat_pos n : 0 < #(S n).
Proof.
  induction n as [|n IH].
  - cbn. replace (0 + 1) with 1 by ring. apply kone_pos.
  - change (#(S (S n))) with (#(S n) + 1). eapply klt_trans; [exact IH|].
    replace (#(S n)) with (0 + #(S n)) at 1 by ring. replace (#(S n) + 1) with (1 + #(S n)) by ring.
    apply kadd_lt. apply kone_pos.
Qed.
Lemma kofnat_nonneg n : 0 <= #n.
Proof. destruct n; [apply kle_refl|apply klt_le, kofnat_pos]. Qed.
Lemma kofnat_lt m n : (m < n)%nat -> #m < #n.
Proof.
  intros H. replace n with ((n - m - 1) + S m)%nat by lia.
  induction (n - m - 1)%nat as [|d IH].
  - cbn. replace (#m) with (0 + #m) at 1 by ring. replace (#m + 1) with (1 + #m) by ring.
    apply kadd_lt, kone_pos.
  - eapply klt_trans; [exact IH|]. cbn [Nat.add ofnat].
    replace (#(d + S m)) with (0 + #(d + S m)) at 1 by ring.
    replace (#(d + S m) + 1) with (1 + #(d + S m)) by ring. apply kadd_lt, kone_pos.
Qed.
Lemma kofnat_le m n : (m <= n)%nat -> #m <= #n.
Proof.
  intros H. destruct (Nat.eq_dec m n) as [->|N]; [apply kle_refl|]. apply klt_le, kofnat_lt. lia.
Qed.
Lemma kofnat_lt_inv m n : #m < #n -> (m < n)%nat.
Proof.
  intros H. destruct (le_lt_dec n m) as [L|L]; [|exact L].
  exfalso. apply kofnat_le in L. apply knot_lt in L. contradiction.
Qed.
Lemma kofnat_le_inv m n : #m <= #n -> (m <= n)%nat.
Proof.
  intros H. destruct (le_lt_dec m n) as [L|L]; [exact L|].
  exfalso. apply kofnat_lt in L. apply knot_lt in H. contradiction.
Qed.
Lemma kinv_pos x : 0 < x -> 0 < 1 / x.
Proof.
  intros H. destruct (klt_cases 0 (1 / x)) as [A|[A|A]]; [exact A| |].
  - exfalso. assert (Hx : x <> 0) by (intros E; apply (klt_neq _ _ H); symmetry; exact E).
    assert (E : 1 = 1 / x * x) by (field; exact Hx). rewrite <- A in E.
    apply (one_neq0 K HK). rewrite E. ring.
  - exfalso. assert (Hx : x <> 0) by (intros E; apply (klt_neq _ _ H); symmetry; exact E).
    assert (B : 1 / x * x < 0 * x) by (apply kmul_lt; assumption).
    replace (1 / x * x) with 1 in B by (field; exact Hx). replace (0 * x) with 0 in B by ring.
    apply (klt_irrefl 0). eapply klt_trans; [apply kone_pos|exact B].
Qed.
Lemma kdiv_nonneg x y : 0 <= x -> 0 < y -> 0 <= x / y.
Proof.
  intros Hx Hy. assert (Hn : y <> 0) by (intros E; apply (klt_neq _ _ Hy); symmetry; exact E).
  replace (x / y) with (x * (1 / y)) by (field; exact Hn).
  apply kmul_nonneg; [exact Hx|]. apply klt_le, kinv_pos, Hy.
Qed.
Lemma kdiv_pos x y : 0 < x -> 0 < y -> 0 < x / y.
Proof.
  intros Hx Hy. assert (Hn : y <> 0) by (intros E; apply (klt_neq _ _ Hy); symmetry; exact E).
  replace (x / y) with (x * (1 / y)) by (field; exact Hn).
  apply kmul_pos; [exact Hx|]. apply kinv_pos, Hy.
Qed.
Lemma kpos_neq0 x : 0 < x -> x <> 0.
Proof. intros H E. apply (klt_neq _ _ H). symmetry; exact E. Qed.

Lemma leb_kle x y : leb K x y = true <-> x <= y.
Proof. unfold leb, kle. destruct (ltb K y x); cbn; split; congruence. Qed.

Lemma ceil_unique x r r' : IsCeil K x r -> IsCeil K x r' -> r = r'.
Proof. intros [H1 H2] [H1' H2']. apply Nat.le_antisymm; auto. Qed.
Lemma ceil_pos x r : 0 < x -> IsCeil K x r -> (1 <= r)%nat.
Proof.
  intros Hx [H _]. destruct r; [|lia]. apply leb_kle in H. cbn in H. apply knot_lt in H. contradiction.
Qed.
End Ord.

(** Qc has a ceiling. *)
Definition Qc_ceil (x : Qc) : nat := Z.to_nat (Qceiling (this x)).
Lemma Qc_ofnat_this n : (this (ofnat QcN n) == inject_Z (Z.of_nat n))%Q.
Proof.
  induction n as [|n IH]; [reflexivity|].
  change (ofnat QcN (S n)) with (Qcplus (ofnat QcN n) (Q2Qc 1)).
  unfold Qcplus. cbn [this Q2Qc]. rewrite Qred_correct, IH. rewrite Nat2Z.inj_succ. unfold Z.succ.
  rewrite inject_Z_plus. reflexivity.
Qed.
Lemma Qc_ceil_spec : CeilSpec QcN Qc_ceil.
Proof.
  intros x. unfold IsCeil, leb. cbn [ltb QcN]. unfold Qcltb. rewrite !negb_involutive.
  split.
  - apply Qle_bool_iff. rewrite Qc_ofnat_this. unfold Qc_ceil.
    apply Qle_trans with (inject_Z (Qceiling x)); [apply Qle_ceiling|].
    rewrite <- Zle_Qle. rewrite ZifyInst.of_nat_to_nat_eq. lia.
  - intros m Hm. rewrite negb_involutive in Hm. apply Qle_bool_iff in Hm. rewrite Qc_ofnat_this in Hm.
    unfold Qc_ceil. apply Nat2Z.inj_le. rewrite ZifyInst.of_nat_to_nat_eq.
    assert ((Qceiling x <= Z.of_nat m)%Z). { rewrite <- (Qceiling_Z (Z.of_nat m)). apply Qceiling_resp_le. exact Hm. }
    lia.
Qed.
