(** The accuracy of variances of doubles: one step in real numbers. *)
From Coq Require Import ZArith List Bool Reals Lra Lia Arith Psatz.
From Flocq Require Import Core IEEE754.BinarySingleNaN.
From Verif Require Import Num NumFacts ModelBasic ModelRounding ModelDouble SpecStats SpecDouble ProofBasic ProofBasic2 ProofKahan ProofDouble ProofDouble2 ProofDouble3.
Import ListNotations.
Local Open Scope R_scope.

Lemma close_bound y r e b : Rabs (y - r) <= e -> Rabs r <= b -> Rabs y <= b + e.
Proof. intros H1 H2. apply Rabs_le_inv in H1. apply Rabs_le_inv in H2. apply Rabs_le. lra. Qed.
Lemma close_trans y r s e f : Rabs (y - r) <= e -> Rabs (r - s) <= f -> Rabs (y - s) <= e + f.
Proof. intros H1 H2. apply Rabs_le_inv in H1. apply Rabs_le_inv in H2. apply Rabs_le. lra. Qed.
Lemma close_div y r e n : 1 <= n -> Rabs (y - r) <= e -> Rabs (y / n - r / n) <= e.
Proof.
  intros N H. replace (y / n - r / n) with ((y - r) * / n) by (field; lra). rewrite Rabs_mult, (Rabs_pos_eq (/ n)) by (left; apply Rinv_0_lt_compat; lra).
  apply Rmult_le_reg_r with n; [lra |]. rewrite Rmult_assoc, Rinv_l by lra. assert (0 <= e) by (eapply Rle_trans; [apply Rabs_pos | exact H]). nra.
Qed.
Lemma bound_div y b n : 1 <= n -> Rabs y <= b -> Rabs (y / n) <= b.
Proof. intros N H. replace (y / n) with (y / n - 0 / n) by (field; lra). apply close_div; [exact N |]. rewrite Rminus_0_r. exact H. Qed.
Lemma close_mult y r s t e f b c : Rabs (y - r) <= e -> Rabs (s - t) <= f -> Rabs r <= b -> Rabs s <= c -> Rabs (y * s - r * t) <= e * c + b * f.
Proof.
  intros H1 H2 H3 H4. replace (y * s - r * t) with ((y - r) * s + r * (s - t)) by ring.
  eapply Rle_trans; [apply Rabs_triang |]. rewrite !Rabs_mult. apply Rplus_le_compat; apply Rmult_le_compat; auto using Rabs_pos.
Qed.

(** [y] is [r], rounded once. *)
Definition near (u t y r : R) : Prop := Rabs (y - r) <= u * Rabs r + t.
Lemma near_le u t y r b : 0 <= u -> near u t y r -> Rabs r <= b -> Rabs (y - r) <= u * b + t.
Proof. unfold near. intros U H B. assert (u * Rabs r <= u * b) by (apply Rmult_le_compat_l; assumption). lra. Qed.

Section Step.
  (** [W] is the square of the bound [B] of the samples. *)
  Variables B u t n : R.
  Hypotheses (HB : 0 < B) (Hu : 0 < u) (Ht : 0 <= t) (Hn : 1 <= n) (Hnu : (n + 1) * u <= / 1000) (HtB : 1000 * t <= u * (B * B)).
  Let W := B * B.
  Let HW : 0 < W. Proof. unfold W. nra. Qed.
  Let Hus : u <= / 2000. Proof. nra. Qed.

  Lemma var_part1 v V a b : Rabs (v - V) <= 64 * n * u * W -> 0 <= V <= W ->
    near u t a (v * n) -> near u t b (a / (n + 1)) ->
    Rabs (b - V * n / (n + 1)) <= 64 * n * u * W + 5 * u * W + 2 * t /\ Rabs b <= 2 * W.
  Proof.
    intros Hv HV Ha Hb. assert (uW : 0 <= u * W) by nra. assert (nuW : n * u * W <= / 1000 * W) by (apply Rmult_le_compat_r; lra). assert (suW : u * W <= / 2000 * W) by nra.
    assert (tW : 1000 * t <= u * W) by exact HtB.
    assert (Bv : Rabs v <= 1.064 * W).
    { eapply Rle_trans; [apply (close_bound v V _ W Hv); apply Rabs_le; lra |]. lra. }
    (* a / (n + 1) against v * (n / (n + 1)) *)
    set (c := n / (n + 1)). assert (Hc : 0 <= c <= 1).
    { unfold c. split; [apply Rmult_le_pos; [lra | left; apply Rinv_0_lt_compat; lra] |]. apply Rmult_le_reg_r with (n + 1); [lra |]. unfold Rdiv. rewrite Rmult_assoc, Rinv_l; lra. }
    assert (A : Rabs (a / (n + 1) - v * c) <= u * (1.064 * W) + t).
    { replace (a / (n + 1) - v * c) with ((a - v * n) * / (n + 1)) by (unfold c; field; lra).
      rewrite Rabs_mult, (Rabs_pos_eq (/ (n + 1))) by (left; apply Rinv_0_lt_compat; lra).
      apply Rmult_le_reg_r with (n + 1); [lra |]. rewrite Rmult_assoc, Rinv_l, Rmult_1_r by lra.
      eapply Rle_trans; [exact Ha |]. rewrite Rabs_mult, (Rabs_pos_eq n) by lra.
      assert (u * (Rabs v * n) <= u * (1.064 * W * n)) by (apply Rmult_le_compat_l; [lra |]; apply Rmult_le_compat_r; lra). nra. }
    assert (B1 : Rabs (v * c) <= 1.064 * W).
    { rewrite Rabs_mult, (Rabs_pos_eq c) by lra. assert (0 <= Rabs v) by apply Rabs_pos. nra. }
    assert (B2 := close_bound _ _ _ _ A B1).
    assert (B3 : Rabs (a / (n + 1)) <= 1.07 * W) by lra.
    assert (C := near_le u t b _ _ (Rlt_le _ _ Hu) Hb B3).
    assert (D := close_trans _ _ _ _ _ C A).
    assert (E : Rabs (v * c - V * c) <= 64 * n * u * W).
    { replace (v * c - V * c) with ((v - V) * c) by ring. rewrite Rabs_mult, (Rabs_pos_eq c) by lra. assert (0 <= Rabs (v - V)) by apply Rabs_pos. nra. }
    assert (F := close_trans _ _ _ _ _ D E).
    replace (V * n / (n + 1)) with (V * c) by (unfold c; field; lra). split; [lra |].
    assert (G := close_bound _ _ _ _ C B3). lra.
  Qed.
  Lemma var_part2 x m M y q r : Rabs x <= B -> Rabs m <= B -> Rabs M <= B -> Rabs (m - M) <= 4 * (n + 1) * u * B ->
    Rabs (y - (x - m)) <= u * Rabs (x - m) -> near u t q (y * y) -> near u t r (q / n) ->
    Rabs (r - (x - M) * (x - M) / n) <= 50 * u * W + 2 * t /\ Rabs r <= 5 * W.
  Proof.
    intros Hx Hm HM He Hy Hq Hr. assert (uW : 0 <= u * W) by nra. assert (nuW : (n + 1) * u * W <= / 1000 * W) by (apply Rmult_le_compat_r; lra). assert (suW : u * W <= / 2000 * W) by nra.
    assert (tW : 1000 * t <= u * W) by exact HtB.
    assert (X1 : Rabs (x - m) <= 2 * B) by (apply Rabs_le_inv in Hx; apply Rabs_le_inv in Hm; apply Rabs_le; lra).
    assert (X2 : Rabs (x - M) <= 2 * B) by (apply Rabs_le_inv in Hx; apply Rabs_le_inv in HM; apply Rabs_le; lra).
    assert (Y1 : Rabs (y - (x - m)) <= 2 * u * B) by (assert (u * Rabs (x - m) <= u * (2 * B)) by (apply Rmult_le_compat_l; lra); lra).
    assert (Y2 : Rabs ((x - m) - (x - M)) <= 4 * (n + 1) * u * B) by (replace ((x - m) - (x - M)) with (- (m - M)) by ring; rewrite Rabs_Ropp; exact He).
    assert (Y3 := close_trans _ _ _ _ _ Y1 Y2).
    assert (Y4 : Rabs y <= 2.01 * B) by (assert (Y := close_bound _ _ _ _ Y1 X1); nra).
    assert (Q1 := close_mult _ _ _ _ _ _ _ _ Y3 Y3 X2 Y4).
    assert (Q2 : Rabs (y * y) <= 4.05 * W).
    { rewrite Rabs_mult. apply Rle_trans with (2.01 * B * (2.01 * B)); [apply Rmult_le_compat; auto using Rabs_pos |]. unfold W. nra. }
    assert (Q3 := near_le u t q _ _ (Rlt_le _ _ Hu) Hq Q2).
    assert (Q4 := close_bound _ _ _ _ Q3 Q2).
    assert (Q5 := close_trans _ _ _ _ _ Q3 Q1).
    set (e := (2 * u * B + 4 * (n + 1) * u * B)) in *.
    assert (E1 : e * (2.01 * B) + 2 * B * e <= (4.01 * (4 * n + 6)) * (u * W)) by (unfold e, W; lra).
    assert (R1 : Rabs (q / n - (x - M) * (x - M) / n) <= (4.01 * 10 + 4.05) * (u * W) + t).
    { replace (q / n - (x - M) * (x - M) / n) with ((q - (x - M) * (x - M)) * / n) by (field; lra).
      rewrite Rabs_mult, (Rabs_pos_eq (/ n)) by (left; apply Rinv_0_lt_compat; lra).
      apply Rmult_le_reg_r with n; [lra |]. rewrite Rmult_assoc, Rinv_l, Rmult_1_r by lra. nra. }
    assert (R2 : Rabs (q / n) <= 4.06 * W) by (apply bound_div; [exact Hn | lra]).
    assert (R3 := near_le u t r _ _ (Rlt_le _ _ Hu) Hr R2).
    assert (R4 := close_trans _ _ _ _ _ R3 R1). split; [lra |].
    assert (R5 := close_bound _ _ _ _ R3 R2). lra.
  Qed.
  Lemma var_step v V a b x m M y q r w :
    Rabs (v - V) <= 64 * n * u * W -> 0 <= V <= W -> near u t a (v * n) -> near u t b (a / (n + 1)) ->
    Rabs x <= B -> Rabs m <= B -> Rabs M <= B -> Rabs (m - M) <= 4 * (n + 1) * u * B ->
    Rabs (y - (x - m)) <= u * Rabs (x - m) -> near u t q (y * y) -> near u t r (q / n) ->
    Rabs (w - (b + r)) <= u * Rabs (b + r) ->
    Rabs (w - (V * n / (n + 1) + (x - M) * (x - M) / n)) <= 64 * (n + 1) * u * W.
  Proof.
    intros Hv HV Ha Hb Hx Hm HM He Hy Hq Hr Hw.
    destruct (var_part1 v V a b Hv HV Ha Hb) as [P1 P2]. destruct (var_part2 x m M y q r Hx Hm HM He Hy Hq Hr) as [P3 P4].
    assert (uW : 0 <= u * W) by nra. assert (tW : 1000 * t <= u * W) by exact HtB.
    assert (S1 : Rabs (b + r) <= 7 * W) by (eapply Rle_trans; [apply Rabs_triang |]; lra).
    assert (S2 : u * Rabs (b + r) <= u * (7 * W)) by (apply Rmult_le_compat_l; lra).
    apply Rabs_le_inv in P1. apply Rabs_le_inv in P3. apply Rabs_le_inv in Hw. apply Rabs_le. lra.
  Qed.
End Step.
