(** The accuracy of covariances of doubles: operations within powers of two, and one step in real numbers. *)
From Coq Require Import ZArith List Bool Reals Lra Lia Arith Psatz.
From Flocq Require Import Core IEEE754.BinarySingleNaN.
From Verif Require Import Num NumFacts ModelBasic ModelRounding ModelDouble SpecStats SpecDouble ProofBasic ProofBasic2 ProofKahan ProofDouble ProofDouble2 ProofDouble3 ProofDoubleVariance ProofDoubleVariance2.
Import ListNotations.
Local Open Scope R_scope.

(** ** Operations within powers of two *)
Lemma fits r k : (-1000 <= k)%Z -> (k <= 1000)%Z -> Rabs r <= bpow radix2 k -> Rabs (b64_round r) <= bpow radix2 k /\ Rabs (b64_round r) < bpow radix2 1024.
Proof.
  intros K K' H. assert (R : Rabs (b64_round r) <= bpow radix2 k) by (apply round_abs; [apply generic_format_bpow; unfold FLT_exp; lia | exact H]).
  split; [exact R |]. eapply Rle_lt_trans; [exact R |]. apply bpow_lt. lia.
Qed.
Definition below (k : Z) (x : double) : Prop := finite x /\ Rabs (val x) <= bpow radix2 k.
Lemma below_le j k x : (j <= k)%Z -> below j x -> below k x.
Proof. intros H [F B]. split; [exact F |]. eapply Rle_trans; [exact B | apply bpow_le; exact H]. Qed.
Lemma add_below k x y : (-1000 <= k)%Z -> (k < 1000)%Z -> below k x -> below k y ->
  below (k + 1) (d_add x y) /\ Rabs (val (d_add x y) - (val x + val y)) <= roundoff * Rabs (val x + val y).
Proof.
  intros K K' [Fx Bx] [Fy By]. assert (S : Rabs (val x + val y) <= bpow radix2 (k + 1)).
  { rewrite bpow_plus. change (bpow radix2 1) with 2. eapply Rle_trans; [apply Rabs_triang |]. lra. }
  destruct (fits _ (k + 1) ltac:(lia) ltac:(lia) S) as [B L]. destruct (add_ok x y Fx Fy L) as [F E].
  unfold below. unfold val at 1 2. rewrite E. split; [split; [exact F | exact B] |]. apply round_sum.
Qed.
Lemma sub_below k x y : (-1000 <= k)%Z -> (k < 1000)%Z -> below k x -> below k y ->
  below (k + 1) (d_sub x y) /\ Rabs (val (d_sub x y) - (val x - val y)) <= roundoff * Rabs (val x - val y).
Proof.
  intros K K' [Fx Bx] [Fy By]. assert (S : Rabs (val x - val y) <= bpow radix2 (k + 1)).
  { rewrite bpow_plus. change (bpow radix2 1) with 2. apply Rabs_le_inv in Bx. apply Rabs_le_inv in By. apply Rabs_le. lra. }
  destruct (fits _ (k + 1) ltac:(lia) ltac:(lia) S) as [B L]. destruct (sub_ok x y Fx Fy L) as [F E].
  unfold below. unfold val at 1 2. rewrite E. split; [split; [exact F | exact B] |]. apply round_diff.
Qed.
Lemma mul_below j k x y : (-1000 <= j + k)%Z -> (j + k <= 1000)%Z -> below j x -> below k y ->
  below (j + k) (d_mul x y) /\ near roundoff tiny (val (d_mul x y)) (val x * val y).
Proof.
  intros K K' [Fx Bx] [Fy By]. assert (S : Rabs (val x * val y) <= bpow radix2 (j + k)).
  { rewrite bpow_plus, Rabs_mult. apply Rmult_le_compat; auto using Rabs_pos. }
  destruct (fits _ _ K K' S) as [B L]. destruct (mul_ok x y Fx Fy L) as [F E].
  unfold below. unfold val at 1 2. rewrite E. split; [split; [exact F | exact B] |]. apply round_near.
Qed.
Lemma div_below k x n : (-1000 <= k)%Z -> (k <= 1000)%Z -> below k x -> (1 <= n)%nat -> (Z.of_nat n <= 2 ^ 53)%Z ->
  below k (d_div x (ofnat DoubleN n)) /\ near roundoff tiny (val (d_div x (ofnat DoubleN n))) (val x / INR n).
Proof.
  intros K K' [Fx Bx] N C. destruct (ofnat_exact n C) as [Fn En]. assert (N1 : 1 <= INR n) by (replace 1 with (INR 1) by reflexivity; apply le_INR; exact N).
  assert (S : Rabs (val x / INR n) <= bpow radix2 k) by (apply bound_div; assumption).
  destruct (fits _ _ K K' S) as [B L]. destruct (div_ok x (ofnat DoubleN n)) as [F E]; [rewrite En; lra | exact Fx | rewrite En; exact L |].
  rewrite En in E. unfold below. unfold val at 1 2. rewrite E. split; [split; [exact F | exact B] |]. apply round_near.
Qed.
Lemma ofnat_below n : (Z.of_nat n <= 2 ^ 40)%Z -> below 40 (ofnat DoubleN n) /\ val (ofnat DoubleN n) = INR n.
Proof.
  intros H. destruct (ofnat_exact n) as [F E]; [eapply Z.le_trans; [exact H | discriminate] |]. unfold below. unfold val. rewrite E.
  split; [split; [exact F |] | reflexivity]. rewrite Rabs_pos_eq by apply pos_INR. rewrite INR_IZR_INZ, <- IZR_Zpower by lia. apply IZR_le. exact H.
Qed.

Section Step.
  Variables A B u t n : R.
  Hypotheses (HA : 0 < A) (HB : 0 < B) (Hu : 0 < u) (Ht : 0 <= t) (Hn : 1 <= n) (Hnu : (n + 1) * u <= / 1000) (HtB : 1000 * t <= u * (A * B)).
  Let W := A * B.
  Let HW : 0 < W. Proof. unfold W. nra. Qed.
  Let Hus : u <= / 2000. Proof. nra. Qed.

  Lemma cov_part1 v V a b : Rabs (v - V) <= 64 * n * u * W -> Rabs V <= 2 * W ->
    near u t a (v * n) -> near u t b (a / (n + 1)) ->
    Rabs (b - V * n / (n + 1)) <= 64 * n * u * W + 5 * u * W + 2 * t /\ Rabs b <= 3 * W.
  Proof.
    intros Hv HV Ha Hb. assert (uW : 0 <= u * W) by nra. assert (nuW : n * u * W <= / 1000 * W) by (apply Rmult_le_compat_r; lra). assert (suW : u * W <= / 2000 * W) by nra.
    assert (tW : 1000 * t <= u * W) by exact HtB.
    assert (Bv : Rabs v <= 2.064 * W).
    { eapply Rle_trans; [apply (close_bound v V _ (2 * W) Hv); exact HV |]. lra. }
    set (c := n / (n + 1)). assert (Hc : 0 <= c <= 1).
    { unfold c. split; [apply Rmult_le_pos; [lra | left; apply Rinv_0_lt_compat; lra] |]. apply Rmult_le_reg_r with (n + 1); [lra |]. unfold Rdiv. rewrite Rmult_assoc, Rinv_l; lra. }
    assert (D0 : Rabs (a / (n + 1) - v * c) <= u * (2.064 * W) + t).
    { replace (a / (n + 1) - v * c) with ((a - v * n) * / (n + 1)) by (unfold c; field; lra).
      rewrite Rabs_mult, (Rabs_pos_eq (/ (n + 1))) by (left; apply Rinv_0_lt_compat; lra).
      apply Rmult_le_reg_r with (n + 1); [lra |]. rewrite Rmult_assoc, Rinv_l, Rmult_1_r by lra.
      eapply Rle_trans; [exact Ha |]. rewrite Rabs_mult, (Rabs_pos_eq n) by lra.
      assert (u * (Rabs v * n) <= u * (2.064 * W * n)) by (apply Rmult_le_compat_l; [lra |]; apply Rmult_le_compat_r; lra). nra. }
    assert (B1 : Rabs (v * c) <= 2.064 * W).
    { rewrite Rabs_mult, (Rabs_pos_eq c) by lra. assert (0 <= Rabs v) by apply Rabs_pos. nra. }
    assert (B2 := close_bound _ _ _ _ D0 B1).
    assert (B3 : Rabs (a / (n + 1)) <= 2.07 * W) by lra.
    assert (C := near_le u t b _ _ (Rlt_le _ _ Hu) Hb B3).
    assert (D := close_trans _ _ _ _ _ C D0).
    assert (E : Rabs (v * c - V * c) <= 64 * n * u * W).
    { replace (v * c - V * c) with ((v - V) * c) by ring. rewrite Rabs_mult, (Rabs_pos_eq c) by lra. assert (0 <= Rabs (v - V)) by apply Rabs_pos. nra. }
    assert (F := close_trans _ _ _ _ _ D E).
    replace (V * n / (n + 1)) with (V * c) by (unfold c; field; lra). split; [lra |].
    assert (G := close_bound _ _ _ _ C B3). lra.
  Qed.
  (** One deviation from a mean. *)
  Lemma cov_dev E x m M y : 0 < E -> Rabs x <= E -> Rabs m <= E -> Rabs M <= E -> Rabs (m - M) <= 2 * (n + 1) * u * E -> Rabs (y - (m - x)) <= u * Rabs (m - x) ->
    Rabs (y - (M - x)) <= (2 * n + 4) * u * E /\ Rabs y <= 2.01 * E /\ Rabs (M - x) <= 2 * E.
  Proof.
    intros HE Hx Hm HM He Hy. assert (suE : u * E <= / 2000 * E) by (apply Rmult_le_compat_r; lra).
    assert (X1 : Rabs (m - x) <= 2 * E) by (apply Rabs_le_inv in Hx; apply Rabs_le_inv in Hm; apply Rabs_le; lra).
    assert (X2 : Rabs (M - x) <= 2 * E) by (apply Rabs_le_inv in Hx; apply Rabs_le_inv in HM; apply Rabs_le; lra).
    assert (Y1 : Rabs (y - (m - x)) <= 2 * u * E) by (assert (u * Rabs (m - x) <= u * (2 * E)) by (apply Rmult_le_compat_l; lra); lra).
    assert (Y2 : Rabs ((m - x) - (M - x)) <= 2 * (n + 1) * u * E) by (replace ((m - x) - (M - x)) with (m - M) by ring; exact He).
    assert (Y3 := close_trans _ _ _ _ _ Y1 Y2). assert (Y4 := close_bound _ _ _ _ Y1 X1). repeat split; lra.
  Qed.
  Lemma cov_step v V a b x m M y x' m' M' y' q r w :
    Rabs (v - V) <= 64 * n * u * W -> Rabs V <= 2 * W -> near u t a (v * n) -> near u t b (a / (n + 1)) ->
    Rabs x <= A -> Rabs m <= A -> Rabs M <= A -> Rabs (m - M) <= 2 * (n + 1) * u * A -> Rabs (y - (m - x)) <= u * Rabs (m - x) ->
    Rabs x' <= B -> Rabs m' <= B -> Rabs M' <= B -> Rabs (m' - M') <= 2 * (n + 1) * u * B -> Rabs (y' - (m' - x')) <= u * Rabs (m' - x') ->
    near u t q (y * y') -> near u t r (q / n) ->
    Rabs (w - (b + r)) <= u * Rabs (b + r) ->
    Rabs (w - (V * n / (n + 1) + (M - x) * (M' - x') / n)) <= 64 * (n + 1) * u * W.
  Proof.
    intros Hv HV Ha Hb Hx Hm HM He Hy Hx' Hm' HM' He' Hy' Hq Hr Hw.
    destruct (cov_part1 v V a b Hv HV Ha Hb) as [P1 P2].
    destruct (cov_dev A x m M y HA Hx Hm HM He Hy) as (D1 & D2 & D3). destruct (cov_dev B x' m' M' y' HB Hx' Hm' HM' He' Hy') as (D1' & D2' & D3').
    assert (uW : 0 <= u * W) by nra. assert (tW : 1000 * t <= u * W) by exact HtB. assert (nuW : (n + 1) * u * W <= / 1000 * W) by (apply Rmult_le_compat_r; lra). assert (suW : u * W <= / 2000 * W) by nra.
    assert (Q1 := close_mult _ _ _ _ _ _ _ _ D1 D1' D3 D2').
    assert (Q2 : Rabs (y * y') <= 4.05 * W).
    { rewrite Rabs_mult. apply Rle_trans with (2.01 * A * (2.01 * B)); [apply Rmult_le_compat; auto using Rabs_pos |]. unfold W. nra. }
    assert (Q3 := near_le u t q _ _ (Rlt_le _ _ Hu) Hq Q2).
    assert (Q4 := close_bound _ _ _ _ Q3 Q2).
    assert (Q5 := close_trans _ _ _ _ _ Q3 Q1).
    assert (E1 : (2 * n + 4) * u * A * (2.01 * B) + 2 * A * ((2 * n + 4) * u * B) <= (4.01 * (2 * n + 4)) * (u * W)) by (unfold W; lra).
    assert (R1 : Rabs (q / n - (M - x) * (M' - x') / n) <= (4.01 * 6 + 4.05) * (u * W) + t).
    { replace (q / n - (M - x) * (M' - x') / n) with ((q - (M - x) * (M' - x')) * / n) by (field; lra).
      rewrite Rabs_mult, (Rabs_pos_eq (/ n)) by (left; apply Rinv_0_lt_compat; lra).
      apply Rmult_le_reg_r with n; [lra |]. rewrite Rmult_assoc, Rinv_l, Rmult_1_r by lra. nra. }
    assert (R2 : Rabs (q / n) <= 4.06 * W) by (apply bound_div; [exact Hn | lra]).
    assert (R3 := near_le u t r _ _ (Rlt_le _ _ Hu) Hr R2).
    assert (R4 := close_trans _ _ _ _ _ R3 R1).
    assert (R5 := close_bound _ _ _ _ R3 R2).
    assert (S1 : Rabs (b + r) <= 8 * W) by (eapply Rle_trans; [apply Rabs_triang |]; lra).
    assert (S2 : u * Rabs (b + r) <= u * (8 * W)) by (apply Rmult_le_compat_l; lra).
    apply Rabs_le_inv in P1. apply Rabs_le_inv in R4. apply Rabs_le_inv in Hw. apply Rabs_le. lra.
  Qed.
End Step.
