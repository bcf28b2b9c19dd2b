(** Bounds of computed quantities that are homogeneous polynomials of the samples, and moments of several orders. *)
From Coq Require Import ZArith List Bool Reals Lra Lia Arith Psatz.
From Flocq Require Import Core IEEE754.BinarySingleNaN.
From Verif Require Import Num NumFacts ModelBasic ModelRolling ModelRounding ModelDouble SpecStats SpecDouble SpecDoubleVariance SpecDoubleMoment SpecDoubleShape ProofBasic ProofBasic2 ProofKahan ProofDouble ProofDouble2 ProofDouble3 ProofDouble4 ProofDoubleEx
  ProofDoubleVariance ProofDoubleVariance2 ProofDoubleVariance3 ProofDoubleVariance4 ProofDoubleMoment ProofDoubleMoment2 ProofDoubleRolling3 ProofDoubleRolling4 ProofDoubleError.
Import ListNotations.
Local Open Scope R_scope.

Lemma roundoff_tiny : roundoff <= / 1000000.
Proof. unfold roundoff. apply Rinv_le; [lra |]. apply Rle_trans with (2 ^ 20); [lra | apply Rle_pow; [lra | lia]]. Qed.

Section Scaled.
  Variable k : Z.
  Hypothesis K : (-200 <= k <= 200)%Z.
  (** The unit of errors: [h] is the number of samples times the roundoff. *)
  Variable h : R.
  Hypothesis Hh : roundoff <= h <= / 8192.
  Let Hu := roundoff_small.

  (** [x] stands for [X], of degree [j] in the samples, at most [c] units, within [e] units of error. *)
  Definition App (j : nat) (x : double) (X c e : R) : Prop := finite x /\ Rabs X <= c * up k j /\ Rabs (val x - X) <= e * (h * up k j).
  Lemma app_round j y X c e e' : (j <= 4)%nat -> 0 <= e <= 1000 -> 0 <= c <= 1000 -> Rabs X <= c * up k j -> Rabs (y - X) <= e * (h * up k j) -> e + c + e / 8192 + / 1000 <= e' ->
    Rabs (b64_round y) < bpow radix2 1024 /\ Rabs (b64_round y - X) <= e' * (h * up k j).
  Proof.
    intros J He Hc HX HE HE'. assert (KJ : (-800 <= k * Z.of_nat j <= 800)%Z) by nia. assert (P := up_pos k j). set (U := up k j) in *.
    assert (hU : h * U <= / 8192 * U) by (apply Rmult_le_compat_r; lra). assert (hU0 : 0 < h * U) by nra. assert (uU : roundoff * U <= h * U) by (apply Rmult_le_compat_r; lra).
    assert (ehU : e * (h * U) <= e / 8192 * U) by (unfold Rdiv; rewrite Rmult_assoc; apply Rmult_le_compat_l; lra).
    assert (B : Rabs y <= (c + e / 8192) * U) by (assert (H := close_bound _ _ _ _ HE HX); lra).
    assert (T : 1000 * tiny <= roundoff * U) by (apply tiny_low; lia).
    split.
    - assert (B' : Rabs y <= bpow radix2 (11 + k * Z.of_nat j)).
      { rewrite bpow_plus. fold (up k j). fold U. change (bpow radix2 11) with 2048. eapply Rle_trans; [exact B |]. apply Rmult_le_compat_r; lra. }
      eapply Rle_lt_trans; [apply round_abs; [| exact B']; apply generic_format_bpow; unfold FLT_exp; lia | apply bpow_lt; lia].
    - assert (R := near_le roundoff tiny _ _ _ ltac:(lra) (round_near y) B). assert (C := close_trans _ _ _ _ _ R HE). eapply Rle_trans; [exact C |].
      replace (roundoff * ((c + e / 8192) * U)) with ((c + e / 8192) * (roundoff * U)) by ring.
      assert ((c + e / 8192) * (roundoff * U) <= (c + e / 8192) * (h * U)) by (apply Rmult_le_compat_l; lra).
      assert ((e + c + e / 8192 + / 1000) * (h * U) <= e' * (h * U)) by (apply Rmult_le_compat_r; lra). lra.
  Qed.
  Lemma app_weaken j x X c e c' : App j x X c e -> Rabs X <= c' * up k j -> App j x X c' e.
  Proof. intros (F & _ & E) H. split; [exact F |]. split; assumption. Qed.
  Lemma app_add j x y X Y c d e f g : App j x X c e -> App j y Y d f -> (j <= 4)%nat -> 0 <= e <= 500 -> 0 <= f <= 500 -> 0 <= c <= 500 -> 0 <= d <= 500 ->
    e + f + (c + d) + (e + f) / 8192 + / 1000 <= g -> App j (d_add x y) (X + Y) (c + d) g.
  Proof.
    intros (Fx & BX & EX) (Fy & BY & EY) J He Hf Hc Hd G. assert (P := up_pos k j).
    assert (B : Rabs (X + Y) <= (c + d) * up k j) by (apply Rabs_le_inv in BX; apply Rabs_le_inv in BY; apply Rabs_le; lra).
    assert (E : Rabs (val x + val y - (X + Y)) <= (e + f) * (h * up k j)) by (apply Rabs_le_inv in EX; apply Rabs_le_inv in EY; apply Rabs_le; lra).
    destruct (app_round j _ _ (c + d) (e + f) g J ltac:(lra) ltac:(lra) B E ltac:(lra)) as [L R]. destruct (add_ok x y Fx Fy L) as [F V].
    split; [exact F |]. split; [exact B |]. unfold val at 1. rewrite V. exact R.
  Qed.
  Lemma app_sub j x y X Y c d e f g : App j x X c e -> App j y Y d f -> (j <= 4)%nat -> 0 <= e <= 500 -> 0 <= f <= 500 -> 0 <= c <= 500 -> 0 <= d <= 500 ->
    e + f + (c + d) + (e + f) / 8192 + / 1000 <= g -> App j (d_sub x y) (X - Y) (c + d) g.
  Proof.
    intros (Fx & BX & EX) (Fy & BY & EY) J He Hf Hc Hd G. assert (P := up_pos k j).
    assert (B : Rabs (X - Y) <= (c + d) * up k j) by (apply Rabs_le_inv in BX; apply Rabs_le_inv in BY; apply Rabs_le; lra).
    assert (E : Rabs (val x - val y - (X - Y)) <= (e + f) * (h * up k j)) by (apply Rabs_le_inv in EX; apply Rabs_le_inv in EY; apply Rabs_le; lra).
    destruct (app_round j _ _ (c + d) (e + f) g J ltac:(lra) ltac:(lra) B E ltac:(lra)) as [L R]. destruct (sub_ok x y Fx Fy L) as [F V].
    split; [exact F |]. split; [exact B |]. unfold val at 1. rewrite V. exact R.
  Qed.
  Lemma app_mul i j x y X Y c d e f m g : App i x X c e -> App j y Y d f -> (i + j <= 4)%nat -> 0 <= e <= 500 -> 0 <= f <= 500 -> 0 <= c -> 0 <= d -> c * d <= 1000 ->
    c * f + d * e + e * f / 8192 <= m -> m <= 1000 -> m + c * d + m / 8192 + / 1000 <= g -> App (i + j) (d_mul x y) (X * Y) (c * d) g.
  Proof.
    intros (Fx & BX & EX) (Fy & BY & EY) J He Hf Hc Hd Hcd M M' G. assert (P := up_pos k i). assert (Q := up_pos k j).
    assert (UU := up_add k i j). assert (PQ := up_pos k (i + j)). rewrite UU in PQ. set (U := up k i) in *. set (V := up k j) in *.
    assert (hU : 0 <= h * U) by nra. assert (hV : 0 <= h * V) by nra. assert (hUV : 0 <= h * (U * V)) by nra. assert (cd : 0 <= c * d) by nra.
    assert (B : Rabs (X * Y) <= c * d * up k (i + j)).
    { rewrite UU, Rabs_mult. replace (c * d * (U * V)) with (c * U * (d * V)) by ring. apply Rmult_le_compat; auto using Rabs_pos. }
    assert (By : Rabs (val y) <= d * V + f * (h * V)) by exact (close_bound _ _ _ _ EY BY).
    assert (E : Rabs (val x * val y - X * Y) <= m * (h * up k (i + j))).
    { eapply Rle_trans; [exact (close_mult _ _ _ _ _ _ _ _ EX EY BX By) |]. rewrite UU.
      replace (e * (h * U) * (d * V + f * (h * V)) + c * U * (f * (h * V))) with ((c * f + d * e + e * f * h) * (h * (U * V))) by ring.
      apply Rmult_le_compat_r; [exact hUV |]. assert (ef : 0 <= e * f) by nra. assert (e * f * h <= e * f * / 8192) by (apply Rmult_le_compat_l; lra). lra. }
    assert (M0 : 0 <= m) by (assert (0 <= c * f) by nra; assert (0 <= d * e) by nra; assert (0 <= e * f) by nra; lra).
    destruct (app_round (i + j) _ _ (c * d) m g J ltac:(lra) ltac:(lra) B E ltac:(lra)) as [L R]. destruct (mul_ok x y Fx Fy L) as [F W].
    split; [exact F |]. split; [exact B |]. unfold val at 1. rewrite W. exact R.
  Qed.
  Lemma app_nat n : (n <= 10)%nat -> App 0 (ofnat DoubleN n) (INR n) (INR n) 0.
  Proof.
    intros N. destruct (ofnat_exact n ltac:(lia)) as [F V]. split; [exact F |]. unfold up. replace (k * Z.of_nat 0)%Z with 0%Z by lia. cbn [bpow].
    split; [rewrite Rabs_pos_eq by apply pos_INR; lra |]. unfold val. rewrite V, Rminus_diag_eq, Rabs_R0 by reflexivity. lra.
  Qed.
End Scaled.

(** ** Moments of several orders *)
Lemma moments_set Ns xs : Forall (fun N => 1 <= N)%nat Ns -> mom_set_run DoubleN Ns d_zero xs =
  Some {| mo_count := length xs; mo_sum := sum_run DoubleN d_zero xs; mo_sums := map (fun N => sum_run DoubleN d_zero (map (pw N) xs)) Ns |}.
Proof.
  intros H. induction xs as [|x xs IH] using rev_ind; [reflexivity |].
  assert (E : mom_set_run DoubleN Ns d_zero (xs ++ [x]) = mom_set_push DoubleN Ns (mom_set_run DoubleN Ns d_zero xs) x) by (unfold mom_set_run; exact (fold_left_app _ xs [x] _)).
  rewrite E, IH. unfold mom_set_push. cbn [mo_sums mo_count mo_sum].
  assert (G : moment_ops DoubleN Ns (map (fun N => sum_run DoubleN d_zero (map (pw N) xs)) Ns) x = Some (map (fun N => sum_run DoubleN d_zero (map (pw N) (xs ++ [x]))) Ns)).
  { clear E IH. induction H as [|N Ns HN _ IH]; [reflexivity |]. cbn [map moment_ops]. unfold moment_op. rewrite (npow_pw N x HN), IH. rewrite map_app. cbn [map]. rewrite sum_snoc. reflexivity. }
  rewrite G, sum_snoc, app_length, Nat.add_1_r. reflexivity.
Qed.
Definition the_moment N xs := lazy_mean (map (pw N) xs).
Lemma skewness_is xs : skewness_run DoubleN d_sqrt d_zero xs = Some (skewness_result DoubleN d_sqrt (the_moment 3 xs) (the_moment 2 xs) (lazy_mean xs)).
Proof. unfold skewness_run. rewrite moments_set by (repeat constructor). unfold the_moment. rewrite !lazy_mean_is, !map_length. reflexivity. Qed.
Lemma kurtosis_is xs : kurtosis_run DoubleN d_zero xs = Some (kurtosis_result DoubleN (the_moment 4 xs) (the_moment 3 xs) (the_moment 2 xs) (lazy_mean xs)).
Proof. unfold kurtosis_run. rewrite moments_set by (repeat constructor). unfold the_moment. rewrite !lazy_mean_is, !map_length. reflexivity. Qed.
