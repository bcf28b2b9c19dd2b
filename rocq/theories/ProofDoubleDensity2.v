(** The histogram of doubles: positions and fractions. *)
From Coq Require Import ZArith List Bool Reals Lra Lia Arith.
From Flocq Require Import Core IEEE754.BinarySingleNaN.
From Verif Require Import Num NumFacts ModelBasic ModelMinMax ModelDensity ModelDouble SpecStats SpecDensity SpecDouble SpecDoubleDensity
  ProofBasic ProofKahan ProofDouble ProofDouble2 ProofDouble4 ProofDensity ProofDoubleDensity.
Import ListNotations.
Local Open Scope R_scope.

Lemma round_bpow r e : (-1000 <= e)%Z -> Rabs r <= bpow radix2 e -> Rabs (b64_round r) <= bpow radix2 e.
Proof. intros H. apply round_abs. apply generic_format_bpow. unfold FLT_exp. lia. Qed.
Lemma round_0 : b64_round 0 = 0.
Proof. apply (b64_exact_int 0). cbn; lia. Qed.
Lemma round_nonneg r : 0 <= r -> 0 <= b64_round r.
Proof. intros H. rewrite <- round_0. apply round_le. exact H. Qed.
Lemma bpow_under e : (e < 1024)%Z -> forall r, Rabs r <= bpow radix2 e -> Rabs r < bpow radix2 1024.
Proof. intros H r B. eapply Rle_lt_trans; [exact B|]. apply bpow_lt. exact H. Qed.
Lemma Rabs_add_le' a b A B : Rabs a <= A -> Rabs b <= B -> Rabs (a + b) <= A + B.
Proof. intros HA HB. eapply Rle_trans; [apply Rabs_triang|lra]. Qed.

Section Positions.
Variables m M : double.
Variable b : nat.
Hypothesis Fm : is_finite m = true.
Hypothesis FM : is_finite M = true.
Hypothesis Bm : Rabs (val m) <= bpow radix2 960.
Hypothesis BM : Rabs (val M) <= bpow radix2 960.
Hypothesis HmM : val m <= val M.
Hypothesis Hb : (1 <= b)%nat.
Hypothesis Hb53 : (Z.of_nat (b + 1) <= 2 ^ 53)%Z.

Let width : double := d_sub M m.
Let step : double := d_div width (ofnat DoubleN b).
Definition pos (i : nat) : double := BinPosition DoubleN m M b i.

Lemma two960 : bpow radix2 960 + bpow radix2 960 = bpow radix2 961.
Proof. change 961%Z with (1 + 960)%Z. rewrite bpow_plus. change (bpow radix2 1) with 2. ring. Qed.
Lemma width_ok : is_finite width = true /\ val width = b64_round (val M - val m) /\ 0 <= val width <= bpow radix2 961.
Proof.
  apply Rabs_le_inv in Bm as Bm'. apply Rabs_le_inv in BM as BM'.
  assert (W : Rabs (val M - val m) <= bpow radix2 961) by (rewrite <- two960; apply Rabs_le; lra).
  assert (R := round_bpow _ 961 ltac:(lia) W).
  destruct (sub_ok M m FM Fm (bpow_under 961 ltac:(lia) _ R)) as [F E]. split; [exact F|]. split; [exact E|].
  unfold val. unfold width. rewrite E. fold (val M) (val m). split; [apply round_nonneg; lra|]. apply Rabs_le_inv in R. lra.
Qed.
Lemma b_ok : is_finite (ofnat DoubleN b) = true /\ B2R (ofnat DoubleN b) = INR b /\ 1 <= INR b.
Proof. destruct (ofnat_exact b ltac:(lia)) as [F E]. split; [exact F|]. split; [exact E|]. apply (le_INR 1 b), Hb. Qed.
Lemma step_ok : is_finite step = true /\ val step = b64_round (val width / INR b) /\ 0 <= val step <= bpow radix2 961.
Proof.
  destruct width_ok as (Fw & _ & W). destruct b_ok as (Fb & Eb & B1).
  assert (Q : 0 <= val width / INR b <= bpow radix2 961).
  { split; [apply Rmult_le_pos; [lra|]; left; apply Rinv_0_lt_compat; lra|].
    apply Rle_trans with (val width / 1); [|lra]. unfold Rdiv. apply Rmult_le_compat_l; [lra|]. apply Rinv_le; lra. }
  assert (R := round_bpow (val width / INR b) 961 ltac:(lia) ltac:(rewrite Rabs_pos_eq; lra)).
  destruct (div_ok width (ofnat DoubleN b)) as [F E]; [rewrite Eb; lra|exact Fw| |].
  { rewrite Eb. apply (bpow_under 961); [lia|]. exact R. }
  rewrite Eb in E. split; [exact F|]. split; [exact E|]. unfold val at 1 2. unfold step. rewrite E. fold (val width).
  split; [apply round_nonneg; lra|]. apply Rabs_le_inv in R. lra.
Qed.
Lemma pred_ok i : (i <= b + 1)%nat -> is_finite (d_sub (ofnat DoubleN i) d_one) = true /\ val (d_sub (ofnat DoubleN i) d_one) = INR i - 1.
Proof.
  intros Hi. destruct (ofnat_exact i ltac:(lia)) as [F E].
  assert (R : b64_round (INR i - 1) = INR i - 1).
  { rewrite INR_IZR_INZ, <- minus_IZR. apply b64_exact_int. lia. }
  destruct (sub_ok (ofnat DoubleN i) d_one F one_finite) as [Fs Es].
  { rewrite E, one_value, R. rewrite INR_IZR_INZ, <- minus_IZR. apply int_small. lia. }
  split; [exact Fs|]. unfold val. rewrite Es, E, one_value. exact R.
Qed.
Lemma k_bound i : (i <= b + 1)%nat -> Rabs (INR i - 1) <= INR b.
Proof.
  intros Hi. destruct b_ok as (_ & _ & B1). apply le_INR in Hi. rewrite plus_INR in Hi. cbn [INR] in Hi. assert (P := pos_INR i). apply Rabs_le. lra.
Qed.
Let prod (i : nat) : double := d_mul (d_sub (ofnat DoubleN i) d_one) step.
Lemma prod_ok i : (i <= b + 1)%nat -> is_finite (prod i) = true /\ val (prod i) = b64_round ((INR i - 1) * val step) /\ Rabs (val (prod i)) <= bpow radix2 1014.
Proof.
  intros Hi. destruct (pred_ok i Hi) as [Fp Ep]. destruct step_ok as (Fs & _ & S).
  assert (Q : Rabs ((INR i - 1) * val step) <= bpow radix2 1014).
  { change 1014%Z with (53 + 961)%Z. rewrite bpow_plus, Rabs_mult. apply Rmult_le_compat; [apply Rabs_pos|apply Rabs_pos| |rewrite Rabs_pos_eq; lra].
    eapply Rle_trans; [apply k_bound, Hi|]. rewrite INR_IZR_INZ. rewrite <- IZR_Zpower by lia. apply IZR_le. change (Zpower radix2 53) with (2 ^ 53)%Z. lia. }
  assert (R := round_bpow _ 1014 ltac:(lia) Q).
  destruct (mul_ok (d_sub (ofnat DoubleN i) d_one) step Fp Fs) as [F E].
  { fold (val (d_sub (ofnat DoubleN i) d_one)). rewrite Ep. apply (bpow_under 1014); [lia|exact R]. }
  fold (val (d_sub (ofnat DoubleN i) d_one)) in E. rewrite Ep in E. split; [exact F|]. unfold val at 1 3. unfold prod. rewrite E. split; [reflexivity|exact R].
Qed.
Lemma pos_ok i : (i <= b + 1)%nat -> is_finite (pos i) = true /\ val (pos i) = b64_round (val m + val (prod i)).
Proof.
  intros Hi. destruct (prod_ok i Hi) as (Fp & _ & P).
  destruct (add_ok m (prod i) Fm Fp) as [F E]; [|split; [exact F|exact E]].
  apply (bpow_under 1015); [lia|]. apply round_bpow; [lia|]. fold (val m) (val (prod i)).
  eapply Rle_trans; [apply Rabs_add_le'; [exact Bm|exact P]|].
  change 1015%Z with (1 + 1014)%Z. rewrite bpow_plus. change (bpow radix2 1) with 2.
  assert (bpow radix2 960 <= bpow radix2 1014) by (apply bpow_le; lia). lra.
Qed.
Lemma pos_mono i j : (i <= j)%nat -> (j <= b + 1)%nat -> val (pos i) <= val (pos j).
Proof.
  intros Hij Hj. destruct (pos_ok i ltac:(lia)) as [_ ->]. destruct (pos_ok j Hj) as [_ ->]. apply round_le, Rplus_le_compat_l.
  destruct (prod_ok i ltac:(lia)) as (_ & -> & _). destruct (prod_ok j Hj) as (_ & -> & _). apply round_le.
  destruct step_ok as (_ & _ & S). apply le_INR in Hij. apply Rmult_le_compat_r; lra.
Qed.
Lemma pos_first : val (pos 1) = val m.
Proof.
  destruct (pos_ok 1 ltac:(lia)) as [_ ->]. destruct (prod_ok 1 ltac:(lia)) as (_ & -> & _). cbn [INR].
  rewrite Rminus_diag_eq, Rmult_0_l, round_0, Rplus_0_r by reflexivity. apply round_format, val_format.
Qed.
Lemma pos_error i : (i <= b + 1)%nat ->
  Rabs (val (pos i) - ExactPosition m M b i) <= 8 * roundoff * (Rabs (val m) + Rabs (val M)) + 4 * INR (b + 1) * tiny.
Proof.
  intros Hi. destruct (pos_ok i Hi) as [_ ->]. destruct (prod_ok i Hi) as (_ & Ep & _). destruct step_ok as (_ & Es & _). destruct width_ok as (_ & Ew & _).
  destruct b_ok as (_ & _ & B1). assert (Kb := k_bound i Hi). set (k := INR i - 1) in *.
  destruct (round_add m (prod i)) as (d4 & D4 & ->).
  rewrite Ep. destruct (round_any (k * val step)) as (d3 & e3 & D3 & E3 & ->).
  rewrite Es. destruct (round_any (val width / INR b)) as (d2 & e2 & D2 & E2 & ->).
  assert (HW : exists d1, Rabs d1 <= roundoff /\ val width = (val M - val m) * (1 + d1)).
  { destruct (round_add M (d_opp m)) as (d1 & D1 & E1). exists d1. split; [exact D1|]. rewrite Ew.
    replace (val (d_opp m)) with (- val m) in E1 by (symmetry; apply B2R_Bopp). exact E1. }
  destruct HW as (d1 & D1 & ->). unfold ExactPosition. fold k.
  set (W := val M - val m). set (u := roundoff) in *. assert (U := roundoff_small). fold u in U. assert (TP := tiny_pos). set (t := tiny) in *.
  assert (HG : 0 <= W <= Rabs (val m) + Rabs (val M)).
  { split; [unfold W; lra|]. unfold W. assert (A1 := Rle_abs (val M)). assert (A2 := Rle_abs (- val m)). rewrite Rabs_Ropp in A2. lra. }
  set (G := Rabs (val m) + Rabs (val M)) in *.
  set (P := k * (W / INR b)).
  assert (HP : Rabs P <= W).
  { unfold P, Rdiv. rewrite !Rabs_mult, (Rabs_pos_eq W), (Rabs_pos_eq (/ INR b)) by (try (left; apply Rinv_0_lt_compat); lra).
    replace (Rabs k * (W * / INR b)) with (W * (Rabs k * / INR b)) by ring. rewrite <- (Rmult_1_r W) at 2. apply Rmult_le_compat_l; [lra|].
    apply Rmult_le_reg_r with (INR b); [lra|]. rewrite Rmult_assoc, Rinv_l by lra. lra. }
  set (a := (1 + d1) * (1 + d2) * (1 + d3) - 1).
  assert (HA : Rabs a <= 4 * u).
  { apply Rabs_le_inv in D1. apply Rabs_le_inv in D2. apply Rabs_le_inv in D3.
    assert (A12 : Rabs ((1 + d1) * (1 + d2) - 1) <= 2.01 * u) by (apply Rabs_le; nra). apply Rabs_le_inv in A12.
    unfold a. set (v := (1 + d1) * (1 + d2) - 1) in *. replace ((1 + d1) * (1 + d2)) with (1 + v) by (unfold v; ring). apply Rabs_le. nra. }
  set (z := k * e2 * (1 + d3) + e3).
  assert (HZ : Rabs z <= 2 * INR b * t + t).
  { unfold z. apply Rabs_add_le'; [|exact E3]. rewrite !Rabs_mult.
    assert (H3 : Rabs (1 + d3) <= 2) by (apply Rabs_le_inv in D3; apply Rabs_le; lra).
    apply Rle_trans with (INR b * t * 2); [|lra]. apply Rmult_le_compat; [apply Rmult_le_pos; apply Rabs_pos|apply Rabs_pos| |exact H3].
    apply Rmult_le_compat; [apply Rabs_pos|apply Rabs_pos|exact Kb|exact E2]. }
  replace ((val m + (k * (W * (1 + d1) / INR b * (1 + d2) + e2) * (1 + d3) + e3)) * (1 + d4) - (val m + P))
    with ((P * a + z) * (1 + d4) + (val m + P) * d4) by (unfold P, a, z; field; lra).
  assert (H1 : Rabs (P * a + z) <= G * (4 * u) + (2 * INR b * t + t)).
  { apply Rabs_add_le'; [|exact HZ]. rewrite Rabs_mult. apply Rmult_le_compat; [apply Rabs_pos|apply Rabs_pos|lra|exact HA]. }
  assert (H2 : Rabs ((val m + P) * d4) <= 2 * G * u).
  { rewrite Rabs_mult. apply Rmult_le_compat; [apply Rabs_pos|apply Rabs_pos| |exact D4].
    assert (Rabs (val m) <= G) by (unfold G; assert (A := Rabs_pos (val M)); lra).
    eapply Rle_trans; [apply Rabs_triang|]. lra. }
  assert (H4 : Rabs (1 + d4) <= 1.1) by (apply Rabs_le_inv in D4; apply Rabs_le; lra).
  eapply Rle_trans; [apply Rabs_triang|]. rewrite Rabs_mult.
  apply Rle_trans with ((G * (4 * u) + (2 * INR b * t + t)) * 1.1 + 2 * G * u).
  { apply Rplus_le_compat; [|exact H2]. apply Rmult_le_compat; [apply Rabs_pos|apply Rabs_pos|exact H1|exact H4]. }
  rewrite plus_INR. cbn [INR]. assert (0 <= G * u) by (apply Rmult_le_pos; lra). assert (0 <= INR b * t) by (apply Rmult_le_pos; lra). lra.
Qed.

(** Where the samples go. *)
Lemma falls_index (x : double) : is_finite x = true ->
  exists i, bin_index DoubleN b (bin_positions DoubleN b m M) x = Ok i /\ (i <= b + 1)%nat /\ FallsIn DoubleN b pos i x = true /\
    forall j, (j <= b + 1)%nat -> FallsIn DoubleN b pos j x = true -> j = i.
Proof.
  intros Fx. destruct (index_falls DoubleN 1 b (le_n 1) pos x Hb) as (i & Ei & Hi & HF).
  { cbn [ltb DoubleN]. destruct (pos_ok 0 ltac:(lia)) as [F0 _]. destruct (pos_ok 1 ltac:(lia)) as [F1 _]. rewrite !lt_true by assumption.
    assert (P := pos_mono 0 1 ltac:(lia) ltac:(lia)). unfold val in P. lra. }
  exists i. split; [exact Ei|]. split; [exact Hi|]. split; [exact HF|].
  assert (G : forall j, (j <= b + 1)%nat -> FallsIn DoubleN b pos j x = true ->
            (j = 0%nat \/ val (pos j) <= val x) /\ (j = (b + 1)%nat \/ val x < val (pos (j + 1)))).
  { intros j Hj HJ. unfold FallsIn in HJ. cbn [ltb DoubleN] in HJ. apply andb_true_iff in HJ as [J1 J2]. split.
    - apply orb_true_iff in J1 as [J1|J1]; [left; apply Nat.eqb_eq, J1|right]. destruct (pos_ok j Hj) as [Fj _].
      apply negb_true_iff, lt_false in J1; assumption.
    - apply orb_true_iff in J2 as [J2|J2]; [left; apply Nat.eqb_eq, J2|]. destruct (Nat.eq_dec j (b + 1)) as [->|N]; [left; reflexivity|right].
      destruct (pos_ok (j + 1) ltac:(lia)) as [Fj _]. apply lt_true in J2; assumption. }
  intros j Hj HJ. destruct (G i Hi HF) as [I1 I2]. destruct (G j Hj HJ) as [J1 J2].
  destruct (lt_eq_lt_dec j i) as [[L|L]|L]; [|exact L|]; exfalso.
  - destruct I1 as [I1|I1]; [lia|]. destruct J2 as [J2|J2]; [lia|]. assert (Q := pos_mono (j + 1) i ltac:(lia) Hi). lra.
  - destruct J1 as [J1|J1]; [lia|]. destruct I2 as [I2|I2]; [lia|]. assert (Q := pos_mono (i + 1) j ltac:(lia) Hj). lra.
Qed.
End Positions.
