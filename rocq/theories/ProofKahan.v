(** Error bound for Kahan summation. *)
From Coq Require Import List Reals Lra Psatz.
From Verif Require Import Num ModelBasic ModelRounding SpecStats NumFacts ProofBasic.
Import ListNotations.
Open Scope R_scope.

Lemma Rabs_1p u d : Rabs d <= u -> Rabs (1 + d) <= 1 + u.
Proof. intros H. eapply Rle_trans; [apply Rabs_triang|]. rewrite Rabs_R1. lra. Qed.

Lemma Rabs_mul_le a b x y : Rabs a <= x -> Rabs b <= y -> Rabs (a * b) <= x * y.
Proof. intros H1 H2. rewrite Rabs_mult. apply Rmult_le_compat; auto using Rabs_pos. Qed.

Lemma Rabs_add_le a b x y : Rabs a <= x -> Rabs b <= y -> Rabs (a + b) <= x + y.
Proof. intros. eapply Rle_trans; [apply Rabs_triang|]. lra. Qed.

Lemma Rabs_sub_le a b x y : Rabs a <= x -> Rabs b <= y -> Rabs (a - b) <= x + y.
Proof. intros. unfold Rminus. apply Rabs_add_le; auto. rewrite Rabs_Ropp; auto. Qed.

(** One step, with the four rounding errors made explicit. *)
Lemma kahan_step u M s c x e1 e2 e3 e4 :
  0 <= u <= 1 / 100 -> 0 <= M -> Rabs c <= 3 * u * M -> Rabs s <= 9 / 8 * M ->
  Rabs e1 <= u -> Rabs e2 <= u -> Rabs e3 <= u -> Rabs e4 <= u ->
  let y := (x - c) * (1 + e1) in
  let s' := (s + y) * (1 + e2) in
  let t := (s' - s) * (1 + e3) in
  let c' := (t - y) * (1 + e4) in
  Rabs c' <= 3 * u * (M + Rabs x)
  /\ Rabs ((s' - c') - (s - c) - x) <= 2 * u * Rabs x + 9 * u * u * (M + Rabs x).
Proof.
  intros Hu HM Hc Hs H1 H2 H3 H4 y s' t c'.
  assert (HX : 0 <= Rabs x) by apply Rabs_pos. assert (HXe : Rabs x <= Rabs x) by apply Rle_refl. revert HX HXe. generalize (Rabs x) at 1 3 4 5 6 as X. intros X HX HXe.
  assert (BuX : 0 <= u * X <= 1 / 100 * X) by (split; [apply Rmult_le_pos | apply Rmult_le_compat_r]; lra).
  assert (BuM : 0 <= u * M <= 1 / 100 * M) by (split; [apply Rmult_le_pos | apply Rmult_le_compat_r]; lra).
  assert (BuuX : 0 <= u * (u * X) <= 1 / 100 * (u * X)) by (split; [apply Rmult_le_pos | apply Rmult_le_compat_r]; lra).
  assert (BuuM : 0 <= u * (u * M) <= 1 / 100 * (u * M)) by (split; [apply Rmult_le_pos | apply Rmult_le_compat_r]; lra).
  assert (Hxc : Rabs (x - c) <= X + 3 * u * M) by (apply Rabs_sub_le; [exact HXe | exact Hc]).
  assert (Hy : Rabs y <= (X + 3 * u * M) * (1 + u)).
  { unfold y. apply Rabs_mul_le; [exact Hxc | apply Rabs_1p; exact H1]. }
  assert (Ha : Rabs (s + y) <= 12 / 10 * M + 101 / 100 * X).
  { eapply Rle_trans; [apply Rabs_add_le; [exact Hs | exact Hy]|]. lra. }
  assert (Hd : Rabs (s' - s) <= (X + 3 * u * M) * (1 + u) + u * (12 / 10 * M + 101 / 100 * X)).
  { replace (s' - s) with (y + e2 * (s + y)) by (unfold s'; ring).
    apply Rabs_add_le; [exact Hy | apply Rabs_mul_le; [exact H2 | exact Ha]]. }
  assert (Hd2 : Rabs (s' - s) <= 44 / 1000 * M + 1021 / 1000 * X).
  { eapply Rle_trans; [exact Hd|]. lra. }
  assert (Hty : Rabs (t - y) <= u * (12 / 10 * M + 101 / 100 * X) + u * (44 / 1000 * M + 1021 / 1000 * X)).
  { replace (t - y) with (e2 * (s + y) + e3 * (s' - s)) by (unfold t, s'; ring).
    apply Rabs_add_le; apply Rabs_mul_le; assumption. }
  split.
  - unfold c'. eapply Rle_trans; [apply Rabs_mul_le; [exact Hty | apply Rabs_1p; exact H4]|].
    lra.
  - replace (s' - c' - (s - c) - x) with (e1 * (x - c) - e3 * (s' - s) - e4 * (t - y)).
    2:{ unfold c', t, s', y; ring. }
    eapply Rle_trans.
    { apply Rabs_sub_le; [apply Rabs_sub_le|]; apply Rabs_mul_le;
        [exact H1 | exact Hxc | exact H3 | exact Hd | exact H4 | exact Hty]. }
    assert (u * (u * (u * M)) <= 1 / 100 * (u * (u * M))) by (apply Rmult_le_compat_r; lra).
    assert (u * (u * (u * X)) <= 1 / 100 * (u * (u * X))) by (apply Rmult_le_compat_r; lra).
    lra.
Qed.

Section Kahan.
Variable F : R -> Prop.
Variable rnd : R -> R.
Variable u : R.
Hypothesis HR : RoundingModel F rnd u.
Hypothesis Hu : 0 <= u <= 1 / 100.

Definition Mag (s0 : R) (xs : list R) : R := Rabs s0 + total RN Rabs xs.
Definition Exact (s0 : R) (xs : list R) : R := s0 + total RN (fun x => x) xs.

Lemma total_snocR (f : R -> R) (xs : list R) (x : R) : total RN f (xs ++ [x]) = (total RN f xs + f x).
Proof. exact (total_snoc RN RN_field f xs x). Qed.
Lemma total_abs_nonneg (xs : list R) : 0 <= total RN Rabs xs.
Proof.
  induction xs as [|y xs IH]; unfold total in *; cbn [fold_right add RN zero] in *; [lra|].
  assert (H := Rabs_pos y). lra.
Qed.
Lemma total_le_abs (xs : list R) : Rabs (total RN (fun x => x) xs) <= total RN Rabs xs.
Proof.
  induction xs as [|y xs IH]; unfold total in *; cbn [fold_right add RN zero] in *.
  - rewrite Rabs_R0. lra.
  - eapply Rle_trans; [apply Rabs_triang|]. lra.
Qed.
Lemma Mag_nonneg s0 xs : 0 <= Mag s0 xs.
Proof. unfold Mag. assert (H := total_abs_nonneg xs). assert (H' := Rabs_pos s0). lra. Qed.
Lemma Exact_Mag s0 xs : Rabs (Exact s0 xs) <= Mag s0 xs.
Proof. unfold Exact, Mag. apply Rabs_add_le; [lra | apply total_le_abs]. Qed.

Lemma kahan_inv s0 xs :
  F s0 -> Forall F xs -> INR (length xs) * (u * u) <= 1 / 120 ->
  let '(s, c) := kahan_run (RndN rnd) s0 xs in
  F s /\ F c /\ Rabs c <= 3 * u * Mag s0 xs
  /\ Rabs ((s - c) - Exact s0 xs) <= (2 * u + 9 * INR (length xs) * (u * u)) * Mag s0 xs.
Proof.
  intros HF0. induction xs as [|x xs IH] using rev_ind; intros HF Hn.
  - cbn [kahan_run fold_left kahan_init]. unfold Exact, Mag, total. cbn [fold_right RN zero length INR].
    repeat split; [exact HF0 | apply (rm_zero _ _ _ HR) | |].
    + change (Rabs 0 <= 3 * u * (Rabs s0 + 0)). rewrite Rabs_R0. assert (H := Rabs_pos s0). nra.
    + match goal with |- Rabs ?e <= _ => replace e with 0 by (cbn [RndN zero car]; ring) end. rewrite Rabs_R0. assert (H := Rabs_pos s0). nra.
  - apply Forall_app in HF as [HF HFx]. inversion HFx as [|x' l Hx _]; subst.
    rewrite app_length in Hn. cbn [length] in Hn. rewrite plus_INR in Hn. cbn [INR] in Hn.
    assert (Huu : 0 <= u * u) by nra.
    assert (Hn' : INR (length xs) * (u * u) <= 1 / 120) by lra.
    specialize (IH HF Hn'). 
    assert (Hrun : kahan_run (RndN rnd) s0 (xs ++ [x]) = kahan_op (RndN rnd) (kahan_run (RndN rnd) s0 xs) x)
      by (unfold kahan_run; rewrite fold_left_app; reflexivity).
    rewrite Hrun. clear Hrun.
    destruct (kahan_run (RndN rnd) s0 xs) as [s c].
    destruct IH as (Fs & Fc & Hc & HE).
    change (kahan_op (RndN rnd) (s, c) x) with
      (let t1 := rnd (x - c) in let t2 := rnd (s + t1) in (t2, rnd (rnd (t2 - s) - t1))). cbv zeta.
    assert (HM := Mag_nonneg s0 xs). set (M := Mag s0 xs) in *.
    destruct (rm_sub _ _ _ HR x c Hx Fc) as (e1 & He1 & Ey). rewrite Ey.
    assert (Fy : F ((x - c) * (1 + e1))) by (rewrite <- Ey; apply (rm_format _ _ _ HR)).
    destruct (rm_add _ _ _ HR s _ Fs Fy) as (e2 & He2 & Es). rewrite Es.
    assert (Fs' : F ((s + (x - c) * (1 + e1)) * (1 + e2))) by (rewrite <- Es; apply (rm_format _ _ _ HR)).
    destruct (rm_sub _ _ _ HR _ s Fs' Fs) as (e3 & He3 & Et). rewrite Et.
    assert (Ft : F (((s + (x - c) * (1 + e1)) * (1 + e2) - s) * (1 + e3)))
      by (rewrite <- Et; apply (rm_format _ _ _ HR)).
    destruct (rm_sub _ _ _ HR _ _ Ft Fy) as (e4 & He4 & Ec). rewrite Ec.
    assert (HS : Rabs s <= 9 / 8 * M).
    { replace s with (Exact s0 xs + c + ((s - c) - Exact s0 xs)) by ring.
      eapply Rle_trans.
      - apply Rabs_add_le; [apply Rabs_add_le; [apply Exact_Mag | exact Hc] | exact HE].
      - fold M. assert (u * M <= 1 / 100 * M) by (apply Rmult_le_compat_r; lra).
        assert (INR (length xs) * (u * u) * M <= 1 / 120 * M) by (apply Rmult_le_compat_r; lra).
        lra. }
    destruct (kahan_step u M s c x e1 e2 e3 e4 Hu HM Hc HS He1 He2 He3 He4) as [Hc' HE'].
    cbv zeta in Hc', HE'.
    assert (EM : Mag s0 (xs ++ [x]) = M + Rabs x) by (unfold M, Mag; rewrite total_snocR; symmetry; apply Rplus_assoc).
    assert (EE : Exact s0 (xs ++ [x]) = Exact s0 xs + x) by (unfold Exact; rewrite total_snocR; symmetry; apply Rplus_assoc).
    rewrite EM, EE. assert (HX := Rabs_pos x).
    split; [exact Fs'|]. split; [rewrite <- Ec; apply (rm_format _ _ _ HR)|]. split; [exact Hc'|].
    set (s' := (s + (x - c) * (1 + e1)) * (1 + e2)) in *.
    set (c' := ((s' - s) * (1 + e3) - (x - c) * (1 + e1)) * (1 + e4)) in *.
    replace (s' - c' - (Exact s0 xs + x)) with ((s - c - Exact s0 xs) + (s' - c' - (s - c) - x)) by ring.
    eapply Rle_trans; [apply Rabs_add_le; [exact HE | exact HE']|].
    rewrite app_length, plus_INR. cbn [length INR].
    assert (0 <= INR (length xs)) by apply pos_INR.
    assert (0 <= INR (length xs) * (u * u) * Rabs x).
    { apply Rmult_le_pos; [apply Rmult_le_pos|]; assumption. }
    lra.
Qed.

Lemma kahan_bound s0 xs :
  F s0 -> Forall F xs -> INR (length xs) * (u * u) <= 1 / 120 ->
  Rabs (fst (kahan_run (RndN rnd) s0 xs) - Exact s0 xs)
  <= (5 * u + 9 * INR (length xs) * (u * u)) * Mag s0 xs.
Proof.
  intros HF0 HF Hn. assert (H := kahan_inv s0 xs HF0 HF Hn).
  destruct (kahan_run (RndN rnd) s0 xs) as [s c]. destruct H as (_ & _ & Hc & HE). cbn [fst].
  replace (s - Exact s0 xs) with (c + (s - c - Exact s0 xs)) by ring.
  eapply Rle_trans; [apply Rabs_add_le; [exact Hc | exact HE]|]. lra.
Qed.

(** weighted: the products are rounded first, then summed in the same way *)
Lemma weighted_kahan_run_eq s0 h :
  weighted_kahan_run (RndN rnd) s0 h
  = kahan_run (RndN rnd) (rnd (s0 * 1)) (map (fun p => rnd (fst p * snd p)) h).
Proof.
  unfold weighted_kahan_run, weighted_kahan_init, kahan_run, kahan_init.
  change (mul (RndN rnd) s0 (one (RndN rnd))) with (rnd (s0 * 1)).
  match goal with |- fold_left _ _ ?i = fold_left _ _ _ => generalize i end.
  induction h as [|[x w] h IH]; intros st; cbn [fold_left map fst snd]; [reflexivity|].
  rewrite IH. destruct st. reflexivity.
Qed.
End Kahan.

(** binary64 without overflow *)
From Flocq Require Import Core Relative Plus_error.

Definition b64_format : R -> Prop := generic_format radix2 (FLT_exp (-1074) 53).
Definition b64_round : R -> R := round radix2 (FLT_exp (-1074) 53) ZnearestE.
Definition b64_u : R := bpow radix2 (-53).

Lemma b64_rounding : RoundingModel b64_format b64_round b64_u.
Proof.
  assert (Hadd : forall x y, b64_format x -> b64_format y ->
           exists d, Rabs d <= b64_u /\ b64_round (x + y) = (x + y) * (1 + d)).
  { intros x y Hx Hy.
    assert (P53 : Prec_gt_0 53) by reflexivity.
    destruct (FLT_plus_error_N_ex radix2 (-1074) 53 (fun x => negb (Z.even x)) x y Hx Hy) as (d & Hd & E).
    exists d. split; [|exact E]. eapply Rle_trans; [exact Hd|].
    unfold u_ro, b64_u. 
    assert (H : / 2 * bpow radix2 (- (53) + 1) = bpow radix2 (-53)).
    { change (/ 2) with (bpow radix2 (-1)). rewrite <- bpow_plus. reflexivity. }
    rewrite H. assert (Hp := bpow_gt_0 radix2 (-53)).
    apply Rmult_le_reg_r with (1 + bpow radix2 (-53)); [lra|].
    unfold Rdiv. rewrite Rmult_assoc, Rinv_l by lra. nra. }
  constructor.
  - intros x. apply generic_format_round; try typeclasses eauto.
    apply FLT_exp_valid. reflexivity.
  - apply generic_format_0.
  - exact Hadd.
  - intros x y Hx Hy. apply (Hadd x (- y) Hx). apply generic_format_opp. exact Hy.
Qed.

Lemma b64_u_small : 0 <= b64_u <= 1 / 100.
Proof.
  unfold b64_u. split; [apply bpow_ge_0|].
  apply Rle_trans with (bpow radix2 (-7)); [apply bpow_le; lia|].
  cbn. lra.
Qed.

Lemma weighted_kahan_b64 (s0 : R) (h : list (R * R)) : b64_format s0 ->
  INR (length h) * (b64_u * b64_u) <= 1 / 120 ->
  let ps := map (fun p => b64_round (fst p * snd p)) h in
  Rabs (fst (weighted_kahan_run (RndN b64_round) s0 h) - (s0 + total RN (fun x => x) ps))
  <= (5 * b64_u + 9 * INR (length h) * (b64_u * b64_u)) * (Rabs s0 + total RN Rabs ps).
Proof.
  intros Hs0 Hn ps. rewrite weighted_kahan_run_eq.
  assert (E : b64_round (s0 * 1) = s0).
  { rewrite Rmult_1_r. apply round_generic; [typeclasses eauto | exact Hs0]. }
  rewrite E. fold ps. replace (length h) with (length ps) in * by apply map_length.
  apply (kahan_bound b64_format b64_round b64_u b64_rounding b64_u_small); try assumption.
  apply Forall_forall. intros x Hx. apply in_map_iff in Hx as (p & <- & _).
  apply (rm_format _ _ _ b64_rounding).
Qed.

Lemma b64_example : b64_format 0 /\ b64_format 1 /\ INR 3 * (b64_u * b64_u) <= 1 / 120.
Proof.
  split; [apply generic_format_0|]. split.
  - change 1 with (bpow radix2 0). apply generic_format_bpow. cbn. lia.
  - assert (Hu : 0 <= b64_u <= 1 / 100) by exact b64_u_small. cbn [INR]. nra.
Qed.
