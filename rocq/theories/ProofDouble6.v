(** Rolling mean and variance of doubles. *)
From Coq Require Import ZArith List Bool Reals Lra Lia Arith.
From Flocq Require Import Core IEEE754.BinarySingleNaN.
From Verif Require Import Num NumFacts ModelBasic ModelRolling ModelRounding ModelDouble SpecStats SpecRolling SpecDouble
  ProofBasic ProofRolling ProofKahan ProofDouble ProofDouble2 ProofDouble3 ProofDouble4 ProofDouble5.
Import ListNotations.
Local Open Scope R_scope.

Lemma round_between lo hi r : b64_format lo -> b64_format hi -> lo <= r <= hi -> lo <= b64_round r <= hi.
Proof.
  intros Fl Fh [L H]. split; [rewrite <- (round_format lo Fl) | rewrite <- (round_format hi Fh)]; apply round_le; assumption.
Qed.
Lemma multiple r : b64_format r -> exists m, r = IZR m * bpow radix2 (-1074).
Proof.
  intros F. apply generic_format_FIX_FLT, FIX_format_generic in F. destruct F as [[m e] E He]. cbn in He. subst e. exists m. rewrite E. reflexivity.
Qed.

(** Rounding the difference of two doubles and dividing by two or more does not overshoot. *)
Lemma shrink (a b : double) (c : nat) : val b < val a -> (2 <= c)%nat ->
  0 <= b64_round (b64_round (val a - val b) / INR c) <= val a - val b.
Proof.
  intros L C. assert (Hu := roundoff_small). assert (Ht := tiny_pos).
  assert (C2 : 2 <= INR c) by (replace 2 with (INR 2) by (cbn; lra); apply le_INR; exact C).
  assert (F0 : b64_format 0) by apply generic_format_0.
  set (g := val a - val b) in *. assert (G : 0 < g) by (unfold g; lra).
  assert (D0 : 0 <= b64_round g) by (rewrite <- (round_format 0 F0); apply round_le; lra).
  assert (Q0 : 0 <= b64_round g / INR c) by (apply Rmult_le_pos; [exact D0 | left; apply Rinv_0_lt_compat; lra]).
  split; [rewrite <- (round_format 0 F0); apply round_le; exact Q0 |].
  assert (H : b64_round g / INR c <= b64_round g / 2).
  { unfold Rdiv. apply Rmult_le_compat_l; [exact D0 |]. apply Rinv_le; lra. }
  assert (Q : b64_round (b64_round g / INR c) <= b64_round (b64_round g / 2)) by (apply round_le; exact H).
  eapply Rle_trans; [exact Q |].
  destruct (multiple (val a) (val_format a)) as [ma Ea]. destruct (multiple (val b) (val_format b)) as [mb Eb].
  set (e := bpow radix2 (-1074)) in *. assert (Pe : 0 < e) by apply bpow_gt_0.
  assert (Eg : g = IZR (ma - mb) * e) by (unfold g; rewrite Ea, Eb, minus_IZR; ring).
  assert (Pm : (1 <= ma - mb)%Z).
  { destruct (Z_lt_le_dec 0 (ma - mb)) as [P | P]; [lia |]. exfalso. apply IZR_le in P. rewrite Eg in G. nra. }
  destruct (Z.eq_dec (ma - mb) 1) as [E1 | E1].
  - assert (Fg : b64_format g) by (rewrite Eg, E1, Rmult_1_l; apply generic_format_bpow; unfold FLT_exp; lia).
    rewrite (round_format g Fg). rewrite <- (round_format g Fg) at 2. apply round_le. lra.
  - assert (G2 : 2 * e <= g) by (rewrite Eg; apply Rmult_le_compat_r; [lra | apply IZR_le; lia]).
    assert (Te : tiny = / 2 * e) by apply tiny_is.
    destruct (round_sub a b) as (d & Hd & Rd). fold g in Rd. apply Rabs_le_inv in Hd.
    destruct (round_any (b64_round g / 2)) as (d' & e' & Hd' & He' & Rd'). apply Rabs_le_inv in Hd'. apply Rabs_le_inv in He'.
    rewrite Rd', Rd. nra.
Qed.

Definition d_toward (mean a b : double) (c : nat) : double := toward DoubleN mean a b c.
Lemma toward_is mean a b c : d_toward mean a b c
  = if d_lt b a then d_sub mean (d_div (d_sub a b) (ofnat DoubleN c)) else if d_lt a b then d_add mean (d_div (d_sub b a) (ofnat DoubleN c)) else mean.
Proof. reflexivity. Qed.

Lemma bpow_2 k : bpow radix2 k + bpow radix2 k = bpow radix2 (k + 1).
Proof. rewrite bpow_plus. change (bpow radix2 1) with 2. ring. Qed.
Lemma bpow_format k : (-1000 <= k)%Z -> b64_format (bpow radix2 k).
Proof. intros H. apply generic_format_bpow. unfold FLT_exp. lia. Qed.

(** The difference of two samples of at most 2^k, divided by a count. *)
Lemma gap_ok k (a b : double) c : (-1000 <= k)%Z -> (k <= 1000)%Z -> (1 <= c)%nat -> (Z.of_nat c <= 2 ^ 53)%Z ->
  finite a -> finite b -> Rabs (val a) <= bpow radix2 k -> Rabs (val b) <= bpow radix2 k ->
  let q := d_div (d_sub a b) (ofnat DoubleN c) in
  finite q /\ val q = b64_round (b64_round (val a - val b) / INR c) /\ Rabs (val q) <= bpow radix2 (k + 1).
Proof.
  intros K K' C1 C2 Fa Fb Ba Bb. cbv zeta. destruct (ofnat_exact c C2) as [Fc Ec].
  assert (Pc : 1 <= INR c) by (replace 1 with (INR 1) by reflexivity; apply le_INR; exact C1).
  assert (B1 : Rabs (b64_round (B2R a - B2R b)) <= bpow radix2 (k + 1)).
  { apply round_abs; [apply bpow_format; lia |]. rewrite <- bpow_2. unfold Rminus. apply Rabs_add_le; [exact Ba | rewrite Rabs_Ropp; exact Bb]. }
  destruct (sub_ok a b Fa Fb) as [F1 E1]; [eapply Rle_lt_trans; [exact B1 | apply bpow_lt; lia] |].
  rewrite <- E1 in B1.
  assert (B2 : Rabs (b64_round (B2R (d_sub a b) / B2R (ofnat DoubleN c))) <= bpow radix2 (k + 1)).
  { apply round_abs; [apply bpow_format; lia |]. rewrite Ec. unfold Rdiv. rewrite Rabs_mult, (Rabs_pos_eq (/ _)) by (left; apply Rinv_0_lt_compat; lra).
    apply Rmult_le_reg_r with (INR c); [lra |]. rewrite Rmult_assoc, Rinv_l, Rmult_1_r by lra.
    assert (P := bpow_ge_0 radix2 (k + 1)). assert (bpow radix2 (k + 1) * 1 <= bpow radix2 (k + 1) * INR c) by (apply Rmult_le_compat_l; lra). lra. }
  destruct (div_ok (d_sub a b) (ofnat DoubleN c)) as [F2 E2]; [rewrite Ec; lra | exact F1 | eapply Rle_lt_trans; [exact B2 | apply bpow_lt; lia] |].
  rewrite <- E2 in B2. split; [exact F2 |]. split; [unfold val; rewrite E2, Ec, E1; reflexivity | exact B2].
Qed.

(** While the window fills the mean moves towards the sample and not beyond it. *)
Lemma toward_between k (m x : double) c : (-1000 <= k)%Z -> (k <= 1000)%Z -> (1 <= c)%nat -> (Z.of_nat c <= 2 ^ 53)%Z ->
  finite m -> finite x -> Rabs (val m) <= bpow radix2 k -> Rabs (val x) <= bpow radix2 k -> (c = 1%nat -> val m = 0) ->
  let m' := d_toward m m x c in finite m' /\ Rmin (val m) (val x) <= val m' <= Rmax (val m) (val x) /\ Rabs (val m') <= bpow radix2 k.
Proof.
  intros K K' C1 C2 Fm Fx Bm Bx H1. cbv zeta.
  cut (finite (d_toward m m x c) /\ Rmin (val m) (val x) <= val (d_toward m m x c) <= Rmax (val m) (val x)).
  { intros [F [L U]]. split; [exact F |]. split; [split; assumption |]. apply Rabs_le. apply Rabs_le_inv in Bm. apply Rabs_le_inv in Bx.
    unfold Rmin, Rmax in L, U. destruct (Rle_dec _ _); lra. }
  rewrite toward_is. destruct (d_lt x m) eqn:L1; [| destruct (d_lt m x) eqn:L2].
  - apply lt_true in L1; [| exact Fx | exact Fm].
    destruct (gap_ok k m x c K K' C1 C2 Fm Fx Bm Bx) as (Fq & Eq & Bq). set (q := d_div (d_sub m x) (ofnat DoubleN c)) in *.
    assert (Q : 0 <= val q <= val m - val x).
    { rewrite Eq. destruct (Nat.eq_dec c 1) as [-> | N1]; [| apply shrink; [exact L1 | lia]].
      rewrite H1 by reflexivity. replace (0 - val x) with (- val x) by ring. cbn [INR].
      assert (Fo : b64_format (- val x)) by (apply generic_format_opp, val_format).
      rewrite (round_format _ Fo). replace (- val x / 1) with (- val x) by field. rewrite (round_format _ Fo).
      unfold val in *. rewrite (H1 eq_refl) in L1. lra. }
    assert (R : val x <= b64_round (val m - val q) <= val m).
    { apply round_between; [apply val_format | apply val_format | lra]. }
    destruct (sub_ok m q Fm Fq) as [F E].
    { fold (val m) (val q). apply Rle_lt_trans with (bpow radix2 k); [| apply bpow_lt; lia]. apply Rabs_le. apply Rabs_le_inv in Bm. apply Rabs_le_inv in Bx. lra. }
    split; [exact F |]. change (val (d_sub m q)) with (B2R (d_sub m q)). rewrite E.
    unfold Rmin, Rmax. unfold val in *. destruct (Rle_dec _ _); lra.
  - apply lt_true in L2; [| exact Fm | exact Fx].
    destruct (gap_ok k x m c K K' C1 C2 Fx Fm Bx Bm) as (Fq & Eq & Bq). set (q := d_div (d_sub x m) (ofnat DoubleN c)) in *.
    assert (Q : 0 <= val q <= val x - val m).
    { rewrite Eq. destruct (Nat.eq_dec c 1) as [-> | N1]; [| apply shrink; [exact L2 | lia]].
      rewrite H1 by reflexivity. replace (val x - 0) with (val x) by ring. cbn [INR].
      rewrite (round_format _ (val_format x)). replace (val x / 1) with (val x) by field. rewrite (round_format _ (val_format x)).
      unfold val in *. rewrite (H1 eq_refl) in L2. lra. }
    assert (R : val m <= b64_round (val m + val q) <= val x).
    { apply round_between; [apply val_format | apply val_format | lra]. }
    destruct (add_ok m q Fm Fq) as [F E].
    { fold (val m) (val q). apply Rle_lt_trans with (bpow radix2 k); [| apply bpow_lt; lia]. apply Rabs_le. apply Rabs_le_inv in Bm. apply Rabs_le_inv in Bx. lra. }
    split; [exact F |]. change (val (d_add m q)) with (B2R (d_add m q)). rewrite E.
    unfold Rmin, Rmax. unfold val in *. destruct (Rle_dec _ _); lra.
  - split; [exact Fm |]. unfold Rmin, Rmax. destruct (Rle_dec _ _); lra.
Qed.

Lemma nat53 n : (Z.of_nat n <= 2 ^ 53)%Z -> INR n <= bpow radix2 53.
Proof. intros H. rewrite INR_IZR_INZ, <- IZR_Zpower by lia. apply IZR_le. change (Zpower radix2 53) with (2 ^ 53)%Z. exact H. Qed.

(** The distance of a sample from the mean. *)
Lemma off_ok k (a m : double) n : (-400 <= k)%Z -> (k <= 400)%Z -> (Z.of_nat n <= 2 ^ 53)%Z ->
  finite a -> finite m -> Rabs (val a) <= bpow radix2 k -> Rabs (val m) <= INR n * bpow radix2 (k + 1) ->
  finite (d_sub a m) /\ val (d_sub a m) = b64_round (val a - val m) /\ Rabs (val (d_sub a m)) <= bpow radix2 (k + 55).
Proof.
  intros K K' N Fa Fm Ba Bm.
  assert (B : Rabs (b64_round (B2R a - B2R m)) <= bpow radix2 (k + 55)).
  { apply round_abs; [apply bpow_format; lia |]. unfold Rminus. replace (k + 55)%Z with (k + 54 + 1)%Z by lia. rewrite <- bpow_2.
    apply Rabs_add_le; [eapply Rle_trans; [exact Ba | apply bpow_le; lia] |]. rewrite Rabs_Ropp. eapply Rle_trans; [exact Bm |].
    replace (k + 54)%Z with (53 + (k + 1))%Z by lia. rewrite (bpow_plus _ 53). apply Rmult_le_compat_r; [apply bpow_ge_0 | apply nat53; exact N]. }
  destruct (sub_ok a m Fa Fm) as [F E]; [eapply Rle_lt_trans; [exact B | apply bpow_lt; lia] |].
  rewrite <- E in B. split; [exact F |]. split; [exact E | exact B].
Qed.
Lemma product_ok k (a b : double) : (-400 <= k)%Z -> (k <= 400)%Z -> finite a -> finite b ->
  Rabs (val a) <= bpow radix2 (k + 55) -> Rabs (val b) <= bpow radix2 (k + 55) ->
  finite (d_mul a b) /\ val (d_mul a b) = b64_round (val a * val b) /\ Rabs (val (d_mul a b)) <= bpow radix2 (2 * k + 110).
Proof.
  intros K K' Fa Fb Ba Bb.
  assert (B : Rabs (b64_round (B2R a * B2R b)) <= bpow radix2 (2 * k + 110)).
  { apply round_abs; [apply bpow_format; lia |]. replace (2 * k + 110)%Z with ((k + 55) + (k + 55))%Z by lia. rewrite bpow_plus. apply Rabs_mul_le; assumption. }
  destruct (mul_ok a b Fa Fb) as [F E]; [eapply Rle_lt_trans; [exact B | apply bpow_lt; lia] |].
  rewrite <- E in B. split; [exact F |]. split; [exact E | exact B].
Qed.

Lemma round_pos r : 0 <= r -> 0 <= b64_round r.
Proof. intros H. rewrite <- (round_format 0 (generic_format_0 _ _)). apply round_le. exact H. Qed.
Lemma round_neg r : r <= 0 -> b64_round r <= 0.
Proof. intros H. rewrite <- (round_format 0 (generic_format_0 _ _)). apply round_le. exact H. Qed.

Definition RInv (k : Z) (N n : nat) (s : roll DoubleN) : Prop :=
  finite (r_mean s) /\ Rabs (val (r_mean s)) <= INR n * bpow radix2 (k + 1) /\ ((n <= N)%nat -> Rabs (val (r_mean s)) <= bpow radix2 k)
  /\ finite (r_ss s) /\ 0 <= val (r_ss s) <= INR (2 * n) * bpow radix2 (2 * k + 110).

Lemma r_var_step N M (xs : list double) (x : double) s' : (1 <= M)%nat -> rolling N M (xs ++ [x]) s' -> exists s, rolling N M xs s /\
  ((exists y, LastN N xs ++ [x] = y :: LastN N (xs ++ [x]) /\ length (LastN N xs) = N /\ r_mean s' = d_toward (r_mean s) y x (Nat.min (length (xs ++ [x])) N) /\
      r_ss s' = prevent_underflow DoubleN (d_sub (d_add (r_ss s) (d_mul (d_sub x (r_mean s')) (d_sub x (r_mean s)))) (d_mul (d_sub y (r_mean s')) (d_sub y (r_mean s)))))
   \/ ((length xs < N)%nat /\ r_mean s' = d_toward (r_mean s) (r_mean s) x (S (length xs)) /\
       r_ss s' = d_add (r_ss s) (d_mul (d_sub x (r_mean s')) (d_sub x (r_mean s))))).
Proof. exact (roll_var_step DoubleN N M d_zero xs x s'). Qed.

Lemma clamp_value (x : double) : finite x -> finite (prevent_underflow DoubleN x) /\ val (prevent_underflow DoubleN x) = Rmax 0 (val x).
Proof.
  intros F. unfold prevent_underflow. change (ltb DoubleN x (zero DoubleN)) with (d_lt x d_zero). destruct (d_lt x d_zero) eqn:L.
  - split; [reflexivity |]. apply (lt_true x d_zero F eq_refl) in L. change (B2R d_zero) with 0 in L. change (val (zero DoubleN)) with 0.
    unfold val, Rmax. destruct (Rle_dec _ _); lra.
  - split; [exact F |]. apply (lt_false x d_zero F eq_refl) in L. change (B2R d_zero) with 0 in L. unfold val, Rmax. destruct (Rle_dec _ _); lra.
Qed.

Lemma rolling_invariant k N M xs : (1 <= M)%nat -> (1 <= N)%nat -> (-400 <= k)%Z -> (k <= 400)%Z -> (Z.of_nat (length xs) < 2 ^ 52)%Z ->
  Within (bpow radix2 k) xs -> forall s, rolling N M xs s -> RInv k N (length xs) s.
Proof.
  intros HM HN K K'. induction xs as [|x xs IH] using rev_ind; intros C W s E.
  - injection E as <-. assert (P := bpow_ge_0 radix2 k).
    assert (V : val (r_mean (roll_init DoubleN d_zero)) = 0) by reflexivity.
    assert (V' : val (r_ss (roll_init DoubleN d_zero)) = 0) by reflexivity.
    unfold RInv. rewrite V, V', Rabs_R0. change (INR (length (@nil double))) with 0. change (INR (2 * length (@nil double))) with 0. rewrite !Rmult_0_l. repeat split; intros; try reflexivity; try apply Rle_refl; exact P.
  - rewrite app_length in *. cbn [length] in *. rewrite Nat.add_1_r in *. set (n := length xs) in *.
    apply Forall_app in W as [W Wx]. inversion Wx as [|? ? [Fx Bx] _]; subst.
    destruct (r_var_step N M xs x s HM E) as (r & Er & Step).
    destruct (IH ltac:(lia) W r Er) as (Fm & Bm & Bm' & Fv & V0 & V1).
    set (m := r_mean r) in *. set (m' := r_mean s) in *. set (v := r_ss r) in *.
    set (P := bpow radix2 (2 * k + 110)) in *. assert (PP : 0 < P) by apply bpow_gt_0.
    assert (Pk : 0 < bpow radix2 k) by apply bpow_gt_0.
    assert (Pk1 : bpow radix2 (k + 1) = 2 * bpow radix2 k) by (rewrite <- bpow_2; ring).
    assert (I2 : forall j, INR (S j) * P = INR j * P + P) by (intros j; rewrite S_INR; ring).
    assert (Em' : finite m' /\ Rabs (val m') <= INR (S n) * bpow radix2 (k + 1) /\ ((S n <= N)%nat -> Rabs (val m') <= bpow radix2 k)).
    { destruct Step as [(y & Ey & Lw & Em & _) | (LN & Em & _)].
      - rewrite app_length in Em. cbn [length] in Em. fold n in Em. rewrite Nat.add_1_r in Em.
        assert (HnN : (N <= n)%nat) by (rewrite LastN_length in Lw; fold n in Lw; lia).
        replace (Nat.min (S n) N) with N in Em by lia.
        assert (NZ : (Z.of_nat N <= 2 ^ 53)%Z) by lia.
        assert (Wy : finite y /\ Rabs (val y) <= bpow radix2 k).
        { assert (Ww : Within (bpow radix2 k) (LastN N xs ++ [x])) by (apply Forall_app; split; [apply LastN_Forall; exact W | exact Wx]).
          rewrite Ey in Ww. inversion Ww; assumption. }
        destruct Wy as [Fy By].
        assert (G : forall q, finite q -> Rabs (val q) <= bpow radix2 (k + 1) ->
                    (finite (d_sub m q) /\ Rabs (val (d_sub m q)) <= INR (S n) * bpow radix2 (k + 1)) /\
                    (finite (d_add m q) /\ Rabs (val (d_add m q)) <= INR (S n) * bpow radix2 (k + 1))).
        { intros q Fq Bq. assert (Sm : INR (S n) * bpow radix2 (k + 1) < bpow radix2 1024) by (apply scaled_small; lia).
          assert (SI : INR (S n) * bpow radix2 (k + 1) = INR n * bpow radix2 (k + 1) + bpow radix2 (k + 1)) by (rewrite S_INR; ring).
          assert (A1 : Rabs (b64_round (B2R m - B2R q)) <= INR (S n) * bpow radix2 (k + 1)).
          { apply round_abs; [apply scaled_format; lia |]. rewrite SI. unfold Rminus. apply Rabs_add_le; [exact Bm | rewrite Rabs_Ropp; exact Bq]. }
          assert (A2 : Rabs (b64_round (B2R m + B2R q)) <= INR (S n) * bpow radix2 (k + 1)).
          { apply round_abs; [apply scaled_format; lia |]. rewrite SI. apply Rabs_add_le; [exact Bm | exact Bq]. }
          destruct (sub_ok m q Fm Fq) as [S1 S2]; [lra |]. destruct (add_ok m q Fm Fq) as [S3 S4]; [lra |].
          unfold val. rewrite S2, S4. auto. }
        cut (finite m' /\ Rabs (val m') <= INR (S n) * bpow radix2 (k + 1)); [intros [X Y]; repeat split; auto; lia |].
        rewrite Em, toward_is.
        destruct (gap_ok k y x N ltac:(lia) ltac:(lia) HN NZ Fy Fx By Bx) as (Fq & _ & Bq).
        destruct (gap_ok k x y N ltac:(lia) ltac:(lia) HN NZ Fx Fy Bx By) as (Fq' & _ & Bq').
        destruct (d_lt x y); [apply (G _ Fq Bq) |]. destruct (d_lt y x); [apply (G _ Fq' Bq') |].
        split; [exact Fm |]. eapply Rle_trans; [exact Bm |]. apply Rmult_le_compat_r; [lra | apply le_INR; lia].
      - rewrite Em. destruct (toward_between k m x (S n)) as (F & _ & B); try assumption; try lia.
        + apply Bm'. lia.
        + intros S1. assert (n0 : n = 0%nat) by lia. rewrite n0 in Bm. cbn in Bm. rewrite Rmult_0_l in Bm.
          destruct (Req_dec (val m) 0); [assumption |]. exfalso. assert (0 < Rabs (val m)) by (apply Rabs_pos_lt; assumption). lra.
        + split; [exact F |]. split; [| intros _; exact B]. eapply Rle_trans; [exact B |]. rewrite Pk1, S_INR. assert (0 <= INR n) by apply pos_INR. nra. }
    destruct Em' as (Fm' & Bm1 & Bm2).
    destruct (off_ok k x m' (S n) K K' ltac:(lia) Fx Fm' Bx Bm1) as (F1 & E1 & B1).
    destruct (off_ok k x m n K K' ltac:(lia) Fx Fm Bx Bm) as (F2 & E2 & B2).
    destruct (product_ok k _ _ K K' F1 F2 B1 B2) as (F3 & E3 & B3). set (p := d_mul (d_sub x m') (d_sub x m)) in *.
    assert (S53 : forall j, (j <= 2 * S n)%nat -> (Z.of_nat j <= 2 ^ 53)%Z) by (intros; lia).
    assert (A : Rabs (b64_round (B2R v + B2R p)) <= INR (S (2 * n)) * P).
    { apply round_abs; [apply scaled_format; [apply S53; lia | lia] |]. rewrite I2. apply Rabs_add_le; [| exact B3].
      fold (val v). rewrite Rabs_pos_eq by lra. exact V1. }
    assert (Sm : forall j, (j <= 2 * S n)%nat -> INR j * P < bpow radix2 1024) by (intros j Hj; apply scaled_small; [apply S53; exact Hj | lia]).
    destruct (add_ok v p Fv F3) as [F4 E4]; [eapply Rle_lt_trans; [exact A | apply Sm; lia] |].
    rewrite <- E4 in A.
    unfold RInv. fold m'. replace (2 * S n)%nat with (S (S (2 * n))) by lia.
    assert (Vs : finite (r_ss s) /\ 0 <= val (r_ss s) <= INR (S (S (2 * n))) * P); [| tauto].
    destruct Step as [(y & Ey & Lw & Em & Ess) | (LN & Em & Ess)]; fold m in Ess; fold v in Ess; fold p in Ess.
    + assert (Wy : finite y /\ Rabs (val y) <= bpow radix2 k).
      { assert (Ww : Within (bpow radix2 k) (LastN N xs ++ [x])) by (apply Forall_app; split; [apply LastN_Forall; exact W | exact Wx]).
        rewrite Ey in Ww. inversion Ww; assumption. }
      destruct Wy as [Fy By].
      destruct (off_ok k y m' (S n) K K' ltac:(lia) Fy Fm' By Bm1) as (G1 & _ & D1).
      destruct (off_ok k y m n K K' ltac:(lia) Fy Fm By Bm) as (G2 & _ & D2).
      destruct (product_ok k _ _ K K' G1 G2 D1 D2) as (G3 & _ & D3). set (q := d_mul (d_sub y m') (d_sub y m)) in *.
      assert (A' : Rabs (b64_round (B2R (d_add v p) - B2R q)) <= INR (S (S (2 * n))) * P).
      { apply round_abs; [apply scaled_format; [apply S53; lia | lia] |]. rewrite I2. unfold Rminus. apply Rabs_add_le; [exact A | rewrite Rabs_Ropp; exact D3]. }
      destruct (sub_ok (d_add v p) q F4 G3) as [F5 E5]; [eapply Rle_lt_trans; [exact A' | apply Sm; lia] |].
      rewrite <- E5 in A'. rewrite Ess. destruct (clamp_value (d_sub (d_add v p) q) F5) as [F6 E6]. split; [exact F6 |]. rewrite E6.
      apply Rabs_le_inv in A'. unfold val, Rmax. destruct (Rle_dec _ _); [lra |]. split; [lra |]. apply Rmult_le_pos; [apply pos_INR | lra].
    + rewrite Ess. split; [exact F4 |]. apply Rabs_le_inv in A. rewrite I2. unfold val. split; [| lra]. rewrite E4. apply round_pos.
      assert (p0 : 0 <= val p); [| unfold val in *; lra]. rewrite E3. apply round_pos. rewrite E1, E2.
      destruct (toward_between k m x (S n)) as (_ & [T1 T2] & _); try assumption; try lia.
      * apply Bm'. lia.
      * intros S1. assert (n0 : n = 0%nat) by lia. rewrite n0 in Bm. cbn in Bm. rewrite Rmult_0_l in Bm.
        destruct (Req_dec (val m) 0); [assumption |]. exfalso. assert (0 < Rabs (val m)) by (apply Rabs_pos_lt; assumption). lra.
      * fold n in Em. rewrite <- Em in T1, T2. unfold Rmin, Rmax in T1, T2. destruct (Rle_dec (val m) (val x)).
        -- apply Rmult_le_pos; apply round_pos; lra.
        -- assert (b64_round (val x - val m') <= 0) by (apply round_neg; lra). assert (b64_round (val x - val m) <= 0) by (apply round_neg; lra). nra.
Qed.

(** The rolling variance. *)
Lemma r_count N M xs s : (1 <= M)%nat -> rolling N M xs s -> ro_count DoubleN N s = Nat.min (length xs) N.
Proof. intros HM E. unfold ro_count. rewrite (roll_run_buf DoubleN N M d_zero xs HM s E). apply count_of_buf. Qed.

Lemma r_variance_ok N M xs : (1 <= M)%nat -> (Z.of_nat (length xs) < 2 ^ 52)%Z -> Within (bpow radix2 400) xs ->
  forall s, rolling N M xs s -> finite (r_variance N s) /\ 0 <= val (r_variance N s).
Proof.
  intros HM C W s E. unfold r_variance, ro_variance, rolling_variance_result. rewrite (r_count N M xs s HM E).
  destruct (Nat.ltb_spec (Nat.min (length xs) N) 2) as [L | L]; [split; [reflexivity | right; reflexivity] |].
  destruct (rolling_invariant 400 N M xs HM ltac:(lia) ltac:(lia) ltac:(lia) C W s E) as (_ & _ & _ & F & V0 & V1).
  change (div DoubleN (snd (ro_var DoubleN s)) (ofnat DoubleN (Nat.min (length xs) N - 1))) with (d_div (r_ss s) (ofnat DoubleN (Nat.min (length xs) N - 1))).
  set (c := (Nat.min (length xs) N - 1)%nat) in *.
  destruct (ofnat_exact c) as [Fc Ec]; [unfold c; lia |].
  assert (Pc : 1 <= INR c) by (replace 1 with (INR 1) by reflexivity; apply le_INR; unfold c; lia).
  assert (X : 0 <= B2R (r_ss s) / INR c <= INR (2 * length xs) * bpow radix2 (2 * 400 + 110)).
  { split; [apply Rmult_le_pos; [exact V0 | left; apply Rinv_0_lt_compat; lra] |]. eapply Rle_trans; [| exact V1].
    apply Rmult_le_reg_r with (INR c); [lra |]. unfold Rdiv. rewrite Rmult_assoc, Rinv_l, Rmult_1_r by lra.
    unfold val in V0 |- *. assert (B2R (r_ss s) * 1 <= B2R (r_ss s) * INR c) by (apply Rmult_le_compat_l; lra). lra. }
  assert (Y : 0 <= b64_round (B2R (r_ss s) / INR c) <= INR (2 * length xs) * bpow radix2 (2 * 400 + 110)).
  { apply round_between; [apply generic_format_0 | apply scaled_format; lia | exact X]. }
  destruct (div_ok (r_ss s) (ofnat DoubleN c)) as [Fd Ed]; [rewrite Ec; lra | exact F | |].
  - rewrite Ec, Rabs_pos_eq by lra. eapply Rle_lt_trans; [apply Y | apply scaled_small; lia].
  - split; [exact Fd |]. unfold val. rewrite Ed, Ec. lra.
Qed.
