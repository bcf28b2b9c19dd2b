(** Facts about doubles. *)
From Coq Require Import ZArith List Bool Reals Lra Lia Arith.
From Flocq Require Import Core IEEE754.BinarySingleNaN.
From Verif Require Import Num ModelDouble ProofKahan.
Import ListNotations.
Local Open Scope R_scope.

Lemma round_is x : round radix2 (SpecFloat.fexp 53 1024) (round_mode mode_NE) x = b64_round x.
Proof. reflexivity. Qed.

Lemma overflow_inf (x : double) s : B2SF x = binary_overflow 53 1024 mode_NE s -> x = B754_infinity s.
Proof. unfold binary_overflow; cbn. destruct x; cbn; congruence. Qed.

(** ** Addition *)
Lemma add_cases (x y : double) : is_finite x = true -> is_finite y = true ->
  (is_finite (d_add x y) = true /\ B2R (d_add x y) = b64_round (B2R x + B2R y) /\
   Rabs (b64_round (B2R x + B2R y)) < bpow radix2 1024 /\
   (0 <= B2R x + B2R y -> Bsign x = false \/ Bsign y = false -> Bsign (d_add x y) = false))
  \/ (d_add x y = B754_infinity (Bsign x) /\ Bsign x = Bsign y /\ bpow radix2 1024 <= Rabs (b64_round (B2R x + B2R y))).
Proof.
  intros Fx Fy. pose proof (Bplus_correct 53 1024 prec_pos prec_max mode_NE x y Fx Fy) as H.
  rewrite round_is in H. destruct (Rlt_bool_spec (Rabs (b64_round (B2R x + B2R y))) (bpow radix2 1024)) as [L | L].
  - left. destruct H as (H1 & H2 & H3). repeat split; try assumption.
    intros P S. unfold d_add. rewrite H3. destruct (Rcompare_spec (B2R x + B2R y) 0); [lra | | reflexivity].
    destruct S as [-> | ->]; [reflexivity | apply andb_false_r].
  - right. destruct H as [H1 H2]. apply overflow_inf in H1. auto.
Qed.
Lemma add_fin (x y : double) : is_finite (d_add x y) = true ->
  is_finite x = true /\ is_finite y = true /\ B2R (d_add x y) = b64_round (B2R x + B2R y).
Proof.
  intros H.
  assert (F : is_finite x = true /\ is_finite y = true).
  { destruct x as [sx|sx| |sx mx ex Hx], y as [sy|sy| |sy my ey Hy]; try (split; reflexivity); try discriminate H.
    cbn in H. destruct (Bool.eqb sx sy); discriminate H. }
  destruct F as [Fx Fy]. repeat split; try assumption.
  destruct (add_cases x y Fx Fy) as [(_ & E & _) | (E & _)]; [exact E |]. rewrite E in H. discriminate H.
Qed.
Lemma add_ok (x y : double) : is_finite x = true -> is_finite y = true ->
  Rabs (b64_round (B2R x + B2R y)) < bpow radix2 1024 ->
  is_finite (d_add x y) = true /\ B2R (d_add x y) = b64_round (B2R x + B2R y).
Proof. intros Fx Fy L. destruct (add_cases x y Fx Fy) as [(A & E & _) | (_ & _ & E)]; [auto | lra]. Qed.

(** ** Subtraction *)
Lemma sub_cases (x y : double) : is_finite x = true -> is_finite y = true ->
  (is_finite (d_sub x y) = true /\ B2R (d_sub x y) = b64_round (B2R x - B2R y) /\
   Rabs (b64_round (B2R x - B2R y)) < bpow radix2 1024)
  \/ (d_sub x y = B754_infinity (Bsign x) /\ bpow radix2 1024 <= Rabs (b64_round (B2R x - B2R y))).
Proof.
  intros Fx Fy. pose proof (Bminus_correct 53 1024 prec_pos prec_max mode_NE x y Fx Fy) as H.
  rewrite round_is in H. destruct (Rlt_bool_spec (Rabs (b64_round (B2R x - B2R y))) (bpow radix2 1024)) as [L | L].
  - left. destruct H as (H1 & H2 & H3). repeat split; try assumption.
  - right. destruct H as [H1 H2]. apply overflow_inf in H1. auto.
Qed.
Lemma sub_fin (x y : double) : is_finite (d_sub x y) = true ->
  is_finite x = true /\ is_finite y = true /\ B2R (d_sub x y) = b64_round (B2R x - B2R y).
Proof.
  intros H.
  assert (F : is_finite x = true /\ is_finite y = true).
  { destruct x as [sx|sx| |sx mx ex Hx], y as [sy|sy| |sy my ey Hy]; try (split; reflexivity); try discriminate H.
    cbn in H. destruct (Bool.eqb sx (negb sy)); discriminate H. }
  destruct F as [Fx Fy]. repeat split; try assumption.
  destruct (sub_cases x y Fx Fy) as [(_ & E & _) | (E & _)]; [exact E |]. rewrite E in H. discriminate H.
Qed.
Lemma sub_ok (x y : double) : is_finite x = true -> is_finite y = true ->
  Rabs (b64_round (B2R x - B2R y)) < bpow radix2 1024 ->
  is_finite (d_sub x y) = true /\ B2R (d_sub x y) = b64_round (B2R x - B2R y).
Proof. intros Fx Fy L. destruct (sub_cases x y Fx Fy) as [(A & E & _) | (_ & E)]; [auto | lra]. Qed.

(** ** Multiplication *)
Lemma mul_fin (x y : double) : is_finite (d_mul x y) = true ->
  is_finite x = true /\ is_finite y = true /\ B2R (d_mul x y) = b64_round (B2R x * B2R y).
Proof.
  intros H. pose proof (Bmult_correct 53 1024 prec_pos prec_max mode_NE x y) as C. rewrite round_is in C.
  destruct (Rlt_bool _ _).
  - destruct C as (C1 & C2 & _). fold (d_mul x y) in C2. rewrite H in C2. symmetry in C2. apply andb_true_iff in C2 as [C2 C3]. auto.
  - apply overflow_inf in C. fold (d_mul x y) in C. rewrite C in H. discriminate H.
Qed.
Lemma mul_ok (x y : double) : is_finite x = true -> is_finite y = true ->
  Rabs (b64_round (B2R x * B2R y)) < bpow radix2 1024 ->
  is_finite (d_mul x y) = true /\ B2R (d_mul x y) = b64_round (B2R x * B2R y).
Proof.
  intros Fx Fy L. pose proof (Bmult_correct 53 1024 prec_pos prec_max mode_NE x y) as C. rewrite round_is in C.
  rewrite Rlt_bool_true in C by exact L. destruct C as (C1 & C2 & _). rewrite Fx, Fy in C2. auto.
Qed.

(** ** Division *)
Lemma nonzero_finite (y : double) : B2R y <> 0 -> is_finite y = true.
Proof. destruct y; cbn; auto; lra. Qed.
Lemma div_fin (x y : double) : B2R y <> 0 -> is_finite (d_div x y) = true ->
  is_finite x = true /\ B2R (d_div x y) = b64_round (B2R x / B2R y).
Proof.
  intros Z H. pose proof (Bdiv_correct 53 1024 prec_pos prec_max mode_NE x y Z) as C. rewrite round_is in C.
  destruct (Rlt_bool _ _).
  - destruct C as (C1 & C2 & _). fold (d_div x y) in C2. rewrite H in C2. auto.
  - apply overflow_inf in C. fold (d_div x y) in C. rewrite C in H. discriminate H.
Qed.
Lemma div_ok (x y : double) : B2R y <> 0 -> is_finite x = true ->
  Rabs (b64_round (B2R x / B2R y)) < bpow radix2 1024 ->
  is_finite (d_div x y) = true /\ B2R (d_div x y) = b64_round (B2R x / B2R y).
Proof.
  intros Z Fx L. pose proof (Bdiv_correct 53 1024 prec_pos prec_max mode_NE x y Z) as C. rewrite round_is in C.
  rewrite Rlt_bool_true in C by exact L. destruct C as (C1 & C2 & _). rewrite Fx in C2. auto.
Qed.

(** ** Comparison *)
Lemma lt_fin (x y : double) : is_finite x = true -> is_finite y = true -> d_lt x y = Rlt_bool (B2R x) (B2R y).
Proof. apply Bltb_correct. Qed.
Lemma lt_true (x y : double) : is_finite x = true -> is_finite y = true -> (d_lt x y = true <-> B2R x < B2R y).
Proof. intros Fx Fy. rewrite lt_fin by assumption. destruct (Rlt_bool_spec (B2R x) (B2R y)); split; auto; [discriminate | lra]. Qed.
Lemma lt_false (x y : double) : is_finite x = true -> is_finite y = true -> (d_lt x y = false <-> B2R y <= B2R x).
Proof. intros Fx Fy. rewrite lt_fin by assumption. destruct (Rlt_bool_spec (B2R x) (B2R y)); split; auto; [discriminate | lra]. Qed.

(** ** Signs: a value that is not a number, or has no minus sign *)
Definition unsigned (x : double) : Prop := is_nan x = true \/ Bsign x = false.

Lemma unsigned_not_negative x : unsigned x -> d_lt x d_zero = false.
Proof. intros [H | H]; destruct x as [s|s| |s m e He]; try discriminate H; try reflexivity; cbn in H; subst; reflexivity. Qed.
Lemma unsigned_value x : unsigned x -> 0 <= B2R x.
Proof.
  intros [H | H]; destruct x as [s|s| |s m e He]; try discriminate H; cbn; try lra.
  cbn in H; subst; cbn. apply F2R_ge_0. cbn. lia.
Qed.
Lemma unsigned_add x y : unsigned x -> unsigned y -> unsigned (d_add x y).
Proof.
  intros Ux Uy.
  destruct (is_finite x) eqn:Fx; [destruct (is_finite y) eqn:Fy |].
  - assert (Sx : Bsign x = false) by (destruct Ux as [H | H]; [destruct x; discriminate | exact H]).
    destruct (add_cases x y Fx Fy) as [(_ & _ & _ & S) | (E & _ & _)].
    + right. apply S; [| now left]. pose proof (unsigned_value x Ux). pose proof (unsigned_value y Uy). lra.
    + right. rewrite E. exact Sx.
  - destruct x as [sx|sx| |sx mx ex Hx], y as [sy|sy| |sy my ey Hy]; try discriminate; try (left; reflexivity); exact Uy.
  - destruct x as [sx|sx| |sx mx ex Hx], y as [sy|sy| |sy my ey Hy]; try discriminate; try (left; reflexivity); try exact Ux.
    cbn. destruct (Bool.eqb sx sy); [exact Ux | left; reflexivity].
Qed.
Lemma unsigned_mul_sign x y : is_nan (d_mul x y) = true \/ Bsign (d_mul x y) = xorb (Bsign x) (Bsign y).
Proof.
  destruct (is_nan (d_mul x y)) eqn:N; [now left | right].
  pose proof (Bmult_correct 53 1024 prec_pos prec_max mode_NE x y) as C.
  destruct (Rlt_bool _ _); [now apply C |]. apply overflow_inf in C. unfold d_mul. now rewrite C.
Qed.
Lemma unsigned_square x : unsigned (d_mul x x).
Proof. destruct (unsigned_mul_sign x x) as [H | H]; [now left | right; rewrite H; apply xorb_nilpotent]. Qed.
Lemma unsigned_mul x y : unsigned x -> unsigned y -> unsigned (d_mul x y).
Proof.
  intros [Nx | Sx] Uy; [destruct x; try discriminate; left; reflexivity |].
  destruct Uy as [Ny | Sy]; [destruct y; try discriminate; destruct x; left; reflexivity |].
  destruct (unsigned_mul_sign x y) as [H | H]; [now left | right; rewrite H, Sx, Sy; reflexivity].
Qed.
Lemma unsigned_div x y : unsigned x -> unsigned y -> unsigned (d_div x y).
Proof.
  intros [Nx | Sx] Uy; [destruct x; try discriminate; left; reflexivity |].
  destruct Uy as [Ny | Sy]; [destruct y; try discriminate; destruct x; left; reflexivity |].
  destruct (Req_dec (B2R y) 0) as [Z | Z].
  - assert (y = B754_zero false \/ y = B754_infinity false \/ y = B754_nan) as [-> | [-> | ->]].
    { destruct y as [s|s| |s m e He]; cbn in Sy; subst; auto.
      exfalso. cbn in Z. apply eq_0_F2R in Z. discriminate Z. }
    all: destruct x as [s|s| |s m e He]; cbn in Sx; subst; try (left; reflexivity); right; reflexivity.
  - pose proof (Bdiv_correct 53 1024 prec_pos prec_max mode_NE x y Z) as C.
    destruct (is_nan (d_div x y)) eqn:N; [now left | right].
    destruct (Rlt_bool _ _); [destruct C as (_ & _ & C); unfold d_div; rewrite C by exact N; rewrite Sx, Sy; reflexivity |].
    apply overflow_inf in C. unfold d_div. rewrite C. cbn. rewrite Sx, Sy; reflexivity.
Qed.
Lemma unsigned_ofnat n : unsigned (ofnat DoubleN n).
Proof. induction n; [right; reflexivity |]. apply unsigned_add; [exact IHn | right; reflexivity]. Qed.

(** ** Counts *)
Lemma b64_exact_int z : (Z.abs z <= 2 ^ 53)%Z -> b64_round (IZR z) = IZR z.
Proof.
  intros H. unfold b64_round. apply round_generic; [apply valid_rnd_N |].
  destruct (Z.eq_dec (Z.abs z) (2 ^ 53)) as [E | E].
  - assert (E' : IZR z = bpow radix2 53 \/ IZR z = - bpow radix2 53).
    { assert (z = 2 ^ 53 \/ z = - 2 ^ 53)%Z as [-> | ->] by lia; [left | right].
      - rewrite <- IZR_Zpower by lia. reflexivity.
      - rewrite opp_IZR. f_equal. }
    destruct E' as [-> | ->]; [| apply generic_format_opp]; apply generic_format_bpow; cbn; lia.
  - apply generic_format_FLT. exists (Float radix2 z 0); unfold F2R; cbn.
    + ring.
    + lia.
    + lia.
Qed.
Lemma int_small z : (Z.abs z <= 2 ^ 53)%Z -> Rabs (IZR z) < bpow radix2 1024.
Proof.
  intros H. rewrite <- abs_IZR. apply Rle_lt_trans with (IZR (2 ^ 53)); [apply IZR_le; exact H |].
  change (2 ^ 53)%Z with (Zpower radix2 53). rewrite IZR_Zpower by lia. apply bpow_lt. lia.
Qed.
Lemma one_value : B2R d_one = 1.
Proof. apply Bone_correct. Qed.
Lemma one_finite : is_finite d_one = true.
Proof. reflexivity. Qed.

(** The count converted to double is exact up to 2^53. *)
Lemma ofnat_exact n : (Z.of_nat n <= 2 ^ 53)%Z -> is_finite (ofnat DoubleN n) = true /\ B2R (ofnat DoubleN n) = INR n.
Proof.
  induction n as [|n IH]; intros H; [split; reflexivity |].
  destruct IH as [F E]; [lia |].
  assert (X : B2R (ofnat DoubleN n) + B2R d_one = IZR (Z.of_nat (S n))).
  { rewrite E, one_value, INR_IZR_INZ, Nat2Z.inj_succ, succ_IZR. reflexivity. }
  destruct (add_ok (ofnat DoubleN n) d_one F one_finite) as [F' E'].
  - rewrite X, b64_exact_int by lia. apply int_small. lia.
  - split; [exact F' |]. cbn [ofnat add DoubleN one]. rewrite E', X, b64_exact_int by lia. symmetry. apply INR_IZR_INZ.
Qed.
