(** The arithmetic of doubles in a mirror: every operation is odd or even, up to the sign of zero. *)
From Coq Require Import ZArith List Bool Reals Lra Lia Arith.
From Flocq Require Import Core IEEE754.BinarySingleNaN.
From Verif Require Import Num ModelDouble SpecDouble ProofKahan ProofDouble ProofDouble2 ProofDouble4 ProofMonotone SpecMirror.
Import ListNotations.
Local Open Scope R_scope.

Definition sg (s : bool) (r : R) : R := if s then - r else r.
Lemma zero_is (x : double) : is_finite x = true -> B2R x = 0 -> exists s, x = B754_zero s.
Proof.
  intros F E. destruct x as [s|[]| |s m e H]; try discriminate; [now exists s |]. exfalso. pose proof (sign_strict s m e H) as L.
  cbv zeta in L. destruct s; lra.
Qed.
Lemma opp_val (x : double) : B2R (d_opp x) = - B2R x.
Proof. apply B2R_Bopp. Qed.
Lemma turned_nan s (x y : double) : Turned s x y -> is_nan y = is_nan x.
Proof.
  intros [-> | (Fx & Fy & _)]; [destruct s, x; reflexivity |]. unfold finite in *. destruct x, y; try discriminate; reflexivity.
Qed.
Lemma turned_finite s (x y : double) : Turned s x y -> is_finite y = is_finite x.
Proof. intros [-> | (Fx & Fy & _)]; [destruct s, x; reflexivity |]. unfold finite in *. congruence. Qed.
Lemma turned_val s (x y : double) : Turned s x y -> B2R y = sg s (B2R x).
Proof.
  intros [-> | (Fx & Fy & Vx & Vy)]; [destruct s; cbn [sg]; [apply opp_val | reflexivity] |]. unfold val in *.
  rewrite Vx, Vy. destruct s; cbn; lra.
Qed.
Lemma turned_rank s (x y : double) : Turned s x y -> is_nan x = false -> rank y = sg s (rank x).
Proof.
  intros H N. destruct (kinds x N) as [F | E].
  - pose proof (turned_finite _ _ _ H) as F'. rewrite F in F'. rewrite !rank_val by assumption. apply turned_val, H.
  - destruct H as [-> | (Fx & _)]; [| unfold finite in Fx; destruct E as [-> | ->]; discriminate].
    destruct E as [-> | ->], s; cbn; lra.
Qed.
Lemma rank_turned s (x y : double) : is_nan x = false -> is_nan y = false -> rank y = sg s (rank x) -> Turned s x y.
Proof.
  intros Nx Ny E. pose proof top_pos. destruct (kinds x Nx) as [Fx | Ix], (kinds y Ny) as [Fy | Iy].
  - rewrite !rank_val in E by assumption. destruct (Req_dec (B2R x) 0) as [Z | Z].
    + right. unfold finite, val. rewrite Z in E. repeat split; try assumption. rewrite E. destruct s; cbn; lra.
    + left. assert (Z' : B2R y <> 0) by (rewrite E; destruct s; cbn; lra).
      assert (strict : forall z : double, is_finite z = true -> B2R z <> 0 -> is_finite_strict z = true) by (intros z F W; destruct z; try discriminate; [exfalso; apply W; reflexivity | reflexivity]).
      apply B2R_inj; [apply strict; assumption | |].
      * destruct s; [| apply strict; assumption]. apply strict; [destruct x; try discriminate; reflexivity | rewrite opp_val; lra].
      * rewrite E. destruct s; cbn [sg]; [symmetry; apply opp_val | reflexivity].
  - pose proof (rank_in x Fx). destruct Iy as [-> | ->]; rewrite ?rank_minf, ?rank_pinf in E; destruct s; cbn [sg] in E; lra.
  - pose proof (rank_in y Fy). destruct Ix as [-> | ->]; rewrite ?rank_minf, ?rank_pinf in E; destruct s; cbn [sg] in E; lra.
  - left. destruct Ix as [-> | ->], Iy as [-> | ->], s; try reflexivity; exfalso; rewrite ?rank_minf, ?rank_pinf in E; cbn [sg] in E; lra.
Qed.
Lemma round_odd r : b64_round (- r) = - b64_round r.
Proof. apply round_NE_opp. Qed.
Lemma round_sg s r : b64_round (sg s r) = sg s (b64_round r).
Proof. destruct s; [apply round_odd | reflexivity]. Qed.
Lemma clip_odd r : clip (- r) = - clip r.
Proof. pose proof top_pos. unfold clip, Rmax, Rmin. repeat destruct (Rle_dec _ _); lra. Qed.
Lemma clip_sg s r : clip (sg s r) = sg s (clip r).
Proof. destruct s; [apply clip_odd | reflexivity]. Qed.
Lemma turned_refl (x : double) : Turned false x x.
Proof. now left. Qed.
Lemma turned_zero s : Turned s d_zero d_zero.
Proof. right. repeat split. Qed.

Ltac zeros := repeat match goal with
  | F : is_finite ?x = true, E : val ?x = 0 |- _ => let s := fresh "s" in destruct (zero_is x F E) as [s ->]; clear F E
  end.
Lemma fin_not_nan (x : double) : is_finite x = true -> is_nan x = false.
Proof. destruct x; try discriminate; reflexivity. Qed.

(** Addition. *)
Lemma add_not_nan (x y : double) : is_finite x = true -> is_finite y = true -> is_nan (d_add x y) = false.
Proof. intros Fx Fy. destruct (add_cases x y Fx Fy) as [(F & _) | (E & _)]; [apply fin_not_nan, F | rewrite E; reflexivity]. Qed.
Lemma add_turned s (a b x y : double) : Turned s a b -> Turned s x y -> Turned s (d_add a x) (d_add b y).
Proof.
  intros H1 H2. destruct (is_finite a && is_finite x) eqn:F.
  - apply andb_true_iff in F as [Fa Fx]. pose proof (turned_finite _ _ _ H1) as Fb. pose proof (turned_finite _ _ _ H2) as Fy. rewrite Fa in Fb. rewrite Fx in Fy.
    apply rank_turned; [apply add_not_nan; assumption .. |]. rewrite !add_rank by assumption.
    rewrite (turned_val _ _ _ H1), (turned_val _ _ _ H2), <- clip_sg, <- round_sg. f_equal. f_equal. destruct s; cbn [sg]; lra.
  - left. destruct H1 as [-> | (Fa & Fb & Va & Vb)], H2 as [-> | (Fx & Fy & Vx & Vy)]; unfold finite in *; zeros.
    + destruct s, a as [[]|[]| |[]], x as [[]|[]| |[]]; try discriminate F; reflexivity.
    + destruct s, a as [[]|[]| |[]]; try discriminate F; destruct s0, s1; reflexivity.
    + destruct s, x as [[]|[]| |[]]; try discriminate F; destruct s0, s1; reflexivity.
    + discriminate F.
Qed.

(** Subtraction. *)
Lemma sub_not_nan (x y : double) : is_finite x = true -> is_finite y = true -> is_nan (d_sub x y) = false.
Proof.
  intros Fx Fy. pose proof (Bminus_correct 53 1024 prec_pos prec_max mode_NE x y Fx Fy) as H.
  rewrite round_is in H. destruct (Rlt_bool_spec (Rabs (b64_round (B2R x - B2R y))) (bpow radix2 1024)) as [L | L].
  - destruct H as (H1 & H2 & H3). apply fin_not_nan, H2.
  - destruct H as [H1 H2]. apply overflow_inf in H1. fold (d_sub x y) in *. rewrite H1. reflexivity.
Qed.
Lemma sub_turned s (a b x y : double) : Turned s a b -> Turned s x y -> Turned s (d_sub a x) (d_sub b y).
Proof.
  intros H1 H2. destruct (is_finite a && is_finite x) eqn:F.
  - apply andb_true_iff in F as [Fa Fx]. pose proof (turned_finite _ _ _ H1) as Fb. pose proof (turned_finite _ _ _ H2) as Fy. rewrite Fa in Fb. rewrite Fx in Fy.
    apply rank_turned; [apply sub_not_nan; assumption .. |]. rewrite !sub_rank by assumption.
    rewrite (turned_val _ _ _ H1), (turned_val _ _ _ H2), <- clip_sg, <- round_sg. f_equal. f_equal. destruct s; cbn [sg]; lra.
  - left. destruct H1 as [-> | (Fa & Fb & Va & Vb)], H2 as [-> | (Fx & Fy & Vx & Vy)]; unfold finite in *; zeros.
    + destruct s, a as [[]|[]| |[]], x as [[]|[]| |[]]; try discriminate F; reflexivity.
    + destruct s, a as [[]|[]| |[]]; try discriminate F; destruct s0, s1; reflexivity.
    + destruct s, x as [[]|[]| |[]]; try discriminate F; destruct s0, s1; reflexivity.
    + discriminate F.
Qed.

Lemma opp_finite (x : double) : is_finite (d_opp x) = is_finite x.
Proof. destruct x; reflexivity. Qed.
Lemma sub_is (x y : double) : Turned false (d_sub x y) (d_add x (d_opp y)).
Proof.
  destruct (is_finite x && is_finite y) eqn:F.
  - apply andb_true_iff in F as [Fx Fy]. assert (Fo : is_finite (d_opp y) = true) by (rewrite opp_finite; exact Fy).
    apply rank_turned; [apply sub_not_nan | apply add_not_nan |]; try assumption. rewrite add_rank, sub_rank by assumption. cbn [sg]. f_equal. f_equal. rewrite opp_val. lra.
  - left. destruct x as [[]|[]| |[]], y as [[]|[]| |[]]; try discriminate F; reflexivity.
Qed.
Lemma add_swap (x y : double) : Turned false (d_add x y) (d_add y x).
Proof.
  destruct (is_finite x && is_finite y) eqn:F.
  - apply andb_true_iff in F as [Fx Fy]. apply rank_turned; [apply add_not_nan; assumption .. |]. rewrite !add_rank by assumption. cbn [sg]. f_equal. f_equal. lra.
  - left. destruct x as [[]|[]| |[]], y as [[]|[]| |[]]; try discriminate F; reflexivity.
Qed.
Lemma opp_opp (x : double) : d_opp (d_opp x) = x.
Proof. apply Bopp_involutive. Qed.
Lemma turned_opp_r s (x y : double) : Turned s x y -> Turned (negb s) x (d_opp y).
Proof.
  intros [-> | (F1 & F2 & V1 & V2)]; [left; destruct s; cbn; [apply opp_opp | reflexivity] |]. right. unfold finite, val in *.
  repeat split; try assumption; [destruct y; try discriminate; reflexivity | rewrite opp_val; lra].
Qed.
Lemma turned_opp_l s (x y : double) : Turned s x y -> Turned (negb s) (d_opp x) y.
Proof.
  intros [-> | (F1 & F2 & V1 & V2)]; [left; destruct s; cbn; [reflexivity | symmetry; apply opp_opp] |]. right. unfold finite, val in *.
  repeat split; try assumption; [destruct x; try discriminate; reflexivity | rewrite opp_val; lra].
Qed.
Lemma turned_sym (x y : double) : Turned false x y -> Turned false y x.
Proof. intros [-> | (F1 & F2 & V1 & V2)]; [now left | right; repeat split; assumption]. Qed.
Lemma turned_trans s t (x y z : double) : Turned s x y -> Turned t y z -> Turned (xorb s t) x z.
Proof.
  intros [-> | (F1 & F2 & V1 & V2)] [-> | (F3 & F4 & V3 & V4)].
  - left. destruct s, t; cbn [xorb]; rewrite ?opp_opp; reflexivity.
  - right. unfold finite, val in *. destruct s; [rewrite opp_finite in F3; rewrite opp_val in V3 |]; repeat split; try assumption; lra.
  - right. unfold finite, val in *. destruct t; [rewrite opp_finite, opp_val |]; repeat split; try assumption; lra.
  - right. repeat split; assumption.
Qed.
Lemma sub_swap (a b x y : double) : Turned true a b -> Turned true x y -> Turned false (d_sub a x) (d_sub y b).
Proof.
  intros H1 H2. apply (turned_trans false false _ (d_add y (d_opp b))); [| apply turned_sym, sub_is].
  apply (turned_trans false false _ (d_add (d_opp b) y)); [| apply add_swap].
  apply (turned_trans false false _ (d_add a (d_opp x))); [apply sub_is |].
  apply add_turned; [apply (turned_opp_r true), H1 | apply (turned_opp_l true), H2].
Qed.
Lemma sub_add (a b x y : double) : Turned true a b -> Turned false x y -> Turned true (d_sub a x) (d_add b y).
Proof.
  intros H1 H2. apply (turned_trans false true _ (d_add a (d_opp x))); [apply sub_is |].
  apply add_turned; [exact H1 | apply (turned_opp_l false), H2].
Qed.
Lemma add_sub (a b x y : double) : Turned true a b -> Turned false x y -> Turned true (d_add a x) (d_sub b y).
Proof.
  intros H1 H2. apply (turned_trans true false _ (d_add b (d_opp y))); [| apply turned_sym, sub_is].
  apply add_turned; [exact H1 | apply (turned_opp_r false), H2].
Qed.

(** Multiplication. *)
Lemma mul_ranks (x y : double) : is_finite x = true -> is_finite y = true -> is_nan (d_mul x y) = false /\ rank (d_mul x y) = clip (b64_round (B2R x * B2R y)).
Proof.
  intros Fx Fc. pose proof (Bmult_correct 53 1024 prec_pos prec_max mode_NE x y) as C. rewrite round_is in C.
  destruct (Rlt_bool_spec (Rabs (b64_round (B2R x * B2R y))) (bpow radix2 1024)) as [L | L].
  - destruct C as (C1 & C2 & _). rewrite Fx, Fc in C2. fold (d_mul x y) in *. split; [apply fin_not_nan, C2 |]. rewrite rank_val, C1 by exact C2. symmetry. apply clip_in, L.
  - apply overflow_inf in C. fold (d_mul x y) in C. rewrite C. split; [reflexivity |].
    apply clip_inf; [exact L |]. pose proof (sign_val x) as A. pose proof (sign_val y) as B. destruct (Bsign x), (Bsign y); cbn [xorb]; [apply round_pos | apply round_neg | apply round_neg | apply round_pos]; nra.
Qed.
Lemma sg_mul s t x y : sg s x * sg t y = sg (xorb s t) (x * y).
Proof. destruct s, t; cbn; lra. Qed.
Lemma mul_turned s t (a b x y : double) : Turned s a b -> Turned t x y -> Turned (xorb s t) (d_mul a x) (d_mul b y).
Proof.
  intros H1 H2. destruct (is_finite a && is_finite x) eqn:F.
  - apply andb_true_iff in F as [Fa Fx]. pose proof (turned_finite _ _ _ H1) as Fb. pose proof (turned_finite _ _ _ H2) as Fy. rewrite Fa in Fb. rewrite Fx in Fy.
    destruct (mul_ranks a x Fa Fx) as [N1 R1]. destruct (mul_ranks b y Fb Fy) as [N2 R2]. apply rank_turned; [assumption .. |]. rewrite R1, R2.
    rewrite (turned_val _ _ _ H1), (turned_val _ _ _ H2), sg_mul, round_sg, clip_sg. reflexivity.
  - left. destruct H1 as [-> | (Fa & Fb & Va & Vb)], H2 as [-> | (Fx & Fy & Vx & Vy)]; unfold finite in *; zeros.
    + destruct s, t, a as [[]|[]| |[]], x as [[]|[]| |[]]; try discriminate F; reflexivity.
    + destruct s, t, a as [[]|[]| |[]]; try discriminate F; destruct s0, s1; reflexivity.
    + destruct s, t, x as [[]|[]| |[]]; try discriminate F; destruct s0, s1; reflexivity.
    + discriminate F.
Qed.

(** Division by the same number. *)
Lemma div_ranks (x y : double) : is_finite x = true -> is_finite y = true -> B2R y <> 0 -> is_nan (d_div x y) = false /\ rank (d_div x y) = clip (b64_round (B2R x / B2R y)).
Proof.
  intros Fx Fy Z. pose proof (Bdiv_correct 53 1024 prec_pos prec_max mode_NE x y Z) as C. rewrite round_is in C.
  destruct (Rlt_bool_spec (Rabs (b64_round (B2R x / B2R y))) (bpow radix2 1024)) as [L | L].
  - destruct C as (C1 & C2 & _). rewrite Fx in C2. fold (d_div x y) in *. split; [apply fin_not_nan, C2 |]. rewrite rank_val, C1 by exact C2. symmetry. apply clip_in, L.
  - apply overflow_inf in C. fold (d_div x y) in C. rewrite C. split; [reflexivity |].
    apply clip_inf; [exact L |]. pose proof (sign_val x) as A. pose proof (sign_val y) as B. unfold Rdiv.
    destruct (Bsign y) eqn:E.
    + assert (P : / B2R y < 0) by (apply Rinv_lt_0_compat; lra). destruct (Bsign x); cbn [xorb]; [apply round_pos | apply round_neg]; nra.
    + assert (P : 0 < / B2R y) by (apply Rinv_0_lt_compat; lra). destruct (Bsign x); cbn [xorb]; [apply round_neg | apply round_pos]; nra.
Qed.
Lemma div_turned s (a b c : double) : Turned s a b -> Turned s (d_div a c) (d_div b c).
Proof.
  intros H1. destruct (is_finite a && is_finite_strict c) eqn:F.
  - apply andb_true_iff in F as [Fa Fc]. pose proof (turned_finite _ _ _ H1) as Fb. rewrite Fa in Fb.
    assert (Z : B2R c <> 0) by (destruct c as [|[]| |sc m e H]; try discriminate; pose proof (sign_strict sc m e H) as L; cbv zeta in L; destruct sc; lra).
    assert (Fc' : is_finite c = true) by (destruct c; try discriminate; reflexivity).
    destruct (div_ranks a c Fa Fc' Z) as [N1 R1]. destruct (div_ranks b c Fb Fc' Z) as [N2 R2]. apply rank_turned; [assumption .. |]. rewrite R1, R2.
    rewrite (turned_val _ _ _ H1). rewrite <- clip_sg, <- round_sg. f_equal. f_equal. destruct s; cbn [sg]; unfold Rdiv; lra.
  - destruct H1 as [-> | (Fa & Fb & Va & Vb)]; unfold finite in *; zeros.
    + destruct s, a as [[]|[]| |[]], c as [[]|[]| |[]]; try discriminate F; try (left; reflexivity); right; repeat split.
    + destruct c as [[]|[]| |[]]; try discriminate F; destruct s, s0, s1; try (left; reflexivity); right; repeat split.
Qed.

(** Comparison: the other way round in the mirror. *)
Lemma lt_turned s (a b x y : double) : Turned s a b -> Turned s x y -> d_lt b y = if s then d_lt x a else d_lt a x.
Proof.
  intros H1 H2. pose proof (turned_nan _ _ _ H1) as Nb. pose proof (turned_nan _ _ _ H2) as Ny.
  destruct (is_nan a) eqn:Na; [rewrite lt_nan_l by exact Nb; destruct s; [rewrite lt_nan_r by exact Na | rewrite lt_nan_l by exact Na]; reflexivity |].
  destruct (is_nan x) eqn:Nx; [rewrite lt_nan_r by exact Ny; destruct s; [rewrite lt_nan_l by exact Nx | rewrite lt_nan_r by exact Nx]; reflexivity |].
  rewrite !lt_rank by assumption. rewrite (turned_rank _ _ _ H1 Na), (turned_rank _ _ _ H2 Nx). destruct s; cbn [sg].
  - destruct (Rlt_bool_spec (rank x) (rank a)); [apply Rlt_bool_true | apply Rlt_bool_false]; lra.
  - reflexivity.
Qed.
(** Nothing but a zero has two signs. *)
Lemma turned_same (a b : double) : Turned false a b -> ~ (finite a /\ val a = 0) -> b = a.
Proof. intros [-> | (F & _ & E & _)] H; [reflexivity | tauto]. Qed.
