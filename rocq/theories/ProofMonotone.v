(** Raising samples: the arithmetic of doubles, infinities and NaN included, keeps their order. *)
From Coq Require Import ZArith List Bool Reals Lra Lia Arith.
From Flocq Require Import Core IEEE754.BinarySingleNaN.
From Verif Require Import Num ModelDouble SpecDouble ProofKahan ProofDouble ProofDouble2 ProofDouble4.
Import ListNotations.
Local Open Scope R_scope.

(** [y] is not below [x]: true also if one of them is NaN. *)
Definition upto (x y : double) : Prop := d_lt y x = false.
Lemma upto_rank (x y : double) : is_nan x = false -> is_nan y = false -> (upto x y <-> rank x <= rank y).
Proof. intros Nx Ny. unfold upto. rewrite lt_rank_false by assumption. reflexivity. Qed.
Lemma upto_by (x y : double) : (is_nan x = false -> is_nan y = false -> rank x <= rank y) -> upto x y.
Proof.
  intros H. unfold upto. destruct (is_nan y) eqn:Ny; [apply lt_nan_l, Ny |]. destruct (is_nan x) eqn:Nx; [apply lt_nan_r, Nx |].
  apply lt_rank_false; auto.
Qed.
Lemma upto_refl (x : double) : upto x x.
Proof. apply upto_by. intros _ _. lra. Qed.
Lemma upto_leb (x y : double) : leb DoubleN x y = true <-> upto x y.
Proof. unfold leb, upto. cbn [ltb DoubleN]. apply negb_true_iff. Qed.

Definition top : R := bpow radix2 1024.
Lemma top_pos : 0 < top. Proof. apply bpow_gt_0. Qed.
Definition clip (r : R) : R := Rmax (- top) (Rmin top r).
Lemma clip_le r s : r <= s -> clip r <= clip s.
Proof. intros L. unfold clip. unfold Rmax, Rmin. destruct (Rle_dec top r), (Rle_dec top s); repeat destruct (Rle_dec _ _); lra. Qed.
Lemma clip_in r : Rabs r < top -> clip r = r.
Proof. intros L. apply Rabs_def2 in L. unfold clip, Rmax, Rmin. destruct (Rle_dec top r); destruct (Rle_dec _ _); lra. Qed.
Lemma clip_inf (s : bool) r : top <= Rabs r -> (if s then r <= 0 else 0 <= r) -> rank (B754_infinity s) = clip r.
Proof.
  pose proof top_pos. intros L P. unfold Rabs in L. unfold clip, Rmax, Rmin. destruct (Rcase_abs r), s; cbn [rank]; fold top; destruct (Rle_dec top r); destruct (Rle_dec _ _); lra.
Qed.
Lemma round_zero : b64_round 0 = 0.
Proof. apply round_0, valid_rnd_N. Qed.
Lemma round_pos r : 0 <= r -> 0 <= b64_round r.
Proof. intros H. rewrite <- round_zero. now apply round_le. Qed.
Lemma round_neg r : r <= 0 -> b64_round r <= 0.
Proof. intros H. rewrite <- round_zero. now apply round_le. Qed.
Lemma sign_val (x : double) : if Bsign x then B2R x <= 0 else 0 <= B2R x.
Proof.
  destruct x as [[]|[]| |s m e H]; cbn; try lra. destruct s; unfold F2R; cbn; [| ]; pose proof (bpow_gt_0 radix2 e); pose proof (IZR_lt 0 (Z.pos m) eq_refl);
    [replace (IZR (Z.neg m)) with (- IZR (Z.pos m)) by (rewrite <- opp_IZR; reflexivity) |]; nra.
Qed.
Lemma sign_strict s m e H : let r := B2R (B754_finite s m e H : double) in if s then r < 0 else 0 < r.
Proof.
  pose proof (bpow_gt_0 radix2 e). pose proof (IZR_lt 0 (Z.pos m) eq_refl).
  destruct s; cbn; unfold F2R; cbn; [replace (IZR (Z.neg m)) with (- IZR (Z.pos m)) by (rewrite <- opp_IZR; reflexivity) |]; nra.
Qed.
Lemma rank_in (x : double) : is_finite x = true -> - top < rank x < top.
Proof. intros F. destruct (rank_finite x F) as [_ B]. apply Rabs_def2 in B. unfold top. lra. Qed.
Lemma rank_low (x : double) : - top <= rank x.
Proof. pose proof top_pos. destruct (is_finite x) eqn:F; [apply rank_in in F; lra |]. destruct x as [|[]| |]; try discriminate; cbn [rank B2R]; fold top; lra. Qed.
Lemma rank_high (x : double) : rank x <= top.
Proof. pose proof top_pos. destruct (is_finite x) eqn:F; [apply rank_in in F; lra |]. destruct x as [|[]| |]; try discriminate; cbn [rank B2R]; fold top; lra. Qed.
Lemma rank_val (x : double) : is_finite x = true -> rank x = B2R x.
Proof. intros F. apply rank_finite, F. Qed.
(** The doubles that are numbers. *)
Lemma kinds (x : double) : is_nan x = false -> is_finite x = true \/ x = B754_infinity true \/ x = B754_infinity false.
Proof. destruct x as [|[]| |]; auto; discriminate. Qed.
Lemma rank_minf : rank (B754_infinity true) = - top. Proof. reflexivity. Qed.
Lemma rank_pinf : rank (B754_infinity false) = top. Proof. reflexivity. Qed.

(** Addition. *)
Lemma add_rank (x y : double) : is_finite x = true -> is_finite y = true -> rank (d_add x y) = clip (b64_round (B2R x + B2R y)).
Proof.
  intros Fx Fy. destruct (add_cases x y Fx Fy) as [(F & E & L & _) | (E & Sg & L)].
  - rewrite rank_val, E by exact F. symmetry. apply clip_in, L.
  - rewrite E. apply clip_inf; [exact L |]. pose proof (sign_val x) as A. pose proof (sign_val y) as B. rewrite <- Sg in B.
    destruct (Bsign x); [apply round_neg | apply round_pos]; lra.
Qed.
Lemma add_upto (a b x y : double) : upto a b -> upto x y -> upto (d_add a x) (d_add b y).
Proof.
  intros H1 H2. apply upto_by. intros N1 N2. pose proof top_pos.
  destruct (is_nan a) eqn:Na; [rewrite nan_add_l in N1 by exact Na; discriminate |].
  destruct (is_nan x) eqn:Nx; [rewrite nan_add_r in N1 by exact Nx; discriminate |].
  destruct (is_nan b) eqn:Nb; [rewrite nan_add_l in N2 by exact Nb; discriminate |].
  destruct (is_nan y) eqn:Ny; [rewrite nan_add_r in N2 by exact Ny; discriminate |].
  apply upto_rank in H1, H2; try assumption.
  assert (P : forall u v, u = B754_infinity false \/ v = B754_infinity false -> is_nan (d_add u v) = false -> rank (d_add u v) = top).
  { intros u v [-> | ->] N; [destruct v as [|[]| |] | destruct u as [|[]| |]]; try discriminate N; reflexivity. }
  assert (M : forall u v, u = B754_infinity true \/ v = B754_infinity true -> is_nan (d_add u v) = false -> rank (d_add u v) = - top).
  { intros u v [-> | ->] N; [destruct v as [|[]| |] | destruct u as [|[]| |]]; try discriminate N; reflexivity. }
  destruct (kinds a Na) as [Fa | [-> | ->]].
  2: { rewrite M by auto. apply rank_low. }
  2: { rewrite rank_pinf in H1. assert (b = B754_infinity false) as -> by (destruct (kinds b Nb) as [F | [-> | ->]]; [apply rank_in in F; lra | rewrite rank_minf in H1; lra | reflexivity]).
       rewrite (P (B754_infinity false) y) by auto. apply rank_high. }
  destruct (kinds x Nx) as [Fx | [-> | ->]].
  2: { rewrite M by auto. apply rank_low. }
  2: { rewrite rank_pinf in H2. assert (y = B754_infinity false) as -> by (destruct (kinds y Ny) as [F | [-> | ->]]; [apply rank_in in F; lra | rewrite rank_minf in H2; lra | reflexivity]).
       rewrite (P b (B754_infinity false)) by auto. apply rank_high. }
  pose proof (rank_in a Fa) as Ra. pose proof (rank_in x Fx) as Rx.
  destruct (kinds b Nb) as [Fb | [-> | ->]]; [| rewrite rank_minf in H1; lra | rewrite (P (B754_infinity false) y) by auto; apply rank_high].
  destruct (kinds y Ny) as [Fy | [-> | ->]]; [| rewrite rank_minf in H2; lra | rewrite (P b (B754_infinity false)) by auto; apply rank_high].
  rewrite !add_rank by assumption. apply clip_le, round_le. rewrite rank_val in H1, H2 by assumption. rewrite !rank_val in H1, H2 by assumption. lra.
Qed.

(** Subtraction of the same. *)
Lemma sub_rank (x y : double) : is_finite x = true -> is_finite y = true -> rank (d_sub x y) = clip (b64_round (B2R x - B2R y)).
Proof.
  intros Fx Fy. pose proof (Bminus_correct 53 1024 prec_pos prec_max mode_NE x y Fx Fy) as H.
  rewrite round_is in H. destruct (Rlt_bool_spec (Rabs (b64_round (B2R x - B2R y))) (bpow radix2 1024)) as [L | L].
  - destruct H as (H1 & H2 & H3). fold (d_sub x y) in *. rewrite rank_val, H1 by exact H2. symmetry. apply clip_in, L.
  - destruct H as [H1 H2]. apply overflow_inf in H1. fold (d_sub x y) in *. rewrite H1. apply clip_inf; [exact L |].
    pose proof (sign_val x) as A. pose proof (sign_val y) as B. rewrite H2 in A |- *. destruct (Bsign y); cbn [negb] in *; [apply round_pos | apply round_neg]; lra.
Qed.
Lemma nan_sub_l (x y : double) : is_nan x = true -> is_nan (d_sub x y) = true.
Proof. destruct x; try discriminate. reflexivity. Qed.
Lemma sub_upto (a b f : double) : upto a b -> upto (d_sub a f) (d_sub b f).
Proof.
  intros H1. apply upto_by. intros N1 N2. pose proof top_pos.
  destruct (is_nan a) eqn:Na; [rewrite nan_sub_l in N1 by exact Na; discriminate |].
  destruct (is_nan b) eqn:Nb; [rewrite nan_sub_l in N2 by exact Nb; discriminate |].
  destruct (is_nan f) eqn:Nf; [rewrite nan_sub_r in N1 by exact Nf; discriminate |].
  apply upto_rank in H1; try assumption.
  destruct (kinds f Nf) as [Ff | [-> | ->]].
  - destruct (kinds a Na) as [Fa | [-> | ->]].
    + destruct (kinds b Nb) as [Fb | [-> | ->]].
      * rewrite !sub_rank by assumption. apply clip_le, round_le. rewrite !rank_val in H1 by assumption. lra.
      * pose proof (rank_in a Fa). rewrite rank_minf in H1. lra.
      * replace (d_sub (B754_infinity false) f) with (B754_infinity false : double) by (destruct f; try discriminate; reflexivity). apply rank_high.
    + replace (d_sub (B754_infinity true) f) with (B754_infinity true : double) by (destruct f; try discriminate; reflexivity). apply rank_low.
    + assert (b = B754_infinity false) as -> by (rewrite rank_pinf in H1; destruct (kinds b Nb) as [F | [-> | ->]]; [apply rank_in in F; lra | rewrite rank_minf in H1; lra | reflexivity]). lra.
  - destruct a as [|[]| |], b as [|[]| |]; try discriminate; cbn; lra.
  - destruct a as [|[]| |], b as [|[]| |]; try discriminate; cbn; lra.
Qed.

(** Multiplication by something not negative. *)
Lemma mul_rank (x c : double) : is_finite x = true -> is_finite c = true -> 0 <= B2R c -> rank (d_mul x c) = clip (b64_round (B2R x * B2R c)).
Proof.
  intros Fx Fc P. pose proof (Bmult_correct 53 1024 prec_pos prec_max mode_NE x c) as C. rewrite round_is in C.
  destruct (Rlt_bool_spec (Rabs (b64_round (B2R x * B2R c))) (bpow radix2 1024)) as [L | L].
  - destruct C as (C1 & C2 & _). rewrite Fx, Fc in C2. fold (d_mul x c) in *. rewrite rank_val, C1 by exact C2. symmetry. apply clip_in, L.
  - apply overflow_inf in C. fold (d_mul x c) in C. rewrite C.
    assert (Z : 0 < B2R c).
    { destruct P as [P | P]; [exact P |]. rewrite <- P, Rmult_0_r, round_zero, Rabs_R0 in L. pose proof top_pos. unfold top in *. lra. }
    pose proof (sign_val c) as A. assert (Bsign c = false) as -> by (destruct (Bsign c); [lra | reflexivity]). rewrite xorb_false_r.
    apply clip_inf; [exact L |]. pose proof (sign_val x) as B. destruct (Bsign x); [apply round_neg | apply round_pos]; nra.
Qed.
Lemma nan_mul_r (x y : double) : is_nan y = true -> is_nan (d_mul x y) = true.
Proof. destruct y; try discriminate. destruct x; reflexivity. Qed.
(** By sign: all positive numbers give +infinity, all negative ones -infinity, the zeros give NaN. *)
Lemma by_sign (f : double -> double) (P : f (B754_infinity false) = B754_infinity false \/ is_nan (f (B754_infinity false)) = true)
      (M : f (B754_infinity true) = B754_infinity true \/ is_nan (f (B754_infinity true)) = true)
      (Z : forall s, is_nan (f (B754_zero s)) = true) (N : is_nan (f B754_nan) = true) (F : forall s m e H, f (B754_finite s m e H) = B754_infinity s) a b :
  upto a b -> upto (f a) (f b).
Proof.
  intros H1. apply upto_by. intros N1 N2. pose proof top_pos.
  assert (Q : forall u, is_nan (f u) = false -> (f u = B754_infinity false /\ 0 < rank u) \/ (f u = B754_infinity true /\ rank u < 0)).
  { intros u Nu. destruct u as [s|[]| |s m e B]; try (rewrite Z in Nu; discriminate); try congruence.
    - destruct M as [M | M]; [right; split; [exact M | rewrite rank_minf; lra] | congruence].
    - destruct P as [P | P]; [left; split; [exact P | rewrite rank_pinf; lra] | congruence].
    - destruct s; [right | left]; (split; [apply F |]); cbn; unfold F2R; cbn; pose proof (bpow_gt_0 radix2 e); pose proof (IZR_lt 0 (Z.pos m) eq_refl);
        [replace (IZR (Z.neg m)) with (- IZR (Z.pos m)) by (rewrite <- opp_IZR; reflexivity) |]; nra. }
  assert (Na : is_nan a = false) by (destruct a; try reflexivity; congruence).
  assert (Nb : is_nan b = false) by (destruct b; try reflexivity; congruence).
  apply upto_rank in H1; try assumption.
  destruct (Q a N1) as [[-> A] | [-> A]], (Q b N2) as [[-> B] | [-> B]]; rewrite ?rank_minf, ?rank_pinf; lra.
Qed.
Lemma mul_upto (a b c : double) : upto d_zero c -> upto a b -> upto (d_mul a c) (d_mul b c).
Proof.
  intros Hc H1. pose proof top_pos.
  destruct (is_nan c) eqn:Nc; [apply upto_by; intros N1; rewrite nan_mul_r in N1 by exact Nc; discriminate |].
  apply upto_rank in Hc; [| reflexivity | exact Nc]. change (rank d_zero) with 0 in Hc.
  destruct (kinds c Nc) as [Fc | [-> | ->]]; [| rewrite rank_minf in Hc; lra |].
  2: { apply (by_sign (fun u => d_mul u (B754_infinity false))); try (intros; reflexivity); auto. intros [] m e B; reflexivity. }
  rewrite rank_val in Hc by exact Fc.
  apply upto_by. intros N1 N2.
  destruct (is_nan a) eqn:Na; [rewrite nan_mul_l in N1 by exact Na; discriminate |].
  destruct (is_nan b) eqn:Nb; [rewrite nan_mul_l in N2 by exact Nb; discriminate |].
  apply upto_rank in H1; try assumption.
  assert (I : forall s, is_nan (d_mul (B754_infinity s) c) = false -> d_mul (B754_infinity s) c = B754_infinity s /\ 0 < B2R c).
  { intros s N. destruct c as [|[]| |s' m e B]; try discriminate. pose proof (sign_strict s' m e B) as A. cbv zeta in A.
    destruct s'; [lra |]. split; [destruct s; reflexivity | lra]. }
  destruct (kinds a Na) as [Fa | [-> | ->]].
  - destruct (kinds b Nb) as [Fb | [-> | ->]].
    + rewrite !mul_rank by assumption. apply clip_le, round_le. rewrite !rank_val in H1 by assumption. nra.
    + pose proof (rank_in a Fa). rewrite rank_minf in H1. lra.
    + destruct (I false N2) as [-> _]. apply rank_high.
  - destruct (I true N1) as [-> _]. apply rank_low.
  - assert (b = B754_infinity false) as -> by (rewrite rank_pinf in H1; destruct (kinds b Nb) as [F | [-> | ->]]; [apply rank_in in F; lra | rewrite rank_minf in H1; lra | reflexivity]). lra.
Qed.

(** Division by something with a plus sign. *)
Lemma div_rank (x c : double) : is_finite x = true -> 0 < B2R c -> rank (d_div x c) = clip (b64_round (B2R x / B2R c)).
Proof.
  intros Fx P. assert (Z : B2R c <> 0) by lra. pose proof (Bdiv_correct 53 1024 prec_pos prec_max mode_NE x c Z) as C. rewrite round_is in C.
  destruct (Rlt_bool_spec (Rabs (b64_round (B2R x / B2R c))) (bpow radix2 1024)) as [L | L].
  - destruct C as (C1 & C2 & _). rewrite Fx in C2. fold (d_div x c) in *. rewrite rank_val, C1 by exact C2. symmetry. apply clip_in, L.
  - apply overflow_inf in C. fold (d_div x c) in C. rewrite C.
    pose proof (sign_val c) as A. assert (Bsign c = false) as -> by (destruct (Bsign c); [lra | reflexivity]). rewrite xorb_false_r.
    apply clip_inf; [exact L |]. pose proof (sign_val x) as B. pose proof (Rinv_0_lt_compat _ P). unfold Rdiv. destruct (Bsign x); [apply round_neg | apply round_pos]; nra.
Qed.
Lemma div_upto (a b c : double) : Bsign c = false -> upto a b -> upto (d_div a c) (d_div b c).
Proof.
  intros Sc H1. pose proof top_pos. destruct c as [s|s| |s m e B].
  - cbn in Sc. subst s. apply (by_sign (fun u => d_div u (B754_zero false))); try (intros; reflexivity); auto. intros [] m e B; reflexivity.
  - cbn in Sc. subst s. apply upto_by. intros N1 N2. destruct a, b; try discriminate; cbn; lra.
  - apply upto_by. intros N1. destruct a; discriminate.
  - cbn in Sc. subst s. set (c := B754_finite false m e B).
    assert (P : 0 < B2R c) by (cbn; unfold F2R; cbn; pose proof (bpow_gt_0 radix2 e); pose proof (IZR_lt 0 (Z.pos m) eq_refl); nra).
    assert (I : forall s, d_div (B754_infinity s) c = B754_infinity s) by (intros []; reflexivity).
    apply upto_by. intros N1 N2.
    destruct (is_nan a) eqn:Na; [rewrite nan_div_l in N1 by exact Na; discriminate |].
    destruct (is_nan b) eqn:Nb; [rewrite nan_div_l in N2 by exact Nb; discriminate |].
    apply upto_rank in H1; try assumption.
    destruct (kinds a Na) as [Fa | [-> | ->]].
    + destruct (kinds b Nb) as [Fb | [-> | ->]].
      * rewrite !div_rank by assumption. apply clip_le, round_le. rewrite !rank_val in H1 by assumption. unfold Rdiv. apply Rmult_le_compat_r; [left; now apply Rinv_0_lt_compat | exact H1].
      * pose proof (rank_in a Fa). rewrite rank_minf in H1. lra.
      * rewrite I. apply rank_high.
    + rewrite I. apply rank_low.
    + assert (b = B754_infinity false) as -> by (rewrite rank_pinf in H1; destruct (kinds b Nb) as [F | [-> | ->]]; [apply rank_in in F; lra | rewrite rank_minf in H1; lra | reflexivity]). lra.
Qed.

(** Counts, and sums of weights, have a plus sign. *)
Lemma plus_sign (a w : double) : Bsign a = false -> upto d_zero w -> Bsign (d_add a w) = false.
Proof.
  intros Sa Hw. pose proof top_pos. destruct (is_nan w) eqn:Nw.
  { pose proof (nan_add_r a w Nw) as N. destruct (d_add a w); try discriminate N. reflexivity. }
  destruct (is_nan a) eqn:Na.
  { pose proof (nan_add_l a w Na) as N. destruct (d_add a w); try discriminate N. reflexivity. }
  apply upto_rank in Hw; [| reflexivity | exact Nw]. change (rank d_zero) with 0 in Hw.
  destruct (kinds a Na) as [Fa | [-> | ->]]; [| discriminate |].
  - destruct (kinds w Nw) as [Fw | [-> | ->]]; [| rewrite rank_minf in Hw; lra |].
    + rewrite rank_val in Hw by exact Fw. pose proof (sign_val a) as A. rewrite Sa in A.
      destruct (add_cases a w Fa Fw) as [(_ & _ & _ & G) | (-> & _)]; [apply G; [lra | auto] | exact Sa].
    + destruct a; try discriminate; reflexivity.
  - destruct w as [|[]| |]; try reflexivity. 
Qed.
Lemma ofnat_sign n : Bsign (ofnat DoubleN n) = false.
Proof. induction n as [|n IH]; [reflexivity |]. cbn [ofnat]. apply plus_sign; [exact IH |]. reflexivity. Qed.
Lemma sign_upto (a : double) : Bsign a = false -> upto d_zero a.
Proof.
  intros Sa. apply upto_by. intros _ N. change (rank d_zero) with 0. pose proof top_pos. destruct (kinds a N) as [F | [-> | ->]]; [| discriminate | rewrite rank_pinf; lra].
  rewrite rank_val by exact F. pose proof (sign_val a) as A. now rewrite Sa in A.
Qed.
(** What remains of a sum of weights without the last one. *)
Lemma before_weight (a w : double) : Bsign a = false -> upto d_zero (d_sub (d_add a w) w).
Proof.
  intros Sa. assert (H : upto (d_add d_zero w) (d_add a w)) by (apply add_upto; [now apply sign_upto | apply upto_refl]).
  destruct (is_finite w) eqn:Fw.
  - assert (F : is_finite (d_add d_zero w) = true /\ B2R (d_add d_zero w) = B2R w).
    { destruct (add_ok d_zero w eq_refl Fw) as [F E]; change (B2R d_zero) with 0 in *; rewrite Rplus_0_l, round_format in * by apply val_format; [apply abs_B2R_lt_emax | auto]. }
    destruct F as [F V].
    assert (E : is_finite (d_sub (d_add d_zero w) w) = true).
    { apply sub_ok; [exact F | exact Fw |]. rewrite V, Rminus_eq_0, round_zero, Rabs_R0. apply bpow_gt_0. }
    pose proof (sub_upto _ _ w H) as G. apply upto_by. intros _ N. apply upto_rank in G; [| destruct (d_sub _ w); try discriminate E; reflexivity | exact N].
    rewrite sub_rank, V, Rminus_eq_0, round_zero, clip_in in G by (try assumption; rewrite Rabs_R0; apply top_pos). exact G.
  - unfold upto. apply lt_nan_l. destruct w as [|s| |]; try discriminate; [| destruct a; reflexivity].
    destruct a as [[]|[]| |[]], s; try discriminate; reflexivity.
Qed.
