(** Examples for C85. *)
From Coq Require Import List Bool ZArith Lia Reals Lra.
From Flocq Require Import Core IEEE754.BinarySingleNaN.
From Verif Require Import Num ModelBasic ModelRolling ModelTail ModelHeap ModelDouble SpecDouble SpecScale ProofKahan ProofDouble ProofScale.
Import ListNotations.

Lemma dbl_val m e : (Z.abs m < 2 ^ 53)%Z -> (-1074 <= e)%Z -> is_finite (dbl m e) = true -> B2R (dbl m e) = (IZR m * bpow radix2 e)%R.
Proof.
  intros Hm He F. change (B2R (dbl m e)) with (B2R (binary_normalize 53 1024 prec_pos prec_max mode_NE m e false)).
  pose proof (binary_normalize_correct 53 1024 prec_pos prec_max mode_NE m e false) as C. cbv zeta in C. rewrite round_is in C.
  destruct (Rlt_bool _ _).
  - destruct C as [C _]. rewrite C. apply fits_round. apply generic_format_FLT. exists (Float radix2 m e); [reflexivity | exact Hm | exact He].
  - change (is_finite (binary_normalize 53 1024 prec_pos prec_max mode_NE m e false) = true) in F. apply overflow_inf in C. rewrite C in F. discriminate.
Qed.
Lemma dbl_scaled m e k : (Z.abs m < 2 ^ 53)%Z -> (-1074 <= e)%Z -> (-1074 <= e + k)%Z -> is_finite (dbl m e) = true -> is_finite (dbl m (e + k)) = true -> Scaled k (dbl m e) (dbl m (e + k)).
Proof. intros. unfold Scaled, finite, val. repeat split; try assumption. rewrite !dbl_val by assumption. rewrite bpow_plus. ring. Qed.

Definition metres : list double := [dbl 1 0; dbl 5 (-2); dbl (-3) 0; dbl 7 3].
Definition units : list double := [dbl 1 10; dbl 5 8; dbl (-3) 10; dbl 7 13].
Definition tiny : list double := [dbl 1 (-600); dbl 5 (-602); dbl (-3) (-600); dbl 7 (-597)].
Ltac sc m e k := apply (dbl_scaled m e k); [vm_compute; reflexivity | lia | lia | vm_compute; reflexivity | vm_compute; reflexivity].
Lemma metres_units : ScaledAll 10 metres units.
Proof. unfold ScaledAll, metres, units. apply Forall2_cons; [sc 1%Z 0%Z 10%Z |]. apply Forall2_cons; [sc 5%Z (-2)%Z 10%Z |]. apply Forall2_cons; [sc (-3)%Z 0%Z 10%Z |]. apply Forall2_cons; [sc 7%Z 3%Z 10%Z | constructor]. Qed.
Lemma metres_tiny : ScaledAll (-600) metres tiny.
Proof. unfold ScaledAll, metres, tiny. apply Forall2_cons; [sc 1%Z 0%Z (-600)%Z |]. apply Forall2_cons; [sc 5%Z (-2)%Z (-600)%Z |]. apply Forall2_cons; [sc (-3)%Z 0%Z (-600)%Z |]. apply Forall2_cons; [sc 7%Z 3%Z (-600)%Z | constructor]. Qed.
Notation W := WatchedN.
Notation W0 := (zero WatchedN).
Definition calm_option (a : option watched) : bool := match a with Some a => snd a | None => false end.
Lemma sums_case : ScaledAll (-600) metres tiny /\ finite (sum_run DoubleN d_zero metres) /\ finite (fst (kahan_run DoubleN d_zero tiny)).
Proof. split; [exact metres_tiny |]. split; vm_compute; reflexivity. Qed.
Lemma plain_case : ScaledAll 10 metres units /\
  (forall xs, xs = metres \/ xs = units -> calm (im_mean W (imean_set_run W W0 (map watch xs))) /\ calm (vs_var W (var_set_run W W0 (map watch xs))) /\
     calm (error_of_immediate_mean_run W w_sqrt (map watch xs)) /\
     (exists a, skewness_run W w_sqrt W0 (map watch xs) = Some a /\ calm a) /\ exists a, kurtosis_run W W0 (map watch xs) = Some a /\ calm a).
Proof.
  split; [exact metres_units |].
  assert (O : forall o, calm_option o = true -> exists a, o = Some a /\ calm a) by (intros [a|] H; [exists a; split; [reflexivity | exact H] | discriminate]).
  intros xs [-> | ->]; (split; [vm_compute; reflexivity |]; split; [vm_compute; reflexivity |]; split; [vm_compute; reflexivity |]; split; apply O; vm_compute; reflexivity).
Qed.
(** Where squares underflow the variance of the scaled samples is not the scaled variance: it is zero. *)
Lemma underflow_case : ScaledAll (-600) metres tiny /\ ~ Scaled (-600 + -600) (immediate_variance metres) (immediate_variance tiny) /\
  ~ calm (vs_var W (var_set_run W W0 (map watch tiny))).
Proof.
  split; [exact metres_tiny |]. split; [| vm_compute; discriminate]. intros (_ & _ & V).
  assert (Z : B2SF (immediate_variance tiny) = SpecFloat.S754_zero false) by (vm_compute; reflexivity).
  assert (P : d_lt d_zero (immediate_variance metres) = true) by (vm_compute; reflexivity).
  assert (Fm : is_finite (immediate_variance metres) = true) by (vm_compute; reflexivity).
  unfold val in V. remember (immediate_variance tiny) as t. remember (immediate_variance metres) as m. clear Heqt Heqm.
  destruct t; try discriminate. cbn in V. apply lt_true in P; [| reflexivity | exact Fm]. cbn in P. pose proof (bpow_gt_0 radix2 (-600 + -600)) as B. cbn [Z.add Pos.add] in B. nra.
Qed.
Definition wm : list (double * double) := [(dbl 1 0, dbl 1 (-1)); (dbl 5 0, dbl 3 0); (dbl (-2) 0, dbl 1 0)].
Definition wu : list (double * double) := [(dbl 1 10, dbl 1 3); (dbl 5 10, dbl 3 4); (dbl (-2) 10, dbl 1 4)].
Lemma weighted_case : ScaledPairs 10 4 wm wu /\
  forall h, h = wm \/ h = wu -> calm (wmean_set_mean W (wmean_set_run W W0 W0 (map watch2 h))) /\ calm (wv_var W (wvar_set_run W W0 W0 (map watch2 h))) /\
    calm (cs_cov W (cov_set_run W W0 W0 (map watch2 h))).
Proof.
  split.
  - unfold ScaledPairs, wm, wu. apply Forall2_cons; [cbn [fst snd]; split; [sc 1%Z 0%Z 10%Z | sc 1%Z (-1)%Z 4%Z] |]. apply Forall2_cons; [cbn [fst snd]; split; [sc 5%Z 0%Z 10%Z | sc 3%Z 0%Z 4%Z] |].
    apply Forall2_cons; [cbn [fst snd]; split; [sc (-2)%Z 0%Z 10%Z | sc 1%Z 0%Z 4%Z] | constructor].
  - intros h [-> | ->]; (split; [vm_compute; reflexivity |]; split; vm_compute; reflexivity).
Qed.
Definition tm : list (double * double * double) := [(dbl 1 0, dbl 7 0, dbl 1 (-1)); (dbl 5 0, dbl 2 0, dbl 3 0)].
Definition tu : list (double * double * double) := [(dbl 1 10, dbl 7 (-5), dbl 1 3); (dbl 5 10, dbl 2 (-5), dbl 3 4)].
Lemma triples_case : ScaledTriples 10 (-5) 4 tm tu /\
  forall h, h = tm \/ h = tu -> calm (wc_cov W (wcov_set_run W W0 W0 W0 (map watch3 h))) /\ is_zero (fst (wc_cov W (wcov_set_run W W0 W0 W0 (map watch3 h)))) = false.
Proof.
  split.
  - unfold ScaledTriples, tm, tu. apply Forall2_cons; [cbn [fst snd]; split; [sc 1%Z 0%Z 10%Z | split; [sc 7%Z 0%Z (-5)%Z | sc 1%Z (-1)%Z 4%Z]] |].
    apply Forall2_cons; [cbn [fst snd]; split; [sc 5%Z 0%Z 10%Z | split; [sc 2%Z 0%Z (-5)%Z | sc 3%Z 0%Z 4%Z]] | constructor].
  - intros h [-> | ->]; split; vm_compute; reflexivity.
Qed.
Lemma rolling_case : forall xs, xs = metres \/ xs = units -> exists w, roll_run W 2 3 W0 (map watch xs) = Some w /\
  calm (ro_sum W w) /\ calm (ro_mean W w) /\ calm (ro_lazy_mean W 2 w) /\ calm (ro_moment W 2 w) /\ calm (ro_lazy_variance W 2 w).
Proof.
  assert (O : forall o, match o with Some w => snd (ro_sum W w) && snd (ro_mean W w) && snd (ro_lazy_mean W 2 w) && snd (ro_moment W 2 w) && snd (ro_lazy_variance W 2 w) | None => false end = true ->
    exists w, o = Some w /\ calm (ro_sum W w) /\ calm (ro_mean W w) /\ calm (ro_lazy_mean W 2 w) /\ calm (ro_moment W 2 w) /\ calm (ro_lazy_variance W 2 w)).
  { intros [w|] H; [| discriminate]. exists w. split; [reflexivity |]. rewrite !andb_true_iff in H. unfold calm. tauto. }
  intros xs [-> | ->]; apply O; vm_compute; reflexivity.
Qed.
Lemma tail_case : ScaledOps 10 [TPush (dbl 3 0) [tt]; TPush (dbl 1 0) [tt]; TExtract; TPush (dbl 2 0) [tt]] [TPush (dbl 3 10) [tt]; TPush (dbl 1 10) [tt]; TExtract; TPush (dbl 2 10) [tt]] /\
  exists s, tail_run binary_heap (tail_pred DoubleN Left) (tail_init 2 1 d_zero tt) [TPush (dbl 3 0) [tt]; TPush (dbl 1 0) [tt]; TExtract; TPush (dbl 2 0) [tt]] = Ok s /\
    exists l, tail_result binary_heap (tail_pred DoubleN Left) s = Ok l /\ length l = 2%nat.
Proof.
  split.
  - unfold ScaledOps. apply Forall2_cons; [split; [sc 3%Z 0%Z 10%Z | reflexivity] |]. apply Forall2_cons; [split; [sc 1%Z 0%Z 10%Z | reflexivity] |].
    apply Forall2_cons; [exact I |]. apply Forall2_cons; [split; [sc 2%Z 0%Z 10%Z | reflexivity] | constructor].
  - match goal with |- exists s, ?o = Ok s /\ _ => assert (H : match o with Ok s => match tail_result binary_heap (tail_pred DoubleN Left) s with Ok l => Nat.eqb (length l) 2 | _ => false end | _ => false end = true) by (vm_compute; reflexivity); destruct o as [s| |]; try discriminate H end.
    exists s. split; [reflexivity |]. destruct (tail_result binary_heap (tail_pred DoubleN Left) s) as [l| |]; try discriminate H. exists l. split; [reflexivity |]. now apply Nat.eqb_eq.
Qed.
