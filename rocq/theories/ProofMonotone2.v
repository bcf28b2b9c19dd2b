(** Raising samples: sums, means, windows, extremes. *)
From Coq Require Import ZArith List Bool Reals Lra Lia Arith.
From Flocq Require Import Core IEEE754.BinarySingleNaN.
From Verif Require Import Num ModelBasic ModelMinMax ModelRolling ModelDouble SpecStats SpecRolling SpecDouble SpecMonotone ProofKahan ProofDouble ProofDouble2 ProofDouble4 ProofDouble5 ProofDouble6 ProofDoubleEx ProofMonotone.
Import ListNotations.
Local Open Scope R_scope.

Lemma pairs_snoc {A B} (R : A -> B -> Prop) (P : list A -> list B -> Prop) :
  P [] [] -> (forall xs ys x y, Forall2 R xs ys -> P xs ys -> R x y -> P (xs ++ [x]) (ys ++ [y])) -> forall xs ys, Forall2 R xs ys -> P xs ys.
Proof.
  intros H0 H xs. induction xs as [|x xs IH] using rev_ind; intros ys F.
  - inversion F. exact H0.
  - apply Forall2_app_inv_l in F as (ys' & l & F & G & ->). inversion G as [|? y ? l' Rxy G']; subst. inversion G'; subst. apply H; auto.
Qed.

Lemma pairs_length {A B} (R : A -> B -> Prop) xs ys : Forall2 R xs ys -> length xs = length ys.
Proof. induction 1; cbn; congruence. Qed.
Lemma sum_higher xs ys : Higher xs ys -> upto (sum_run DoubleN d_zero xs) (sum_run DoubleN d_zero ys).
Proof.
  revert xs ys. apply pairs_snoc; [apply upto_refl |]. intros xs ys x y _ IH L. rewrite !sum_snoc. now apply add_upto.
Qed.
Lemma mean_higher xs ys : Higher xs ys -> upto (lazy_mean xs) (lazy_mean ys).
Proof. intros H. rewrite !lazy_mean_is, (pairs_length _ _ _ H). apply div_upto; [apply ofnat_sign | now apply sum_higher]. Qed.
Lemma immediate_higher xs ys : Higher xs ys -> upto (immediate_mean xs) (immediate_mean ys).
Proof.
  revert xs ys. apply pairs_snoc; [apply upto_refl |]. intros xs ys x y F IH L. rewrite !imean_snoc, (pairs_length _ _ _ F).
  apply div_upto; [apply ofnat_sign |]. apply add_upto; [| exact L]. apply mul_upto; [apply sign_upto, ofnat_sign | exact IH].
Qed.

(** With weights. *)
Lemma fold_pairs {A S} (R : A -> A -> Prop) (I : S -> S -> Prop) (f : S -> A -> S) : (forall s t x y, I s t -> R x y -> I (f s x) (f t y)) ->
  forall xs ys, Forall2 R xs ys -> forall s t, I s t -> I (fold_left f xs s) (fold_left f ys t).
Proof. intros H xs ys F. induction F as [|x y xs ys Rxy F IH]; intros s t J; [exact J |]. cbn [fold_left]. apply IH, H; assumption. Qed.
Definition wnear (s t : wmean_set DoubleN) : Prop :=
  wm_W DoubleN t = wm_W DoubleN s /\ Bsign (wm_W DoubleN s : double) = false /\ upto (wm_sum DoubleN s) (wm_sum DoubleN t).
Lemma wnear_push (s t : wmean_set DoubleN) (e f : double * double) : wnear s t -> (d_lt (fst f) (fst e) = false /\ snd f = snd e /\ d_lt (snd e) d_zero = false) ->
  wnear (wmean_set_push DoubleN s e) (wmean_set_push DoubleN t f).
Proof.
  destruct s as [W S], t as [W' S'], e as [x w], f as [y w']. unfold wnear. cbn. intros (-> & P & L) (Lx & -> & Pw).
  split; [reflexivity |]. split; [exact (plus_sign _ w P Pw) |]. apply add_upto; [exact L |]. now apply mul_upto.
Qed.
Lemma wset_higher h g : HigherWeighted h g -> wnear (wmean_set_run DoubleN d_zero d_zero h) (wmean_set_run DoubleN d_zero d_zero g).
Proof.
  intros H. apply (fold_pairs _ wnear _ wnear_push h g H). split; [reflexivity |]. split; [reflexivity | apply upto_refl].
Qed.
Lemma wsum_higher h g : HigherWeighted h g -> upto (wm_sum DoubleN (wmean_set_run DoubleN d_zero d_zero h)) (wm_sum DoubleN (wmean_set_run DoubleN d_zero d_zero g)).
Proof. intros H. apply wset_higher, H. Qed.
Lemma wmean_higher h g : HigherWeighted h g ->
  upto (wmean_set_mean DoubleN (wmean_set_run DoubleN d_zero d_zero h)) (wmean_set_mean DoubleN (wmean_set_run DoubleN d_zero d_zero g)).
Proof.
  intros H. pose proof (wset_higher h g H) as E. destruct (wmean_set_run DoubleN d_zero d_zero h) as [W S], (wmean_set_run DoubleN d_zero d_zero g) as [W' S'].
  unfold wnear in E. cbn in E. destruct E as (-> & P & L). exact (div_upto _ _ _ P L).
Qed.
Definition inear (s t : wvar_set DoubleN) : Prop :=
  wv_W DoubleN t = wv_W DoubleN s /\ Bsign (wv_W DoubleN s : double) = false /\ upto (wv_mean DoubleN s) (wv_mean DoubleN t).
Lemma inear_push (s t : wvar_set DoubleN) (e f : double * double) : inear s t -> (d_lt (fst f) (fst e) = false /\ snd f = snd e /\ d_lt (snd e) d_zero = false) ->
  inear (wvar_set_push DoubleN s e) (wvar_set_push DoubleN t f).
Proof.
  destruct s as [n W m v], t as [n' W' m' v'], e as [x w], f as [y w']. unfold inear. cbn [wv_W wv_mean fst snd]. intros (-> & P & L) (Lx & -> & Pw).
  unfold wvar_set_push, sum_op, imm_weighted_mean_op. cbn [wv_W wv_mean wv_count wv_var]. 
  split; [reflexivity |]. split; [exact (plus_sign _ w P Pw) |]. apply (div_upto _ _ (d_add W w)); [exact (plus_sign _ w P Pw) |]. apply add_upto; [| now apply mul_upto].
  apply (mul_upto _ _ (d_sub (d_add W w) w)); [exact (before_weight _ w P) | exact L].
Qed.
Lemma wimmediate_higher h g : HigherWeighted h g -> inear (wvar_set_run DoubleN d_zero d_zero h) (wvar_set_run DoubleN d_zero d_zero g).
Proof.
  intros H. apply (fold_pairs _ inear _ inear_push h g H). split; [reflexivity |]. split; [reflexivity | apply upto_refl].
Qed.

(** Windows. *)
Lemma first_of_window {A} N (zs xs : list A) y r x :
  (length xs < N)%nat -> length (LastN N (zs ++ xs)) = N -> LastN N (zs ++ xs) ++ [x] = y :: r -> hd_error (LastN (N - length xs) zs) = Some y.
Proof.
  intros L1 L2 E. unfold LastN in *. rewrite app_length in *. rewrite skipn_length, app_length in L2.
  replace (length zs - (N - length xs))%nat with (length zs + length xs - N)%nat by lia.
  rewrite skipn_app in E. replace (length zs + length xs - N - length zs)%nat with 0%nat in E by lia. cbn [skipn] in E.
  destruct (skipn (length zs + length xs - N) zs) as [|a l] eqn:Q.
  - assert (length (skipn (length zs + length xs - N) zs) = 0)%nat by now rewrite Q. rewrite skipn_length in H. lia.
  - cbn in E. injection E as E _. subst. reflexivity.
Qed.
Lemma window_higher N M zs xs ys : (1 <= M)%nat -> (length xs <= N)%nat -> Higher xs ys -> forall s t, rolling N M (zs ++ xs) s -> rolling N M (zs ++ ys) t ->
  upto (r_sum s) (r_sum t).
Proof.
  intros HM L F. revert xs ys F L. apply (pairs_snoc (A := double) (B := double) _ (fun xs ys => (length xs <= N)%nat -> forall s t, rolling N M (zs ++ xs) s -> rolling N M (zs ++ ys) t -> upto (r_sum s) (r_sum t))).
  - intros _ s t E1 E2. unfold rolling in *. rewrite E1 in E2. injection E2 as <-. apply upto_refl.
  - intros xs ys x y F IH Lxy L s t E1 E2. rewrite app_length in L. cbn [length] in L. pose proof (pairs_length _ _ _ F) as LL.
    rewrite app_assoc in E1, E2. destruct (r_sum_step N M _ x s HM E1) as (s1 & R1 & C1). destruct (r_sum_step N M _ y t HM E2) as (t1 & R2 & C2).
    specialize (IH ltac:(lia) s1 t1 R1 R2).
    destruct C1 as [(a & A1 & A2 & A3) | [A1 A2]], C2 as [(b & B1 & B2 & B3) | [B1 B2]].
    + rewrite A3, B3. pose proof (first_of_window N zs xs a _ x ltac:(lia) A2 A1) as Q1. pose proof (first_of_window N zs ys b _ y ltac:(lia) B2 B1) as Q2.
      rewrite LL in Q1. rewrite Q1 in Q2. injection Q2 as <-. apply add_upto; [apply sub_upto, IH | exact Lxy].
    + exfalso. apply (f_equal (@length double)) in B1. rewrite app_length, !ProofRolling.LastN_length, !app_length in B1. rewrite ProofRolling.LastN_length, app_length in A2. cbn [length] in B1. lia.
    + exfalso. apply (f_equal (@length double)) in A1. rewrite app_length, !ProofRolling.LastN_length, !app_length in A1. rewrite ProofRolling.LastN_length, app_length in B2. cbn [length] in A1. lia.
    + rewrite A2, B2. now apply add_upto.
Qed.
Lemma window_mean_higher N M zs xs ys : (1 <= M)%nat -> (length xs <= N)%nat -> Higher xs ys -> forall s t, rolling N M (zs ++ xs) s -> rolling N M (zs ++ ys) t ->
  upto (ro_lazy_mean DoubleN N s) (ro_lazy_mean DoubleN N t).
Proof.
  intros HM L F s t E1 E2. unfold ro_lazy_mean, lazy_rolling_mean_result. rewrite (r_count N M _ s HM E1), (r_count N M _ t HM E2), !app_length, (pairs_length _ _ _ F).
  apply div_upto; [apply ofnat_sign |]. exact (window_higher N M zs xs ys HM L F s t E1 E2).
Qed.

(** Extremes, of samples that are numbers. *)
Lemma minimum_higher xs ys : Forall (fun x => ~ nan x) xs -> Forall (fun y => ~ nan y) ys -> Higher xs ys -> upto (minimum xs) (minimum ys).
Proof.
  intros H1 H2 F. revert xs ys F H1 H2. apply (pairs_snoc (A := double) (B := double) _ (fun xs ys => Forall (fun x => ~ nan x) xs -> Forall (fun y => ~ nan y) ys -> upto (minimum xs) (minimum ys))); [intros; apply upto_refl |].
  intros xs ys x y F IH L N1 N2. apply Forall_app in N1 as [N1 Nx], N2 as [N2 Ny]. inversion Nx as [|? ? Nx' _]; inversion Ny as [|? ? Ny' _]; subst. specialize (IH N1 N2).
  unfold nan in Nx', Ny'. apply not_true_is_false in Nx', Ny'. pose proof (minimum_number xs) as Q1. pose proof (minimum_number ys) as Q2.
  rewrite !minimum_snoc. apply upto_rank in IH; try assumption. change (upto x y) in L. apply upto_rank in L; try assumption.
  apply upto_by. intros _ _. destruct (d_lt x (minimum xs)) eqn:E1, (d_lt y (minimum ys)) eqn:E2; try lra.
  - apply lt_rank_true in E1; try assumption. lra.
  - apply lt_rank_false in E1; try assumption. lra.
Qed.
Lemma maximum_higher xs ys : Forall (fun x => ~ nan x) xs -> Forall (fun y => ~ nan y) ys -> Higher xs ys -> upto (maximum xs) (maximum ys).
Proof.
  intros H1 H2 F. revert xs ys F H1 H2. apply (pairs_snoc (A := double) (B := double) _ (fun xs ys => Forall (fun x => ~ nan x) xs -> Forall (fun y => ~ nan y) ys -> upto (maximum xs) (maximum ys))); [intros; apply upto_refl |].
  intros xs ys x y F IH L N1 N2. apply Forall_app in N1 as [N1 Nx], N2 as [N2 Ny]. inversion Nx as [|? ? Nx' _]; inversion Ny as [|? ? Ny' _]; subst. specialize (IH N1 N2).
  unfold nan in Nx', Ny'. apply not_true_is_false in Nx', Ny'. pose proof (maximum_number xs) as Q1. pose proof (maximum_number ys) as Q2.
  rewrite !maximum_snoc. apply upto_rank in IH; try assumption. change (upto x y) in L. apply upto_rank in L; try assumption.
  apply upto_by. intros _ _. destruct (d_lt (maximum xs) x) eqn:E1, (d_lt (maximum ys) y) eqn:E2; try lra.
  - apply lt_rank_false in E2; try assumption. lra.
  - apply lt_rank_true in E2; try assumption. lra.
Qed.

(** The statements. *)
Lemma sums_higher xs ys : Higher xs ys ->
  d_lt (sum_run DoubleN d_zero ys) (sum_run DoubleN d_zero xs) = false /\ d_lt (lazy_mean ys) (lazy_mean xs) = false /\ d_lt (immediate_mean ys) (immediate_mean xs) = false.
Proof. intros H. split; [exact (sum_higher xs ys H) |]. split; [exact (mean_higher xs ys H) | exact (immediate_higher xs ys H)]. Qed.
Lemma weighted_higher h g : HigherWeighted h g ->
  let s := wmean_set_run DoubleN d_zero d_zero h in let t := wmean_set_run DoubleN d_zero d_zero g in
  d_lt (wm_sum DoubleN t) (wm_sum DoubleN s) = false /\ d_lt (wmean_set_mean DoubleN t) (wmean_set_mean DoubleN s) = false /\
  d_lt (wv_mean DoubleN (wvar_set_run DoubleN d_zero d_zero g)) (wv_mean DoubleN (wvar_set_run DoubleN d_zero d_zero h)) = false.
Proof. intros H. split; [exact (wsum_higher h g H) |]. split; [exact (wmean_higher h g H) | exact (proj2 (proj2 (wimmediate_higher h g H)))]. Qed.
Lemma windows_higher N M zs xs ys : (1 <= M)%nat -> (length xs <= N)%nat -> Higher xs ys -> forall s t, rolling N M (zs ++ xs) s -> rolling N M (zs ++ ys) t ->
  d_lt (r_sum t) (r_sum s) = false /\ d_lt (ro_lazy_mean DoubleN N t) (ro_lazy_mean DoubleN N s) = false.
Proof. intros HM L F s t E1 E2. split; [exact (window_higher N M zs xs ys HM L F s t E1 E2) | exact (window_mean_higher N M zs xs ys HM L F s t E1 E2)]. Qed.
Lemma extremes_higher xs ys : Forall (fun x => ~ nan x) xs -> Forall (fun y => ~ nan y) ys -> Higher xs ys ->
  d_lt (minimum ys) (minimum xs) = false /\ d_lt (maximum ys) (maximum xs) = false.
Proof. intros H1 H2 F. split; [now apply minimum_higher | now apply maximum_higher]. Qed.

(** Witnesses. *)
Definition lo4 : list double := [dbl (-9007199254740992) 0; dbl (-1) 0; dbl (-2) 0; dbl 1 (-1)].
Definition hi4 : list double := [dbl (-9007199254740991) 0; dbl (-1) 0; dbl (-2) 0; dbl 1 (-1)].
Lemma left_window : Higher lo4 hi4 /\ exists s t, rolling 2 1 lo4 s /\ rolling 2 1 hi4 t /\ ro_window DoubleN 2 s = ro_window DoubleN 2 t /\ d_lt (r_sum t) (r_sum s) = true.
Proof.
  split; [repeat constructor |]. destruct (state 2 lo4) as [s Es]. destruct (state 2 hi4) as [t Et]. exists s, t. split; [exact Es |]. split; [exact Et |].
  split.
  - unfold ro_window. rewrite (roll_run_buf DoubleN 2 1 d_zero lo4 (le_n 1) s Es), (roll_run_buf DoubleN 2 1 d_zero hi4 (le_n 1) t Et). reflexivity.
  - unfold rolling in Es, Et.
    assert (Q : match roll_run DoubleN 2 1 d_zero lo4, roll_run DoubleN 2 1 d_zero hi4 with Some s, Some t => d_lt (r_sum t) (r_sum s) | _, _ => false end = true) by (vm_compute; reflexivity).
    rewrite Es, Et in Q. exact Q.
Qed.
Definition lo2 : list double := [dbl 2 0; dbl (-18014398509481984) 0].
Definition hi2 : list double := [dbl 4503599627370497 (-51); dbl (-18014398509481984) 0].
Lemma default_mean : Higher lo2 hi2 /\ exists s t, rolling 2 1 lo2 s /\ rolling 2 1 hi2 t /\ d_lt (r_mean t) (r_mean s) = true.
Proof.
  split; [repeat constructor |]. destruct (state 2 lo2) as [s Es]. destruct (state 2 hi2) as [t Et]. exists s, t. split; [exact Es |]. split; [exact Et |].
  unfold rolling in Es, Et.
  assert (Q : match roll_run DoubleN 2 1 d_zero lo2, roll_run DoubleN 2 1 d_zero hi2 with Some s, Some t => d_lt (r_mean t) (r_mean s) | _, _ => false end = true) by (vm_compute; reflexivity).
  rewrite Es, Et in Q. exact Q.
Qed.
Lemma window_case : exists s t, rolling 2 1 ([dbl 7 0; dbl 1 60] ++ [dbl 1 0; dbl 2 0]) s /\ rolling 2 1 ([dbl 7 0; dbl 1 60] ++ [dbl 1 0; dbl 4 10]) t /\
  Higher [dbl 1 0; dbl 2 0] [dbl 1 0; dbl 4 10].
Proof.
  destruct (state 2 ([dbl 7 0; dbl 1 60] ++ [dbl 1 0; dbl 2 0])) as [s Es]. destruct (state 2 ([dbl 7 0; dbl 1 60] ++ [dbl 1 0; dbl 4 10])) as [t Et].
  exists s, t. split; [exact Es |]. split; [exact Et |]. repeat constructor.
Qed.
