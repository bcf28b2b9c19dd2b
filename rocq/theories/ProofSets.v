(** Every set answers every basic feature correctly. *)

From Coq Require Import List Bool Arith Lia Field.
From Verif Require Import Num NumFacts ModelBasic SpecStats ProofBasic ProofBasic2.
From Verif Require Import ModelFramework SpecFramework ProofFramework ProofFrameworkRef ProofFrameworkRun.
From Verif Require Import ModelLibrary ProofLibrary ModelSets SpecSets.
Import ListNotations.

(** ** Closure *)

Lemma basic_closed : forall W a u d, basic a = true -> member_ok W a -> member_ok W u ->
  In d (ldeps a) -> lfeature u = lfeature d -> basic u = true.
Proof.
  intros W a u d Ha [A1 A2] [U1 U2] Hd E.
  destruct a; try discriminate Ha; cbn in Hd;
  repeat (destruct Hd as [<- | Hd]; [cbn in E |]); try (destruct Hd; fail);
  destruct u; try discriminate E; try reflexivity;
  destruct W; try discriminate U1; try discriminate A1.
Qed.

Lemma basic_needs : forall W ts, (forall t, In t ts -> member_ok W (fst t)) ->
  forall t u, Needs Library ts t u -> basic (fst t) = true -> basic (fst u) = true.
Proof.
  intros W ts Hts t u H; induction H as [a Ha | a c b Ha Hc Hr H IH]; intros Hb; [exact Hb |].
  apply IH; unfold Reads in Hr; apply in_map_iff in Hr; destruct Hr as [d [E Hd]].
  apply (basic_closed W (fst a) (fst c) d); try assumption; [now apply Hts | now apply Hts |].
  now symmetry.
Qed.

Section Sets.
Variable K : Num.
Variable HK : FieldLaws K.
Variable sqrt : car K -> car K.
Variable R : Rest K.
Hypothesis HR : RestReadsOnly R.
Local Notation T := (car K).
Local Notation B := (BasicSets K sqrt R).
Local Notation "0" := (zero K).
Local Notation "1" := (one K).
Local Notation "x + y" := (add K x y).
Local Notation "x - y" := (sub K x y).
Local Notation "x * y" := (mul K x y).
Local Notation "x / y" := (div K x y).
Add Field Kf : (fl_field K HK).

Lemma sets_read_only : ReadsOnly Library B lconsults lon_push.
Proof.
  destruct HR as [H1 H2]; split.
  - intros t r1 r2 x s H.
    assert (E : lon_push t = true -> forall f, In f (map lfeature (lconsults t)) -> r1 f = r2 f).
    { intros Hp f Hf; apply in_map_iff in Hf; destruct Hf as [d [<- Hd]]; now apply H. }
    destruct t, s; cbn; try reflexivity; try (f_equal; now apply H1);
      specialize (E eq_refl); cbn in E;
      repeat match goal with |- context [r1 ?f] => rewrite (E f) by tauto end; reflexivity.
  - intros t r1 r2 s H.
    assert (E : forall f, In f (map lfeature (lconsults t)) -> r1 f = r2 f).
    { intros f Hf; apply in_map_iff in Hf; destruct Hf as [d [<- Hd]]; now apply H. }
    destruct t, s; cbn; try reflexivity; try (f_equal; now apply H2); cbn in E;
      repeat match goal with |- context [r1 ?f] => rewrite (E f) by tauto end; reflexivity.
Qed.

(** ** Textbook identities the results rely on *)

Lemma lazy_variance_value : forall xs : list T, xs <> [] ->
  lazy_variance_result K (Moment K 2 xs) (Mean K xs) = Variance K xs.
Proof.
  intros xs H; pose proof (lazy_variance_run_spec K HK xs H) as E.
  unfold lazy_variance_run in E; destruct (mom_set_run K [2%nat] 0 xs) as [s |] eqn:Es; [| discriminate E].
  assert (F : Forall (fun N => 1 <= N)%nat [2%nat]) by (repeat constructor; lia).
  rewrite (mom_set_moment_spec K HK [2%nat] xs s 0 2 F eq_refl Es) in E.
  rewrite (mom_set_mean_spec K HK [2%nat] xs s F Es) in E; now injection E.
Qed.

Lemma skewness_value : forall xs : list T, xs <> [] ->
  skewness_result K sqrt (Moment K 3 xs) (Moment K 2 xs) (Mean K xs)
  = CentralMoment K 3 xs / (Variance K xs * sqrt (Variance K xs)).
Proof.
  intros xs H; pose proof (skewness_run_spec K HK sqrt xs H) as E.
  unfold skewness_run in E; destruct (mom_set_run K [2%nat; 3%nat] 0 xs) as [s |] eqn:Es; [| discriminate E].
  assert (F : Forall (fun N => 1 <= N)%nat [2%nat; 3%nat]) by (repeat constructor; lia).
  rewrite (mom_set_moment_spec K HK _ xs s 0 2 F eq_refl Es) in E.
  rewrite (mom_set_moment_spec K HK _ xs s 1 3 F eq_refl Es) in E.
  rewrite (mom_set_mean_spec K HK _ xs s F Es) in E; now injection E.
Qed.

Lemma kurtosis_value : forall xs : list T, xs <> [] ->
  kurtosis_result K (Moment K 4 xs) (Moment K 3 xs) (Moment K 2 xs) (Mean K xs)
  = CentralMoment K 4 xs / (Variance K xs * Variance K xs) - ofnat K 3.
Proof.
  intros xs H; pose proof (kurtosis_run_spec K HK xs H) as E.
  unfold kurtosis_run in E; destruct (mom_set_run K [2%nat; 3%nat; 4%nat] 0 xs) as [s |] eqn:Es; [| discriminate E].
  assert (F : Forall (fun N => 1 <= N)%nat [2%nat; 3%nat; 4%nat]) by (repeat constructor; lia).
  rewrite (mom_set_moment_spec K HK _ xs s 0 2 F eq_refl Es) in E.
  rewrite (mom_set_moment_spec K HK _ xs s 1 3 F eq_refl Es) in E.
  rewrite (mom_set_moment_spec K HK _ xs s 2 4 F eq_refl Es) in E.
  rewrite (mom_set_mean_spec K HK _ xs s F Es) in E; now injection E.
Qed.

Lemma lazy_weighted_variance_value : forall h : list (T * T), TotalWeight K h <> 0 ->
  lazy_weighted_variance_result K (WMoment K 2 h) (WMean K h) = WVariance K h.
Proof.
  intros h H; pose proof (lazy_weighted_variance_run_spec K HK h H) as E.
  unfold lazy_weighted_variance_run in E; destruct (wmom_set_run K [2%nat] 0 0 h) as [s |] eqn:Es; [| discriminate E].
  assert (F : Forall (fun N => 1 <= N)%nat [2%nat]) by (repeat constructor; lia).
  rewrite (wmom_set_moment_spec K HK _ h s 0 2 F eq_refl Es) in E.
  rewrite (wmom_set_mean_spec K HK _ h s F Es) in E; now injection E.
Qed.

Lemma weighted_skewness_value : forall h : list (T * T), TotalWeight K h <> 0 ->
  skewness_result K sqrt (WMoment K 3 h) (WMoment K 2 h) (WMean K h)
  = WCentralMoment K 3 h / (WVariance K h * sqrt (WVariance K h)).
Proof.
  intros h H; pose proof (weighted_skewness_run_spec K HK sqrt h H) as E.
  unfold weighted_skewness_run in E; destruct (wmom_set_run K [2%nat; 3%nat] 0 0 h) as [s |] eqn:Es; [| discriminate E].
  assert (F : Forall (fun N => 1 <= N)%nat [2%nat; 3%nat]) by (repeat constructor; lia).
  rewrite (wmom_set_moment_spec K HK _ h s 0 2 F eq_refl Es) in E.
  rewrite (wmom_set_moment_spec K HK _ h s 1 3 F eq_refl Es) in E.
  rewrite (wmom_set_mean_spec K HK _ h s F Es) in E; now injection E.
Qed.

Lemma weighted_kurtosis_value : forall h : list (T * T), TotalWeight K h <> 0 ->
  kurtosis_result K (WMoment K 4 h) (WMoment K 3 h) (WMoment K 2 h) (WMean K h)
  = WCentralMoment K 4 h / (WVariance K h * WVariance K h) - ofnat K 3.
Proof.
  intros h H; pose proof (weighted_kurtosis_run_spec K HK h H) as E.
  unfold weighted_kurtosis_run in E; destruct (wmom_set_run K [2%nat; 3%nat; 4%nat] 0 0 h) as [s |] eqn:Es; [| discriminate E].
  assert (F : Forall (fun N => 1 <= N)%nat [2%nat; 3%nat; 4%nat]) by (repeat constructor; lia).
  rewrite (wmom_set_moment_spec K HK _ h s 0 2 F eq_refl Es) in E.
  rewrite (wmom_set_moment_spec K HK _ h s 1 3 F eq_refl Es) in E.
  rewrite (wmom_set_moment_spec K HK _ h s 2 4 F eq_refl Es) in E.
  rewrite (wmom_set_mean_spec K HK _ h s F Es) in E; now injection E.
Qed.

(** Weights are what they are, whatever they are attached to. *)
Lemma PWN_other : forall A C D (f : D -> A) (g : D -> C) (w : D -> T) l,
  PrefixWeightsNonzero K (map (fun x => (f x, w x)) l) ->
  PrefixWeightsNonzero K (map (fun x => (g x, w x)) l).
Proof.
  intros A C D f g w l H p q E Hp.
  apply map_eq_app in E; destruct E as (l1 & l2 & -> & <- & <-).
  assert (N : map (fun x => (f x, w x)) l1 <> []) by (destruct l1; [now elim Hp | discriminate]).
  specialize (H (map (fun x => (f x, w x)) l1) (map (fun x => (f x, w x)) l2)
                (map_app _ _ _) N).
  unfold TotalWeight in *; rewrite (total_map K) in H; rewrite (total_map K); exact H.
Qed.

Lemma TotalWeight_of : forall A D (f : D -> A) (w : D -> T) l,
  TotalWeight K (map (fun x => (f x, w x)) l) = total K (fun x => x) (map w l).
Proof. intros; unfold TotalWeight; now rewrite !(total_map K). Qed.

(** ** Proper states *)

Definition cls (W : bool) (v : nat) (t : ltag) : Prop :=
  basic t = true /\ member_ok W t /\ order_ok t /\ (forall n, variate_of t = Some n -> n = v).

Local Notation valid := (WeightsOk K).

Definition good (v : nat) (t : ltag) (xs : list (pack K)) (s : cell K (XState K R)) : Prop :=
  let id := fun x : T => x in
  let wx := fun p : T * T => snd p * fst p in
  match t with
  | t_count => s = CNat (length xs)
  | t_sum => s = CNum (total K id (samples_of K xs))
  | t_sum_kahan => s = CPair (total K id (samples_of K xs)) 0
  | t_sum_of_weights => s = CNum (total K id (weights_of K xs))
  | t_sum_of_weights_kahan => s = CPair (total K id (weights_of K xs)) 0
  | t_sum_of_variates _ => s = CNum (total K id (variates_of K xs v))
  | t_sum_of_variates_kahan _ => s = CPair (total K id (variates_of K xs v)) 0
  | t_weighted_sum => s = CNum (total K wx (weighted_samples K xs))
  | t_weighted_sum_kahan => s = CPair (total K wx (weighted_samples K xs)) 0
  | t_weighted_sum_of_variates _ => s = CNum (total K wx (weighted_variates K xs v))
  | t_weighted_sum_of_variates_kahan _ => s = CPair (total K wx (weighted_variates K xs v)) 0
  | t_immediate_mean => s = CNum (im_mean K (imean_set_run K 0 (samples_of K xs)))
  | t_immediate_mean_of_weights => s = CNum (im_mean K (imean_set_run K 0 (weights_of K xs)))
  | t_immediate_mean_of_variates _ => s = CNum (im_mean K (imean_set_run K 0 (variates_of K xs v)))
  | t_immediate_weighted_mean => s = CNum (wv_mean K (wvar_set_run K 0 0 (weighted_samples K xs)))
  | t_immediate_weighted_mean_of_variates _ =>
      s = CNum (wv_mean K (wvar_set_run K 0 0 (weighted_variates K xs v)))
  | t_moment n => s = CNum (total K (fun x => power K x n) (samples_of K xs))
  | t_weighted_moment n =>
      s = CNum (total K (fun p => snd p * power K (fst p) n) (weighted_samples K xs))
  | t_variance => s = CNum (vs_var K (var_set_run K 0 (samples_of K xs)))
  | t_weighted_variance => s = CNum (wv_var K (wvar_set_run K 0 0 (weighted_samples K xs)))
  | t_covariance _ => s = CNum (cs_cov K (cov_set_run K 0 0 (pairs_of K xs v)))
  | t_weighted_covariance _ => s = CNum (wc_cov K (wcov_set_run K 0 0 0 (weighted_pairs K xs v)))
  | _ => True
  end.

Lemma good_init : forall W v t, cls W v t -> good v t [] (init Library B t).
Proof.
  intros W v t [Hb _]; destruct t; try discriminate Hb; cbn; try exact I; try reflexivity;
  unfold sum_init, weighted_sum_init, kahan_init, weighted_kahan_init, moment_init,
    weighted_moment_init; cbn; f_equal; ring.
Qed.

Lemma snoc_nonempty : forall A (xs : list A) x, xs ++ [x] <> [].
Proof. intros A [| y xs] x; discriminate. Qed.

Lemma kahan_exact : forall a x, kahan_op K (a, 0) x = (a + x, 0).
Proof. intros a x; unfold kahan_op; f_equal; ring. Qed.

Lemma weighted_kahan_exact : forall a x w, weighted_kahan_op K (a, 0) x w = (a + w * x, 0).
Proof. intros a x w; unfold weighted_kahan_op; f_equal; ring. Qed.

Lemma imean_snoc : forall l x,
  im_mean K (imean_set_run K 0 (l ++ [x]))
  = imm_mean_op K (im_mean K (imean_set_run K 0 l)) (S (length l)) x.
Proof.
  intros l x; unfold imean_set_run at 1; rewrite fold_left_app; cbn [fold_left].
  fold (imean_set_run K 0 l); unfold imean_set_push; cbn [im_mean].
  now rewrite (imean_run_count K 0 l).
Qed.

Lemma wvar_snoc : forall l x w,
  wv_mean K (wvar_set_run K 0 0 (l ++ [(x, w)]))
  = imm_weighted_mean_op K (wv_mean K (wvar_set_run K 0 0 l)) (TotalWeight K (l ++ [(x, w)])) x w
  /\ wv_var K (wvar_set_run K 0 0 (l ++ [(x, w)]))
     = weighted_variance_op K (wv_var K (wvar_set_run K 0 0 l))
         (wv_mean K (wvar_set_run K 0 0 (l ++ [(x, w)]))) (TotalWeight K (l ++ [(x, w)]))
         (S (length l)) x w.
Proof.
  intros l x w; destruct (wvar_run_counts K HK 0 l) as [Ec Ew].
  unfold wvar_set_run; rewrite !fold_left_app; cbn [fold_left].
  fold (wvar_set_run K 0 0 l); unfold wvar_set_push; cbn [wv_mean wv_var].
  rewrite Ec, Ew; unfold TotalWeight; rewrite (total_snoc K HK); cbn [snd]; now split.
Qed.

Lemma var_snoc : forall l x,
  vs_var K (var_set_run K 0 (l ++ [x]))
  = variance_op K (vs_var K (var_set_run K 0 l)) (vs_mean K (var_set_run K 0 (l ++ [x])))
      (S (length l)) x.
Proof.
  intros l x; destruct (var_run_counts K 0 l) as [Ec _].
  unfold var_set_run; rewrite !fold_left_app; cbn [fold_left].
  fold (var_set_run K 0 l); unfold var_set_push; cbn [vs_mean vs_var]; now rewrite Ec.
Qed.

Lemma cov_snoc : forall l x y,
  cs_cov K (cov_set_run K 0 0 (l ++ [(x, y)]))
  = covariance_op K (cs_cov K (cov_set_run K 0 0 l)) (Mean K (map snd (l ++ [(x, y)])))
      (Mean K (map fst (l ++ [(x, y)]))) (S (length l)) x y.
Proof.
  intros l x y; destruct (cov_run_sums K HK l) as (Ec & E1 & E2).
  unfold cov_set_run; rewrite !fold_left_app; cbn [fold_left].
  fold (cov_set_run K 0 0 l); unfold cov_set_push; cbn [cs_cov fst snd].
  rewrite Ec, E1, E2; unfold Mean, average, mean_result, sum_op.
  rewrite !map_length, !app_length, !(total_map K), !(total_snoc K HK); cbn [length fst snd].
  now rewrite (Nat.add_comm (length l) 1).
Qed.

Lemma wcov_snoc : forall l x y w,
  wc_cov K (wcov_set_run K 0 0 0 (l ++ [(x, y, w)]))
  = weighted_covariance_op K (wc_cov K (wcov_set_run K 0 0 0 l))
      (waverage K snd (l ++ [(x, y, w)])) (waverage K fst (l ++ [(x, y, w)]))
      (TotalWeight K (l ++ [(x, y, w)])) (S (length l)) x y w.
Proof.
  intros l x y w; destruct (wcov_run_sums K HK l) as (Ec & Ew & E1 & E2).
  unfold wcov_set_run; rewrite !fold_left_app; cbn [fold_left].
  fold (wcov_set_run K 0 0 0 l); unfold wcov_set_push; cbn [wc_cov].
  rewrite Ec, Ew, E1, E2; unfold waverage, weighted_mean_result, sum_op, weighted_sum_op, TotalWeight.
  rewrite !(total_snoc K HK); cbn [fst snd].
  f_equal; f_equal; ring.
Qed.

Local Notation Answer := (Answer K sqrt (XResult K R)).

Lemma good_step : forall W v t xs x s r, cls W v t -> valid W (xs ++ [x]) -> good v t xs s ->
  (lon_push t = true -> forall d, In d (lconsults t) ->
     Answer W v (lfeature d) (xs ++ [x]) (r (lfeature d))) ->
  good v t (xs ++ [x]) (step Library B t r x s).
Proof.
  intros W v t xs x s r (Hb & [M1 M2] & Ho & Hv) V G Hr.
  assert (E : lon_push t = true -> forall f, In f (map lfeature (lconsults t)) ->
            Answer W v f (xs ++ [x]) (r f)).
  { intros Hp f Hf; apply in_map_iff in Hf; destruct Hf as [d [<- Hd]]; now apply Hr. }
  clear Hr.
  pose proof (snoc_nonempty _ xs x) as NE.
  assert (EL : length (xs ++ [x]) = S (length xs)) by (rewrite app_length; cbn; lia).
  assert (Ew : TotalWeight K (weighted_samples K (xs ++ [x])) = total K (fun x => x) (weights_of K (xs ++ [x])))
    by apply TotalWeight_of.
  assert (Ev : TotalWeight K (weighted_variates K (xs ++ [x]) v) = total K (fun x => x) (weights_of K (xs ++ [x])))
    by apply TotalWeight_of.
  assert (Ep : TotalWeight K (weighted_pairs K (xs ++ [x]) v) = total K (fun x => x) (weights_of K (xs ++ [x])))
    by apply TotalWeight_of.
  assert (PV : W = true -> PrefixWeightsNonzero K (weighted_variates K (xs ++ [x]) v))
    by (intros HW; exact (PWN_other _ _ _ p_sample (fun p => p_variate p v) p_weight _ (V HW))).
  destruct t; try discriminate Hb; cbn [good] in *; try exact I; subst s;
    cbn [step BasicSets bstep].
  - now rewrite EL.
  - unfold samples_of; rewrite map_app; cbn [map]; now rewrite (total_snoc K HK).
  - rewrite kahan_exact; unfold of_pair, samples_of; rewrite map_app; cbn [map fst snd].
    now rewrite (total_snoc K HK).
  - unfold weighted_samples; rewrite map_app; cbn [map]; rewrite (total_snoc K HK); cbn [fst snd].
    unfold weighted_sum_op; f_equal; ring.
  - rewrite weighted_kahan_exact; unfold of_pair, weighted_samples; rewrite map_app; cbn [map fst snd].
    now rewrite (total_snoc K HK).
  - unfold weights_of; rewrite map_app; cbn [map]; now rewrite (total_snoc K HK).
  - rewrite kahan_exact; unfold of_pair, weights_of; rewrite map_app; cbn [map fst snd].
    now rewrite (total_snoc K HK).
  - rewrite (Hv _ eq_refl).
    unfold variates_of; rewrite map_app; cbn [map]; now rewrite (total_snoc K HK).
  - rewrite (Hv _ eq_refl).
    rewrite kahan_exact; unfold of_pair, variates_of; rewrite map_app; cbn [map fst snd].
    now rewrite (total_snoc K HK).
  - rewrite (Hv _ eq_refl).
    unfold weighted_variates; rewrite map_app; cbn [map]; rewrite (total_snoc K HK); cbn [fst snd].
    unfold weighted_sum_op; f_equal; ring.
  - rewrite (Hv _ eq_refl).
    rewrite weighted_kahan_exact; unfold of_pair, weighted_variates; rewrite map_app; cbn [map fst snd].
    now rewrite (total_snoc K HK).
  - (* immediate_mean *)
    specialize (E eq_refl); pose proof (E t_count (or_introl eq_refl)) as Ec; cbn in Ec.
    rewrite Ec; cbn [vnat]; rewrite EL; unfold samples_of; rewrite map_app; cbn [map].
    rewrite imean_snoc, map_length; reflexivity.
  - (* immediate_weighted_mean *)
    specialize (E eq_refl); pose proof (E t_sum_of_weights (or_introl eq_refl)) as Ec; cbn in Ec.
    rewrite Ec; cbn [vnum]; rewrite <- Ew; unfold weighted_samples; rewrite map_app; cbn [map].
    now rewrite (proj1 (wvar_snoc _ _ _)).
  - specialize (E eq_refl); pose proof (E t_count (or_introl eq_refl)) as Ec; cbn in Ec.
    rewrite Ec; cbn [vnat]; rewrite EL; unfold weights_of; rewrite map_app; cbn [map].
    rewrite imean_snoc, map_length; reflexivity.
  - rewrite (Hv _ eq_refl) in *.
    specialize (E eq_refl); pose proof (E t_count (or_introl eq_refl)) as Ec; cbn in Ec.
    rewrite Ec; cbn [vnat]; rewrite EL; unfold variates_of; rewrite map_app; cbn [map].
    rewrite imean_snoc, map_length; reflexivity.
  - rewrite (Hv _ eq_refl) in *.
    specialize (E eq_refl); pose proof (E t_sum_of_weights (or_introl eq_refl)) as Ec; cbn in Ec.
    rewrite Ec; cbn [vnum]; rewrite <- Ev; unfold weighted_variates; rewrite map_app; cbn [map].
    now rewrite (proj1 (wvar_snoc _ _ _)).
  - (* moment *)
    unfold moment_op; rewrite (npow_spec K HK) by exact Ho; cbn [of_option].
    unfold samples_of; rewrite map_app; cbn [map]; now rewrite (total_snoc K HK).
  - unfold weighted_moment_op; rewrite (npow_spec K HK) by exact Ho; cbn [of_option].
    unfold weighted_samples; rewrite map_app; cbn [map]; now rewrite (total_snoc K HK).
  - (* variance *)
    destruct W; [discriminate (M2 eq_refl) |].
    specialize (E eq_refl).
    pose proof (E t_count (or_introl eq_refl)) as Ec; cbn in Ec.
    pose proof (E t_mean (or_intror (or_introl eq_refl)) NE) as Em; cbn in Em.
    rewrite Ec, Em; cbn [vnat vnum]; rewrite EL.
    assert (Hm : vs_mean K (var_set_run K 0 (samples_of K (xs ++ [x]))) = Mean K (samples_of K (xs ++ [x]))).
    { rewrite (proj2 (var_run_counts K 0 _)); apply (imean_run_spec K HK).
      unfold samples_of; destruct xs; discriminate. }
    rewrite <- Hm; unfold samples_of; rewrite map_app; cbn [map].
    rewrite var_snoc, map_length; reflexivity.
  - (* weighted_variance *)
    destruct W; [| discriminate M1].
    specialize (E eq_refl).
    pose proof (E t_count (or_introl eq_refl)) as Ec; cbn in Ec.
    pose proof (E t_mean (or_intror (or_introl eq_refl)) NE) as Em; cbn in Em.
    pose proof (E t_sum_of_weights (or_intror (or_intror (or_introl eq_refl)))) as Es; cbn in Es.
    rewrite Ec, Em, Es; cbn [vnat vnum]; rewrite EL, <- Ew.
    assert (Hm : wv_mean K (wvar_set_run K 0 0 (weighted_samples K (xs ++ [x])))
                 = WMean K (weighted_samples K (xs ++ [x]))).
    { apply (wvar_run_mean_spec K HK); [unfold weighted_samples; destruct xs; discriminate | now apply V]. }
    rewrite <- Hm; unfold weighted_samples; rewrite map_app; cbn [map].
    rewrite (proj2 (wvar_snoc _ _ _)), map_length; reflexivity.
  - (* covariance *)
    destruct W; [discriminate (M2 eq_refl) |].
    rewrite (Hv _ eq_refl) in *; specialize (E eq_refl).
    pose proof (E t_count (or_introl eq_refl)) as Ec; cbn in Ec.
    pose proof (E t_mean (or_intror (or_introl eq_refl)) NE) as Em; cbn in Em.
    pose proof (E (t_mean_of_variates v) (or_intror (or_intror (or_introl eq_refl))) eq_refl NE) as Es;
      cbn in Es.
    rewrite Ec, Em, Es; cbn [vnat vnum]; rewrite EL.
    unfold pairs_of; rewrite map_app; cbn [map]; rewrite cov_snoc, map_length.
    unfold samples_of, variates_of; rewrite !map_app, !map_map; cbn [map]; reflexivity.
  - destruct W; [| discriminate M1].
    rewrite (Hv _ eq_refl) in *; specialize (E eq_refl).
    pose proof (E t_count (or_introl eq_refl)) as Ec; cbn in Ec.
    pose proof (E t_sum_of_weights (or_intror (or_introl eq_refl))) as Es; cbn in Es.
    pose proof (E t_mean (or_intror (or_intror (or_introl eq_refl))) NE) as Em; cbn in Em.
    pose proof (E (t_mean_of_variates v) (or_intror (or_intror (or_intror (or_introl eq_refl)))) eq_refl NE)
      as Ey; cbn in Ey.
    rewrite Ec, Em, Es, Ey; cbn [vnat vnum]; rewrite EL, <- Ep.
    replace (WMean K (weighted_samples K (xs ++ [x])))
      with (waverage K fst (weighted_pairs K (xs ++ [x]) v)).
    2: { unfold WMean, waverage; rewrite Ew, Ep; unfold weighted_pairs, weighted_samples.
         now rewrite !(total_map K). }
    replace (WMean K (weighted_variates K (xs ++ [x]) v))
      with (waverage K snd (weighted_pairs K (xs ++ [x]) v)).
    2: { unfold WMean, waverage; rewrite Ev, Ep; unfold weighted_pairs, weighted_variates.
         now rewrite !(total_map K). }
    unfold weighted_pairs; rewrite map_app; cbn [map]; rewrite wcov_snoc, map_length; reflexivity.
Qed.

Ltac feed E NE f :=
  let H := fresh "H" in
  pose proof (E f ltac:(cbn; tauto)) as H; cbn in H;
  repeat first [specialize (H eq_refl) | specialize (H NE)];
  rewrite H; clear H.

Lemma good_result : forall W v t xs s r, cls W v t -> valid W xs -> good v t xs s ->
  (forall d, In d (lconsults t) -> Answer W v (lfeature d) xs (r (lfeature d))) ->
  Answer W v (lfeature t) xs (result Library B t r s).
Proof.
  intros W v t xs s r (Hb & [M1 M2] & Ho & Hv) V G Hr.
  assert (E : forall f, In f (map lfeature (lconsults t)) -> Answer W v f xs (r f)).
  { intros f Hf; apply in_map_iff in Hf; destruct Hf as [d [<- Hd]]; now apply Hr. }
  clear Hr.
  assert (NS : forall A (f : pack K -> A), xs <> [] -> map f xs <> []).
  { intros A f H; destruct xs; [now elim H | discriminate]. }
  assert (Ew : TotalWeight K (weighted_samples K xs) = total K (fun x => x) (weights_of K xs))
    by apply TotalWeight_of.
  assert (Ev : TotalWeight K (weighted_variates K xs v) = total K (fun x => x) (weights_of K xs))
    by apply TotalWeight_of.
  assert (TW : W = true -> xs <> [] -> TotalWeight K (weighted_samples K xs) <> 0).
  { intros HW H; apply (V HW _ []); [now rewrite app_nil_r | now apply NS]. }
  assert (PV : W = true -> PrefixWeightsNonzero K (weighted_variates K xs v))
    by (intros HW; exact (PWN_other _ _ _ p_sample (fun p => p_variate p v) p_weight _ (V HW))).
  assert (PP : W = true -> PrefixWeightsNonzero K (weighted_pairs K xs v))
    by (intros HW; exact (PWN_other _ _ _ p_sample (fun p => (p_sample p, p_variate p v)) p_weight _ (V HW))).
  destruct t; try discriminate Hb; cbn [good] in G;
    try (destruct W; [discriminate (M2 eq_refl) |]);
    try (destruct W; [| discriminate M1]); cbn in E |- *;
    try (subst s; reflexivity);
    try (rewrite (Hv _ eq_refl) in * );
    try match goal with |- ?n = ?n -> _ => intros _ end; try (intros NE); try (subst s; cbn);
    try match goal with |- _ -> _ => intros NE end.

  - feed E NE t_sum; feed E NE t_count; f_equal.
    cbn; unfold mean_result, Mean, average, samples_of; now rewrite map_length.
  - f_equal; apply (imean_run_spec K HK); now apply NS.
  - feed E NE t_sum; feed E NE t_sum_of_weights; f_equal.
    cbn; unfold weighted_mean_result, WMean, waverage; now rewrite Ew.
  - f_equal; apply (wvar_run_mean_spec K HK); [now apply NS | now apply V].
  - feed E NE t_sum_of_weights; feed E NE t_count; f_equal.
    cbn; unfold mean_result, Mean, average, weights_of; now rewrite map_length.
  - f_equal; apply (imean_run_spec K HK); now apply NS.
  - feed E NE t_abstract_sum_of_variates; feed E NE t_count; f_equal.
    cbn; unfold mean_result, Mean, average, variates_of; now rewrite map_length.
  - f_equal; apply (imean_run_spec K HK); now apply NS.
  - feed E NE t_abstract_weighted_sum_of_variates; feed E NE t_sum_of_weights; f_equal.
    cbn; unfold weighted_mean_result, WMean, waverage; now rewrite Ev.
  - f_equal; apply (wvar_run_mean_spec K HK); [now apply NS | now apply PV].
  - feed E NE t_count; f_equal.
    cbn; unfold moment_result, Moment, average, samples_of; now rewrite map_length.
  - feed E NE t_sum_of_weights; f_equal.
    cbn; unfold weighted_moment_result, WMoment, waverage; now rewrite Ew.
  - f_equal; apply (var_run_spec K HK); now apply NS.
  - feed E NE (t_moment 2); feed E NE t_mean.
    f_equal; apply lazy_variance_value; now apply NS.
  - f_equal; apply (wvar_run_spec K HK); [now apply NS | now apply V].
  - feed E NE (t_moment 2); feed E NE t_mean.
    f_equal; apply lazy_weighted_variance_value; now apply TW.
  - feed E NE (t_moment 3); feed E NE (t_moment 2); feed E NE t_mean.
    f_equal; apply skewness_value; now apply NS.
  - feed E NE (t_moment 3); feed E NE (t_moment 2); feed E NE t_mean.
    f_equal; apply weighted_skewness_value; now apply TW.
  - feed E NE (t_moment 4); feed E NE (t_moment 3); feed E NE (t_moment 2); feed E NE t_mean.
    f_equal; apply kurtosis_value; now apply NS.
  - feed E NE (t_moment 4); feed E NE (t_moment 3); feed E NE (t_moment 2); feed E NE t_mean.
    f_equal; apply weighted_kurtosis_value; now apply TW.
  - f_equal; apply (cov_run_spec K HK); now apply NS.
  - f_equal; apply (wcov_run_spec K HK); [now apply NS | now apply PP].
  - destruct W; [discriminate M1 |]; feed E NE t_variance; feed E NE t_count; reflexivity.
  - destruct W; [discriminate M1 |]; feed E NE t_variance; feed E NE t_count; reflexivity.
Qed.

(** ** The theorem *)

Section Final.
Variable enum : fmap Library -> fmap Library.
Hypothesis Henum : Enumeration Library enum.
Variable W : bool.
Variable fs : list (request Library).
Let ts := make_tuple Library enum W fs.
Let s0 := construct Library B enum W fs.
Hypothesis Hts : forall t, In t ts -> laccepted W (fst t) = true.
Hypothesis Hroll : forall a b, In a ts -> In b ts ->
  rolling_variance_kind (fst a) = true -> fst b <> t_lazy_rolling_mean.
Variable v : nat.
Hypothesis Hord : forall t, In t ts -> order_ok (fst t).
Hypothesis Hvar : forall t n, In t ts -> variate_of (fst t) = Some n -> n = v.

Theorem sets_answer : forall es t, In t ts -> basic (fst t) = true ->
  (forall ea eb, es = ea ++ eb -> forall a, In a (history Library B s0 ea) ->
     Needs Library ts t (who Library B a) -> is_dropped Library B a = false) ->
  valid W (samples Library B es) ->
  Answer W v (ffeature Library t) (samples Library B es)
    (read Library B (history Library B s0 es) (ffeature Library t)).
Proof.
  intros es t Ht Hb Hd Hv.
  pose proof (tuple_ok enum Henum W fs Hts) as Hok.
  apply (correct_history Library B library_laws lconsults lon_push sets_read_only
           (valid W) (good v) (Answer W v) (cls W v)); try assumption.
  - intros xs x V E p q Hp Hne; apply (V E p (q ++ map (fun p => (p_sample p, p_weight p)) [x])); [| assumption].
    etransitivity; [apply map_app |]; etransitivity; [| apply app_assoc_reverse].
    f_equal; exact Hp.
  - apply good_init.
  - apply good_step.
  - apply good_result.
  - now apply library_supplied.
  - now apply library_push_ordered.
  - intros u Hu.
    assert (Iu : In u ts) by (clear - Hu; induction Hu; assumption).
    split; [now apply (basic_needs W ts Hok t u Hu) | split; [now apply Hok | split; [now apply Hord |]]].
    intros n; now apply Hvar.
Qed.
End Final.
End Sets.
