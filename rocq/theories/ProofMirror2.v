(** The statistics in a mirror, for any arithmetic whose operations are odd or even. *)
From Coq Require Import List Bool Arith Lia.
From Verif Require Import Num ModelBasic ModelRolling ModelTail ProofDouble5.
Import ListNotations.
Declare Scope num_scope.
Delimit Scope num_scope with num.

Lemma fold_rel {A B C D : Type} (P : A -> B -> Prop) (Q : C -> D -> Prop) (f : C -> A -> C) (g : D -> B -> D) xs ys :
  (forall a b x y, Q a b -> P x y -> Q (f a x) (g b y)) -> Forall2 P xs ys -> forall a b, Q a b -> Q (fold_left f xs a) (fold_left g ys b).
Proof. intros H F. induction F as [|x y xs ys E F IH]; intros a b H0; cbn; auto. Qed.
Definition both {A B : Type} (Q : A -> B -> Prop) (a : option A) (b : option B) : Prop :=
  match a, b with Some a, Some b => Q a b | None, None => True | _, _ => False end.
Lemma odd_half n : xorb false (Nat.odd n) = negb (Nat.eqb (n mod 2) 0).
Proof.
  rewrite xorb_false_l. destruct (Nat.Even_or_Odd n) as [[k ->] | [k ->]].
  - rewrite Nat.mul_comm, Nat.mod_mul by lia. rewrite Nat.odd_mul. cbn. now rewrite andb_false_r.
  - rewrite Nat.add_comm, Nat.mul_comm, Nat.mod_add by lia. rewrite Nat.odd_add_mul_2 || rewrite Nat.mul_comm, Nat.odd_add_mul_2. reflexivity.
Qed.

Section AnyArithmetic.
  Context (K : Num).
  Local Notation T := (car K).
  Context (R : bool -> T -> T -> Prop).
  Local Notation "0" := (zero K) : num_scope.
  Local Notation "x + y" := (add K x y) : num_scope.
  Local Notation "x - y" := (sub K x y) : num_scope.
  Local Notation "x * y" := (mul K x y) : num_scope.
  Local Notation "x / y" := (div K x y) : num_scope.
  Local Notation "x <? y" := (ltb K x y) : num_scope.
  Local Open Scope num_scope.
  Context (R_refl : forall x, R false x x) (R_zero : forall s, R s 0 0)
    (R_add : forall s a b x y, R s a b -> R s x y -> R s (a + x) (b + y))
    (R_sub : forall s a b x y, R s a b -> R s x y -> R s (a - x) (b - y))
    (R_mul : forall s t a b x y, R s a b -> R t x y -> R (xorb s t) (a * x) (b * y))
    (R_div : forall s a b c, R s a b -> R s (a / c) (b / c))
    (R_lt : forall s a b x y, R s a b -> R s x y -> b <? y = if s then x <? a else a <? x)
    (R_swap : forall a b x y, R true a b -> R true x y -> R false (a - x) (y - b))
    (R_sub_add : forall a b x y, R true a b -> R false x y -> R true (a - x) (b + y))
    (R_add_sub : forall a b x y, R true a b -> R false x y -> R true (a + x) (b - y))
    (lt_asym : forall x y, x <? y = true -> y <? x = false).

  Lemma R_sq s a b x y : R s a b -> R s x y -> R false (a * x) (b * y).
  Proof. intros H1 H2. rewrite <- (xorb_nilpotent s). now apply R_mul. Qed.
  Lemma R_mul_r s a b c : R s a b -> R s (a * c) (b * c).
  Proof. intros H. rewrite <- (xorb_false_r s). now apply R_mul. Qed.
  Lemma R_mul_l s a b c : R s a b -> R s (c * a) (c * b).
  Proof. intros H. rewrite <- (xorb_false_l s). now apply R_mul. Qed.
  Lemma R_even s a b x y : R false a b -> R s x y -> R s (a * x) (b * y).
  Proof. intros H1 H2. rewrite <- (xorb_false_l s). now apply R_mul. Qed.

  Section Turn.
  Context (s : bool).
  Lemma turn_sum xs ys : Forall2 (R s) xs ys -> R s (sum_run K 0 xs) (sum_run K 0 ys).
  Proof. intros F. apply (fold_rel (R s) (R s)); [| exact F | apply R_zero]. intros. now apply R_add. Qed.
  Lemma turn_kahan xs ys : Forall2 (R s) xs ys -> R s (fst (kahan_run K 0 xs)) (fst (kahan_run K 0 ys)).
  Proof.
    intros F. apply (fold_rel (R s) (fun a b => R s (fst a) (fst b) /\ R s (snd a) (snd b)) (kahan_op K) (kahan_op K)); [| exact F | split; apply R_zero].
    intros [a a'] [b b'] x y [H1 H2] H. cbn in *. split; repeat first [apply R_sub | apply R_add]; assumption.
  Qed.
  Lemma turn_mean xs ys : Forall2 (R s) xs ys -> R s (mean_set_mean K (mean_set_run K 0 xs)) (mean_set_mean K (mean_set_run K 0 ys)).
  Proof.
    intros F. assert (H : ms_count K (mean_set_run K 0 xs) = ms_count K (mean_set_run K 0 ys) /\ R s (ms_sum K (mean_set_run K 0 xs)) (ms_sum K (mean_set_run K 0 ys))).
    { apply (fold_rel (R s) (fun a b => ms_count K a = ms_count K b /\ R s (ms_sum K a) (ms_sum K b))); [| exact F | split; [reflexivity | apply R_zero]].
      intros [n a] [m b] x y [H1 H2] H. cbn in *. split; [congruence | now apply R_add]. }
    destruct H as [H1 H2]. unfold mean_set_mean, mean_result. rewrite H1. now apply R_div.
  Qed.
  Lemma turn_imean xs ys : Forall2 (R s) xs ys -> R s (im_mean K (imean_set_run K 0 xs)) (im_mean K (imean_set_run K 0 ys)).
  Proof.
    intros F. apply (fold_rel (R s) (fun a b => im_count K a = im_count K b /\ R s (im_mean K a) (im_mean K b)) (imean_set_push K) (imean_set_push K)); [| exact F | split; [reflexivity | apply R_div, R_zero]].
    intros [n a] [m b] x y [H1 H2] H. cbn in *. subst. split; [reflexivity |]. unfold imm_mean_op. apply R_div, R_add; [apply R_mul_r |]; assumption.
  Qed.
  Lemma turn_variance xs ys : Forall2 (R s) xs ys -> R false (vs_var K (var_set_run K 0 xs)) (vs_var K (var_set_run K 0 ys)).
  Proof.
    intros F. apply (fold_rel (R s) (fun a b => vs_count K a = vs_count K b /\ R s (vs_mean K a) (vs_mean K b) /\ R false (vs_var K a) (vs_var K b)) (var_set_push K) (var_set_push K));
      [| exact F | repeat split; apply R_div, R_zero].
    intros [n a c] [m b d] x y (H1 & H2 & H3) H. cbn in *. subst. unfold variance_op, imm_mean_op.
    assert (M : R s ((a * ofnat K (S m - 1) + x) / ofnat K (S m)) ((b * ofnat K (S m - 1) + y) / ofnat K (S m))) by (apply R_div, R_add; [apply R_mul_r |]; assumption).
    repeat split; [exact M |]. destruct (Nat.ltb 1 (S m)); [| exact H3]. apply R_add; [apply R_div, R_mul_r, H3 | apply R_div].
    apply (R_sq s); apply R_sub; assumption.
  Qed.

  (** Powers. *)
  Lemma turn_power f : forall n x y, R s x y -> both (R (s && Nat.odd n)) (npow_fuel K f x n) (npow_fuel K f y n).
  Proof.
    induction f as [|f IH]; intros n x y H; cbn [npow_fuel]; [exact I |]. destruct (Nat.eqb_spec n 1) as [-> |].
    - cbn. rewrite andb_true_r. exact H.
    - specialize (IH (Nat.div n 2) x y H). destruct (npow_fuel K f x _) as [p|], (npow_fuel K f y _) as [q|]; cbn in IH; try contradiction; [| exact I].
      pose proof (odd_half n) as O. rewrite xorb_false_l in O. rewrite O. destruct (Nat.eqb (n mod 2) 0); cbn [negb both].
      + rewrite andb_false_r. now apply (R_sq (s && Nat.odd (n / 2))).
      + rewrite andb_true_r. apply R_even; [now apply (R_sq (s && Nat.odd (n / 2))) | exact H].
  Qed.
  Lemma turn_npow n x y : R s x y -> both (R (s && Nat.odd n)) (npow K x n) (npow K y n).
  Proof. apply turn_power. Qed.
  Fixpoint powers (Ns : list nat) (l l' : list T) : Prop :=
    match Ns, l, l' with
    | N :: Ns, a :: l, b :: l' => R (s && Nat.odd N) a b /\ powers Ns l l'
    | [], [], [] => True
    | _, _, _ => False
    end.
  Lemma powers_init Ns x : (forall t, R t x x) -> powers Ns (map (fun _ => x) Ns) (map (fun _ => x) Ns).
  Proof. intros H. induction Ns; cbn; auto. Qed.
  Lemma powers_ops Ns : forall l l' x y, R s x y -> powers Ns l l' -> both (powers Ns) (moment_ops K Ns l x) (moment_ops K Ns l' y).
  Proof.
    induction Ns as [|N Ns IH]; intros [|a l] [|b l'] x y H P; cbn in P; try contradiction; [exact I |]. destruct P as [P1 P2]. cbn [moment_ops]. unfold moment_op.
    pose proof (turn_npow N x y H) as E. destruct (npow K x N) as [p|], (npow K y N) as [q|]; cbn in E; try contradiction; [| exact I].
    specialize (IH _ _ _ _ H P2). destruct (moment_ops K Ns l x), (moment_ops K Ns l' y); cbn in IH; try contradiction; [| exact I].
    cbn. split; [now apply R_add | exact IH].
  Qed.
  Definition like_mom Ns (a b : mom_set K) : Prop := mo_count K a = mo_count K b /\ R s (mo_sum K a) (mo_sum K b) /\ powers Ns (mo_sums K a) (mo_sums K b).
  Lemma turn_mom Ns xs ys : Forall2 (R s) xs ys -> both (like_mom Ns) (mom_set_run K Ns 0 xs) (mom_set_run K Ns 0 ys).
  Proof.
    intros F. apply (fold_rel (R s) (both (like_mom Ns))); [| exact F | cbn; repeat split; [apply R_zero | apply powers_init, R_zero]].
    intros [a|] [b|] x y Q H; cbn in Q; try contradiction; [| exact I]. destruct Q as (Q1 & Q2 & Q3). cbn [mom_set_push].
    pose proof (powers_ops Ns _ _ _ _ H Q3) as P. destruct (moment_ops K Ns _ x), (moment_ops K Ns _ y); cbn in P; try contradiction; [| exact I].
    cbn. repeat split; cbn; [congruence | now apply R_add | exact P].
  Qed.
  Lemma turn_mom_mean Ns a b : like_mom Ns a b -> R s (mom_set_mean K a) (mom_set_mean K b).
  Proof. intros (H1 & H2 & _). unfold mom_set_mean, mean_result. rewrite H1. now apply R_div. Qed.
  Lemma turn_moments Ns a b : like_mom Ns a b -> forall i N, nth_error Ns i = Some N -> both (R (s && Nat.odd N)) (mom_set_moment K a i) (mom_set_moment K b i).
  Proof.
    intros (H1 & _ & H3) i N. unfold mom_set_moment. rewrite H1. generalize dependent i. revert H3. generalize (mo_sums K a) (mo_sums K b).
    induction Ns as [|M Ns IH]; intros [|p l] [|q l'] P [|i] E; cbn in P; try contradiction; try discriminate; cbn [nth_error] in *.
    - injection E as ->. cbn. apply R_div, P.
    - apply IH; [apply P | exact E].
  Qed.
  Lemma turn_moment N xs ys : Forall2 (R s) xs ys -> both (R (s && Nat.odd N)) (moment_run K N 0 xs) (moment_run K N 0 ys).
  Proof.
    intros F. unfold moment_run. pose proof (turn_mom [N] _ _ F) as H. destruct (mom_set_run K [N] 0 xs), (mom_set_run K [N] 0 ys); cbn in H; try contradiction; [| exact I].
    now apply (turn_moments [N] _ _ H 0%nat N).
  Qed.
  Lemma turn_lazy_variance xs ys : Forall2 (R s) xs ys -> both (R false) (lazy_variance_run K 0 xs) (lazy_variance_run K 0 ys).
  Proof.
    intros F. unfold lazy_variance_run. pose proof (turn_mom [2%nat] _ _ F) as H. destruct (mom_set_run K _ 0 xs) as [a|], (mom_set_run K _ 0 ys) as [b|]; cbn in H; try contradiction; [| exact I].
    pose proof (turn_moments _ _ _ H 0%nat _ eq_refl) as M2. pose proof (turn_mom_mean _ _ _ H) as M. cbn [Nat.odd] in M2. cbn in M2. rewrite andb_false_r in M2.
    destruct (mom_set_moment K a 0), (mom_set_moment K b 0); cbn in M2; try contradiction; [| exact I]. cbn. unfold lazy_variance_result.
    apply R_sub; [exact M2 | now apply (R_sq s)].
  Qed.

  (** Skewness and kurtosis, where the variance they divide by is the same on both sides. *)
  Lemma skewness_formula sqrt m3 m2 m n3 n2 n : R s m3 n3 -> R false m2 n2 -> R s m n -> lazy_variance_result K n2 n = lazy_variance_result K m2 m ->
    R s (skewness_result K sqrt m3 m2 m) (skewness_result K sqrt n3 n2 n).
  Proof.
    intros H3 H2 H1 Z. unfold skewness_result. unfold lazy_variance_result in Z.
    rewrite Z. apply R_div, R_add; [apply R_sub; [exact H3 |] |].
    - apply R_even; [apply R_mul_l, H2 | exact H1].
    - apply R_even; [| exact H1]. apply (R_sq s); [apply R_mul_l |]; exact H1.
  Qed.
  Lemma kurtosis_formula m4 m3 m2 m n4 n3 n2 n : R false m4 n4 -> R s m3 n3 -> R false m2 n2 -> R s m n -> lazy_variance_result K n2 n = lazy_variance_result K m2 m ->
    R false (kurtosis_result K m4 m3 m2 m) (kurtosis_result K n4 n3 n2 n).
  Proof.
    intros H4 H3 H2 H1 Z. unfold kurtosis_result. unfold lazy_variance_result in Z.
    rewrite Z. apply R_sub; [| apply R_refl]. apply R_div, R_sub; [apply R_add; [apply R_sub; [exact H4 |] |] |].
    - apply (R_sq s); [apply R_mul_l |]; assumption.
    - apply (R_sq s); [| exact H1]. apply R_even; [apply R_mul_l |]; assumption.
    - apply (R_sq s); [| exact H1]. apply R_even; [| exact H1]. apply (R_sq s); [apply R_mul_l |]; exact H1.
  Qed.

  (** The second power sum is the sum of the squares. *)
  Lemma second Ns xs a : mom_set_run K (2%nat :: Ns) 0 xs = Some a -> mo_count K a = length xs /\ exists l, mo_sums K a = sum_run K 0 (map (fun x => x * x) xs) :: l.
  Proof.
    revert a. induction xs as [|x xs IH] using rev_ind; intros a E; [injection E as <-; cbn; eauto |].
    unfold mom_set_run in *. rewrite fold_left_app in E. cbn [fold_left] in E. destruct (fold_left _ xs _) as [b|]; [| discriminate E].
    destruct (IH b eq_refl) as [C [l L]]. cbn [mom_set_push] in E. rewrite L in E. cbn [moment_ops] in E. change (moment_op K 2 ?u x) with (Some (u + x * x)) in E.
    destruct (moment_ops K Ns l x); [| discriminate E]. injection E as <-. cbn. rewrite app_length, C. split; [cbn; lia |].
    rewrite map_app. unfold sum_run. rewrite fold_left_app. cbn. eauto.
  Qed.
  Definition wsquares (h : list (T * T)) : T := fold_left (fun a e => a + snd e * (fst e * fst e)) h (0 * one K).
  Definition weigh (h : list (T * T)) : T := sum_run K 0 (map snd h).
  Lemma wsecond Ns h a : wmom_set_run K (2%nat :: Ns) 0 0 h = Some a -> wo_W K a = weigh h /\ exists l, wo_sums K a = wsquares h :: l.
  Proof.
    revert a. induction h as [|[x w] h IH] using rev_ind; intros a E; [injection E as <-; cbn; split; [reflexivity | eauto] |].
    unfold wmom_set_run in *. rewrite fold_left_app in E. cbn [fold_left] in E. destruct (fold_left _ h _) as [b|]; [| discriminate E].
    destruct (IH b eq_refl) as [C [l L]]. cbn [wmom_set_push fst snd] in E. rewrite L in E. cbn [weighted_moment_ops] in E. change (weighted_moment_op K 2 ?u x w) with (Some (u + w * (x * x))) in E.
    destruct (weighted_moment_ops K Ns l x w); [| discriminate E]. injection E as <-. cbn. rewrite C. unfold weigh, wsquares, sum_run. rewrite map_app, !fold_left_app. cbn. split; [reflexivity | eauto].
  Qed.

  (** With weights. *)
  Local Notation RW := (fun e f : T * T => R s (fst e) (fst f) /\ snd f = snd e).
  Lemma turn_wmean h g : Forall2 RW h g -> let a := wmean_set_run K 0 0 h in let b := wmean_set_run K 0 0 g in
    R s (wm_sum K a) (wm_sum K b) /\ R s (wmean_set_mean K a) (wmean_set_mean K b).
  Proof.
    intros F. cbv zeta. assert (H : wm_W K (wmean_set_run K 0 0 h) = wm_W K (wmean_set_run K 0 0 g) /\ R s (wm_sum K (wmean_set_run K 0 0 h)) (wm_sum K (wmean_set_run K 0 0 g))).
    { apply (fold_rel RW (fun a b => wm_W K a = wm_W K b /\ R s (wm_sum K a) (wm_sum K b))); [| exact F | split; [reflexivity | apply R_mul_r, R_zero]].
      intros [n a] [m b] [x w] [y w'] [H1 H2] [H H']. cbn in *. subst. split; [reflexivity | apply R_add; [assumption | now apply R_mul_r]]. }
    destruct H as [H1 H2]. split; [exact H2 |]. unfold wmean_set_mean, weighted_mean_result. rewrite H1. now apply R_div.
  Qed.
  Lemma turn_wkahan h g : Forall2 RW h g -> R s (fst (weighted_kahan_run K 0 h)) (fst (weighted_kahan_run K 0 g)).
  Proof.
    intros F. unfold weighted_kahan_run. match goal with |- R s (fst ?a) (fst ?b) => enough (H : R s (fst a) (fst b) /\ R s (snd a) (snd b)) by apply H end.
    apply (fold_rel RW (fun a b => R s (fst a) (fst b) /\ R s (snd a) (snd b))); [| exact F | split; [apply R_mul_r |]; apply R_zero].
    intros [a a'] [b b'] [x w] [y w'] [H1 H2] [H H']. cbn in *. subst.
    assert (M : R s (x * w) (y * w)) by now apply R_mul_r. split; repeat first [apply R_sub | apply R_add]; assumption.
  Qed.
  Lemma turn_wvar h g : Forall2 RW h g -> let a := wvar_set_run K 0 0 h in let b := wvar_set_run K 0 0 g in
    R s (wv_mean K a) (wv_mean K b) /\ R false (wv_var K a) (wv_var K b).
  Proof.
    intros F. cbv zeta. match goal with |- R s (wv_mean K ?a) (wv_mean K ?b) /\ _ => enough (H : wv_count K a = wv_count K b /\ wv_W K a = wv_W K b /\ R s (wv_mean K a) (wv_mean K b) /\ R false (wv_var K a) (wv_var K b)) by tauto end.
    apply (fold_rel RW (fun a b => wv_count K a = wv_count K b /\ wv_W K a = wv_W K b /\ R s (wv_mean K a) (wv_mean K b) /\ R false (wv_var K a) (wv_var K b)));
      [| exact F | repeat split; apply R_div; try apply R_mul_r; apply R_zero].
    intros [n W a c] [m W' b d] [x w] [y w'] (H1 & H2 & H3 & H4) [H H']. cbn in *. subst. repeat split.
    - apply R_div, R_add; apply R_mul_r; assumption.
    - unfold weighted_variance_op. destruct (Nat.ltb 1 (S m)); [| exact H4].
      assert (M : R s (imm_weighted_mean_op K a (sum_op K W' w) x w) (imm_weighted_mean_op K b (sum_op K W' w) y w)) by (apply R_div, R_add; apply R_mul_r; assumption).
      apply R_add; [apply R_div, R_mul_r, H4 | apply R_div, R_mul_r, (R_sq s); apply R_sub; assumption].
  Qed.
  Lemma wpowers_ops Ns w : forall l l' x y, R s x y -> powers Ns l l' -> both (powers Ns) (weighted_moment_ops K Ns l x w) (weighted_moment_ops K Ns l' y w).
  Proof.
    induction Ns as [|N Ns IH]; intros [|a l] [|b l'] x y H P; cbn in P; try contradiction; [exact I |]. destruct P as [P1 P2]. cbn [weighted_moment_ops]. unfold weighted_moment_op.
    pose proof (turn_npow N x y H) as E. destruct (npow K x N) as [p|], (npow K y N) as [q|]; cbn in E; try contradiction; [| exact I].
    specialize (IH _ _ _ _ H P2). destruct (weighted_moment_ops K Ns l x w), (weighted_moment_ops K Ns l' y w); cbn in IH; try contradiction; [| exact I].
    cbn. split; [apply R_add; [assumption | now apply R_mul_l] | exact IH].
  Qed.
  Definition like_wmom Ns (a b : wmom_set K) : Prop := wo_W K a = wo_W K b /\ R s (wo_sum K a) (wo_sum K b) /\ powers Ns (wo_sums K a) (wo_sums K b).
  Lemma turn_wmom Ns h g : Forall2 RW h g -> both (like_wmom Ns) (wmom_set_run K Ns 0 0 h) (wmom_set_run K Ns 0 0 g).
  Proof.
    intros F. apply (fold_rel RW (both (like_wmom Ns))); [| exact F | cbn; repeat split; cbn; [apply R_mul_r, R_zero | apply powers_init; intros; apply R_mul_r, R_zero]].
    intros [a|] [b|] [x w] [y w'] Q [H H']; cbn in Q, H, H'; try contradiction; [| exact I]. subst w'. destruct Q as (Q1 & Q2 & Q3). cbn [wmom_set_push fst snd].
    pose proof (wpowers_ops Ns w _ _ _ _ H Q3) as P. destruct (weighted_moment_ops K Ns _ x w), (weighted_moment_ops K Ns _ y w); cbn in P; try contradiction; [| exact I].
    cbn. repeat split; cbn; [congruence | apply R_add; [assumption | now apply R_mul_r] | exact P].
  Qed.
  Lemma turn_wmom_mean Ns a b : like_wmom Ns a b -> R s (wmom_set_mean K a) (wmom_set_mean K b).
  Proof. intros (H1 & H2 & _). unfold wmom_set_mean, weighted_mean_result. rewrite H1. now apply R_div. Qed.
  Lemma turn_wmoments Ns a b : like_wmom Ns a b -> forall i N, nth_error Ns i = Some N -> both (R (s && Nat.odd N)) (wmom_set_moment K a i) (wmom_set_moment K b i).
  Proof.
    intros (H1 & _ & H3) i N. unfold wmom_set_moment. rewrite H1. generalize dependent i. revert H3. generalize (wo_sums K a) (wo_sums K b).
    induction Ns as [|M Ns IH]; intros [|p l] [|q l'] P [|i] E; cbn in P; try contradiction; try discriminate; cbn [nth_error] in *.
    - injection E as ->. cbn. apply R_div, P.
    - apply IH; [apply P | exact E].
  Qed.
  Lemma turn_wmoment N h g : Forall2 RW h g -> both (R (s && Nat.odd N)) (weighted_moment_run K N 0 h) (weighted_moment_run K N 0 g).
  Proof.
    intros F. unfold weighted_moment_run. pose proof (turn_wmom [N] _ _ F) as H. destruct (wmom_set_run K [N] 0 0 h), (wmom_set_run K [N] 0 0 g); cbn in H; try contradiction; [| exact I].
    now apply (turn_wmoments [N] _ _ H 0%nat N).
  Qed.
  Lemma turn_lazy_wvariance h g : Forall2 RW h g -> both (R false) (lazy_weighted_variance_run K 0 h) (lazy_weighted_variance_run K 0 g).
  Proof.
    intros F. unfold lazy_weighted_variance_run. pose proof (turn_wmom [2%nat] _ _ F) as H. destruct (wmom_set_run K _ 0 0 h) as [a|], (wmom_set_run K _ 0 0 g) as [b|]; cbn in H; try contradiction; [| exact I].
    pose proof (turn_wmoments _ _ _ H 0%nat _ eq_refl) as M2. pose proof (turn_wmom_mean _ _ _ H) as M. cbn in M2. rewrite andb_false_r in M2.
    destruct (wmom_set_moment K a 0), (wmom_set_moment K b 0); cbn in M2; try contradiction; [| exact I]. cbn. unfold lazy_weighted_variance_result.
    apply R_sub; [exact M2 | now apply (R_sq s)].
  Qed.

  (** Covariance: the signs of samples and variates multiply. *)
  Lemma turn_covariance t h g : Forall2 (fun e f : T * T => R s (fst e) (fst f) /\ R t (snd e) (snd f)) h g ->
    R (xorb s t) (cs_cov K (cov_set_run K 0 0 h)) (cs_cov K (cov_set_run K 0 0 g)).
  Proof.
    intros F. match goal with |- R _ (cs_cov K ?a) (cs_cov K ?b) => enough (H : cs_count K a = cs_count K b /\ R s (cs_sum K a) (cs_sum K b) /\ R t (cs_sumv K a) (cs_sumv K b) /\ R (xorb s t) (cs_cov K a) (cs_cov K b)) by apply H end.
    apply (fold_rel (fun e f : T * T => R s (fst e) (fst f) /\ R t (snd e) (snd f))
      (fun a b => cs_count K a = cs_count K b /\ R s (cs_sum K a) (cs_sum K b) /\ R t (cs_sumv K a) (cs_sumv K b) /\ R (xorb s t) (cs_cov K a) (cs_cov K b))); [| exact F |].
    - intros [n p q r] [n' p' q' r'] [x v] [y u] (H1 & H2 & H3 & H4) [Hx Hv]. cbn in *. subst. unfold sum_op.
      assert (A : R s (p + x) (p' + y)) by now apply R_add. assert (B : R t (q + v) (q' + u)) by now apply R_add.
      repeat split; try assumption. unfold covariance_op. destruct (Nat.ltb 1 (S n')); [| exact H4]. apply R_add; [apply R_div, R_mul_r, H4 |].
      apply R_div. rewrite xorb_comm. apply R_mul; apply R_sub; try assumption; now apply R_div.
    - repeat split; cbn; try apply R_zero. apply R_mul; apply R_div, R_zero.
  Qed.
  Lemma turn_wcovariance t h g : Forall2 (fun e f : T * T * T => R s (fst (fst e)) (fst (fst f)) /\ R t (snd (fst e)) (snd (fst f)) /\ snd f = snd e) h g ->
    R (xorb s t) (wc_cov K (wcov_set_run K 0 0 0 h)) (wc_cov K (wcov_set_run K 0 0 0 g)).
  Proof.
    intros F. match goal with |- R _ (wc_cov K ?a) (wc_cov K ?b) => enough (H : wc_count K a = wc_count K b /\ wc_W K a = wc_W K b /\ R s (wc_sum K a) (wc_sum K b) /\ R t (wc_sumv K a) (wc_sumv K b) /\ R (xorb s t) (wc_cov K a) (wc_cov K b)) by apply H end.
    apply (fold_rel (fun e f : T * T * T => R s (fst (fst e)) (fst (fst f)) /\ R t (snd (fst e)) (snd (fst f)) /\ snd f = snd e)
      (fun a b => wc_count K a = wc_count K b /\ wc_W K a = wc_W K b /\ R s (wc_sum K a) (wc_sum K b) /\ R t (wc_sumv K a) (wc_sumv K b) /\ R (xorb s t) (wc_cov K a) (wc_cov K b))); [| exact F |].
    - intros [n W p q r] [n' W' p' q' r'] [[x v] w] [[y u] w'] (H1 & H0 & H2 & H3 & H4) (Hx & Hv & Hw). cbn in *. subst. unfold sum_op, weighted_sum_op.
      assert (A : R s (p + x * w) (p' + y * w)) by (apply R_add; [assumption | now apply R_mul_r]). assert (B : R t (q + v * w) (q' + u * w)) by (apply R_add; [assumption | now apply R_mul_r]).
      repeat split; try assumption. unfold weighted_covariance_op. destruct (Nat.ltb 1 (S n')); [| exact H4]. apply R_add; [apply R_div, R_mul_r, H4 |].
      apply R_div, R_mul_r. rewrite xorb_comm. apply R_mul; apply R_sub; try assumption; now apply R_div.
    - repeat split; cbn; try apply R_mul_r, R_zero. apply R_mul; apply R_mul_r, R_div, R_zero.
  Qed.
  End Turn.
End AnyArithmetic.
