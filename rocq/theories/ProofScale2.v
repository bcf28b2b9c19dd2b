(** The statistics in another unit, for any two arithmetics whose operations multiply the units. *)
From Coq Require Import List Bool Arith Lia ZArith.
From Verif Require Import Num ModelBasic ModelRolling ProofMirror2 ProofMirror3.
Import ListNotations.

Section AnyArithmetic.
  Context (K L : Num) (R : Z -> car K -> car L -> Prop).
  Local Notation "0" := (zero K) : num_scope.
  Local Notation "0'" := (zero L) : num_scope.
  Context (R_zero : forall d, R d (zero K) (zero L)) (R_one : R 0%Z (one K) (one L))
    (R_add : forall d a b x y, R d a b -> R d x y -> R d (add K a x) (add L b y))
    (R_sub : forall d a b x y, R d a b -> R d x y -> R d (sub K a x) (sub L b y))
    (R_mul : forall d e a b x y, R d a b -> R e x y -> R (d + e)%Z (mul K a x) (mul L b y))
    (R_div : forall d e a b x y, R d a b -> R e x y -> R (d - e)%Z (div K a x) (div L b y)).

  Lemma R_as d e a b : d = e -> R d a b -> R e a b.
  Proof. now intros ->. Qed.
  Lemma R_nat n : R 0%Z (ofnat K n) (ofnat L n).
  Proof. induction n; cbn; [apply R_zero | now apply R_add]. Qed.
  Lemma R_div_nat d a b n : R d a b -> R d (div K a (ofnat K n)) (div L b (ofnat L n)).
  Proof. intros H. apply (R_as (d - 0)); [lia |]. apply R_div; [exact H | apply R_nat]. Qed.
  Lemma R_div_one d a b : R d a b -> R d (div K a (one K)) (div L b (one L)).
  Proof. intros H. apply (R_as (d - 0)); [lia |]. apply R_div; [exact H | apply R_one]. Qed.
  Lemma R_mul_nat d a b n : R d a b -> R d (mul K a (ofnat K n)) (mul L b (ofnat L n)).
  Proof. intros H. apply (R_as (d + 0)); [lia |]. apply R_mul; [exact H | apply R_nat]. Qed.
  Lemma R_nat_mul d a b n : R d a b -> R d (mul K (ofnat K n) a) (mul L (ofnat L n) b).
  Proof. intros H. apply (R_as (0 + d)); [lia |]. apply R_mul; [apply R_nat | exact H]. Qed.
  Lemma R_zero_one d : R d (mul K (zero K) (one K)) (mul L (zero L) (one L)).
  Proof. apply (R_as (d + 0)); [lia |]. apply R_mul; [apply R_zero | apply R_one]. Qed.

  Section Unit.
  Context (d : Z).
  Lemma unit_sum xs ys : Forall2 (R d) xs ys -> R d (sum_run K (zero K) xs) (sum_run L (zero L) ys).
  Proof. intros F. apply (fold_rel (R d) (R d)); [| exact F | apply R_zero]. intros. now apply R_add. Qed.
  Lemma unit_kahan xs ys : Forall2 (R d) xs ys -> R d (fst (kahan_run K (zero K) xs)) (fst (kahan_run L (zero L) ys)).
  Proof.
    intros F. apply (fold_rel (R d) (fun a b => R d (fst a) (fst b) /\ R d (snd a) (snd b)) (kahan_op K) (kahan_op L)); [| exact F | split; apply R_zero].
    intros [a a'] [b b'] x y [H1 H2] H. cbn in *. split; repeat first [apply R_sub | apply R_add]; assumption.
  Qed.
  Lemma unit_mean xs ys : Forall2 (R d) xs ys -> R d (mean_set_mean K (mean_set_run K (zero K) xs)) (mean_set_mean L (mean_set_run L (zero L) ys)).
  Proof.
    intros F. assert (H : ms_count K (mean_set_run K (zero K) xs) = ms_count L (mean_set_run L (zero L) ys) /\ R d (ms_sum K (mean_set_run K (zero K) xs)) (ms_sum L (mean_set_run L (zero L) ys))).
    { apply (fold_rel (R d) (fun a b => ms_count K a = ms_count L b /\ R d (ms_sum K a) (ms_sum L b))); [| exact F | split; [reflexivity | apply R_zero]].
      intros [n a] [m b] x y [H1 H2] H. cbn in *. split; [congruence | now apply R_add]. }
    destruct H as [H1 H2]. unfold mean_set_mean, mean_result. rewrite H1. now apply R_div_nat.
  Qed.
  Lemma unit_imean_op n a b x y : R d a b -> R d x y -> R d (imm_mean_op K a n x) (imm_mean_op L b n y).
  Proof. intros H1 H2. unfold imm_mean_op. apply R_div_nat, R_add; [apply R_mul_nat |]; assumption. Qed.
  Lemma unit_imean xs ys : Forall2 (R d) xs ys -> R d (im_mean K (imean_set_run K (zero K) xs)) (im_mean L (imean_set_run L (zero L) ys)).
  Proof.
    intros F. apply (fold_rel (R d) (fun a b => im_count K a = im_count L b /\ R d (im_mean K a) (im_mean L b)) (imean_set_push K) (imean_set_push L)); [| exact F | split; [reflexivity | apply R_div_one, R_zero]].
    intros [n a] [m b] x y [H1 H2] H. cbn in *. subst. split; [reflexivity |]. now apply unit_imean_op.
  Qed.
  Lemma unit_variance xs ys : Forall2 (R d) xs ys ->
    let a := var_set_run K (zero K) xs in let b := var_set_run L (zero L) ys in vs_count K a = vs_count L b /\ R d (vs_mean K a) (vs_mean L b) /\ R (d + d)%Z (vs_var K a) (vs_var L b).
  Proof.
    intros F. cbv zeta.
    apply (fold_rel (R d) (fun a b => vs_count K a = vs_count L b /\ R d (vs_mean K a) (vs_mean L b) /\ R (d + d)%Z (vs_var K a) (vs_var L b)) (var_set_push K) (var_set_push L));
      [| exact F | repeat split; apply R_div_one, R_zero].
    intros [n a c] [m b e] x y (H1 & H2 & H3) H. cbn in *. subst. assert (M := unit_imean_op (S m) _ _ _ _ H2 H). repeat split; [exact M |].
    unfold variance_op. destruct (Nat.ltb 1 (S m)); [| exact H3]. apply R_add; [apply R_div_nat, R_mul_nat, H3 | apply R_div_nat]. apply R_mul; apply R_sub; assumption.
  Qed.

  (** Powers. *)
  Lemma unit_power f : forall n x y, R d x y -> both (R (Z.of_nat n * d)) (npow_fuel K f x n) (npow_fuel L f y n).
  Proof.
    induction f as [|f IH]; intros n x y H; cbn [npow_fuel]; [exact I |]. destruct (Nat.eqb_spec n 1) as [-> |].
    - cbn [both]. apply (R_as d); [lia | exact H].
    - specialize (IH (Nat.div n 2) x y H). destruct (npow_fuel K f x _) as [p|], (npow_fuel L f y _) as [q|]; cbn [both] in IH; try contradiction; [| exact I].
      pose proof (Nat.div_mod n 2 ltac:(lia)) as E. pose proof (Nat.mod_upper_bound n 2 ltac:(lia)) as B. remember (n mod 2) as r. remember (n / 2) as h. rewrite E.
      destruct (Nat.eqb_spec r 0); cbn [both].
      + apply (R_as (Z.of_nat h * d + Z.of_nat h * d)); [lia |]. now apply R_mul.
      + apply (R_as (Z.of_nat h * d + Z.of_nat h * d + d)); [assert (r = 1%nat) by lia; lia |]. apply R_mul; [now apply R_mul | exact H].
  Qed.
  Lemma unit_npow n x y : R d x y -> both (R (Z.of_nat n * d)) (npow K x n) (npow L y n).
  Proof. apply unit_power. Qed.
  (** Power sums times the weights' unit [e]. *)
  Fixpoint upowers (e : Z) (Ns : list nat) (l : list (car K)) (l' : list (car L)) : Prop :=
    match Ns, l, l' with
    | N :: Ns, a :: l, b :: l' => R (Z.of_nat N * d + e) a b /\ upowers e Ns l l'
    | [], [], [] => True
    | _, _, _ => False
    end.
  Lemma upowers_init e Ns x y : (forall t, R t x y) -> upowers e Ns (map (fun _ => x) Ns) (map (fun _ => y) Ns).
  Proof. intros H. induction Ns; cbn; auto. Qed.
  Lemma upowers_ops Ns : forall l l' x y, R d x y -> upowers 0 Ns l l' -> both (upowers 0 Ns) (moment_ops K Ns l x) (moment_ops L Ns l' y).
  Proof.
    induction Ns as [|N Ns IH]; intros [|a l] [|b l'] x y H P; cbn [upowers] in P; try contradiction; [exact I |]. destruct P as [P1 P2]. cbn [moment_ops]. unfold moment_op.
    pose proof (unit_npow N x y H) as E. destruct (npow K x N) as [p|], (npow L y N) as [q|]; cbn [both] in E; try contradiction; [| exact I].
    specialize (IH _ _ _ _ H P2). destruct (moment_ops K Ns l x), (moment_ops L Ns l' y); cbn [both] in IH; try contradiction; [| exact I].
    cbn. split; [apply R_add; [exact P1 | apply (R_as (Z.of_nat N * d)); [lia | exact E]] | exact IH].
  Qed.
  Definition like_umom Ns (a : mom_set K) (b : mom_set L) : Prop := mo_count K a = mo_count L b /\ R d (mo_sum K a) (mo_sum L b) /\ upowers 0 Ns (mo_sums K a) (mo_sums L b).
  Lemma unit_mom Ns xs ys : Forall2 (R d) xs ys -> both (like_umom Ns) (mom_set_run K Ns (zero K) xs) (mom_set_run L Ns (zero L) ys).
  Proof.
    intros F. apply (fold_rel (R d) (both (like_umom Ns))); [| exact F | cbn; repeat split; [apply R_zero | apply upowers_init, R_zero]].
    intros [a|] [b|] x y Q H; cbn [both] in Q; try contradiction; [| exact I]. destruct Q as (Q1 & Q2 & Q3). cbn [mom_set_push].
    pose proof (upowers_ops Ns _ _ _ _ H Q3) as P. destruct (moment_ops K Ns _ x), (moment_ops L Ns _ y); cbn [both] in P; try contradiction; [| exact I].
    cbn. repeat split; cbn; [congruence | now apply R_add | exact P].
  Qed.
  Lemma unit_mom_mean Ns a b : like_umom Ns a b -> R d (mom_set_mean K a) (mom_set_mean L b).
  Proof. intros (H1 & H2 & _). unfold mom_set_mean, mean_result. rewrite H1. now apply R_div_nat. Qed.
  Lemma upowers_nth e Ns : forall l l', upowers e Ns l l' -> forall i N, nth_error Ns i = Some N -> both (R (Z.of_nat N * d + e)) (nth_error l i) (nth_error l' i).
  Proof.
    induction Ns as [|M Ns IH]; intros [|p l] [|q l'] P [|i] N E; cbn [upowers] in P; try contradiction; try discriminate; cbn [nth_error] in *.
    - injection E as ->. apply P.
    - apply IH; [apply P | exact E].
  Qed.
  Lemma unit_moments Ns a b : like_umom Ns a b -> forall i N, nth_error Ns i = Some N -> both (R (Z.of_nat N * d)) (mom_set_moment K a i) (mom_set_moment L b i).
  Proof.
    intros (H1 & _ & H3) i N E. unfold mom_set_moment. rewrite H1. pose proof (upowers_nth _ _ _ _ H3 _ _ E) as P.
    destruct (nth_error (mo_sums K a) i), (nth_error (mo_sums L b) i); cbn [both] in P; try contradiction; [| exact I]. cbn. apply R_div_nat.
    apply (R_as (Z.of_nat N * d + 0)); [lia | exact P].
  Qed.
  Lemma unit_moment N xs ys : Forall2 (R d) xs ys -> both (R (Z.of_nat N * d)) (moment_run K N (zero K) xs) (moment_run L N (zero L) ys).
  Proof.
    intros F. unfold moment_run. pose proof (unit_mom [N] _ _ F) as H. destruct (mom_set_run K [N] (zero K) xs), (mom_set_run L [N] (zero L) ys); cbn [both] in H; try contradiction; [| exact I].
    now apply (unit_moments [N] _ _ H 0%nat N).
  Qed.
  Lemma unit_difference m2 m n2 n : R (2 * d) m2 n2 -> R d m n -> R (d + d) (sub K m2 (mul K m m)) (sub L n2 (mul L n n)).
  Proof. intros H2 H1. apply R_sub; [apply (R_as (2 * d)); [lia | exact H2] | now apply R_mul]. Qed.
  Lemma unit_lazy_variance xs ys : Forall2 (R d) xs ys -> both (R (d + d)) (lazy_variance_run K (zero K) xs) (lazy_variance_run L (zero L) ys).
  Proof.
    intros F. unfold lazy_variance_run. pose proof (unit_mom [2%nat] _ _ F) as H. destruct (mom_set_run K _ _ xs) as [a|], (mom_set_run L _ _ ys) as [b|]; cbn [both] in H; try contradiction; [| exact I].
    pose proof (unit_moments _ _ _ H 0%nat _ eq_refl) as M2. pose proof (unit_mom_mean _ _ _ H) as M.
    destruct (mom_set_moment K a 0), (mom_set_moment L b 0); cbn [both] in M2; try contradiction; [| exact I]. cbn [both]. now apply unit_difference.
  Qed.

  (** Skewness and kurtosis have no unit. *)
  Context (sqrtK : car K -> car K) (sqrtL : car L -> car L) (R_sqrt : forall e a b, R (e + e)%Z a b -> R e (sqrtK a) (sqrtL b)).
  Lemma unit_skewness m3 m2 m n3 n2 n : R (3 * d) m3 n3 -> R (2 * d) m2 n2 -> R d m n -> R 0%Z (skewness_result K sqrtK m3 m2 m) (skewness_result L sqrtL n3 n2 n).
  Proof.
    intros H3 H2 H1. unfold skewness_result. assert (V := unit_difference _ _ _ _ H2 H1). apply (R_as (3 * d - (d + d + d))); [lia |].
    apply R_div; [apply R_add; [apply R_sub; [exact H3 |] |] | apply R_mul; [exact V | now apply R_sqrt]].
    - apply (R_as (2 * d + d)); [lia |]. apply R_mul; [apply R_nat_mul |]; assumption.
    - apply (R_as (d + d + d)); [lia |]. repeat apply R_mul; try assumption. now apply R_nat_mul.
  Qed.
  Lemma unit_kurtosis m4 m3 m2 m n4 n3 n2 n : R (4 * d) m4 n4 -> R (3 * d) m3 n3 -> R (2 * d) m2 n2 -> R d m n -> R 0%Z (kurtosis_result K m4 m3 m2 m) (kurtosis_result L n4 n3 n2 n).
  Proof.
    intros H4 H3 H2 H1. unfold kurtosis_result. assert (V := unit_difference _ _ _ _ H2 H1). apply R_sub; [| apply R_nat]. apply (R_as (4 * d - (d + d + (d + d)))); [lia |].
    apply R_div; [apply R_sub; [apply R_add; [apply R_sub; [exact H4 |] |] |] | now apply R_mul].
    - apply (R_as (3 * d + d)); [lia |]. apply R_mul; [apply R_nat_mul |]; assumption.
    - apply (R_as (2 * d + d + d)); [lia |]. repeat apply R_mul; try assumption. now apply R_nat_mul.
    - apply (R_as (d + d + d + d)); [lia |]. repeat apply R_mul; try assumption. now apply R_nat_mul.
  Qed.
  Lemma unit_skewness_run xs ys : Forall2 (R d) xs ys -> both (R 0%Z) (skewness_run K sqrtK (zero K) xs) (skewness_run L sqrtL (zero L) ys).
  Proof.
    intros F. unfold skewness_run. pose proof (unit_mom [2%nat; 3%nat] _ _ F) as H. destruct (mom_set_run K _ _ xs) as [a|], (mom_set_run L _ _ ys) as [b|]; cbn [both] in H; try contradiction; [| exact I].
    pose proof (unit_moments _ _ _ H 0%nat _ eq_refl) as M2. pose proof (unit_moments _ _ _ H 1%nat _ eq_refl) as M3. pose proof (unit_mom_mean _ _ _ H) as M.
    destruct (mom_set_moment K a 0), (mom_set_moment L b 0); cbn [both] in M2; try contradiction; [| exact I].
    destruct (mom_set_moment K a 1), (mom_set_moment L b 1); cbn [both] in M3; try contradiction; [| exact I]. cbn [both]. now apply unit_skewness.
  Qed.
  Lemma unit_kurtosis_run xs ys : Forall2 (R d) xs ys -> both (R 0%Z) (kurtosis_run K (zero K) xs) (kurtosis_run L (zero L) ys).
  Proof.
    intros F. unfold kurtosis_run. pose proof (unit_mom [2%nat; 3%nat; 4%nat] _ _ F) as H. destruct (mom_set_run K _ _ xs) as [a|], (mom_set_run L _ _ ys) as [b|]; cbn [both] in H; try contradiction; [| exact I].
    pose proof (unit_moments _ _ _ H 0%nat _ eq_refl) as M2. pose proof (unit_moments _ _ _ H 1%nat _ eq_refl) as M3. pose proof (unit_moments _ _ _ H 2%nat _ eq_refl) as M4. pose proof (unit_mom_mean _ _ _ H) as M.
    destruct (mom_set_moment K a 0), (mom_set_moment L b 0); cbn [both] in M2; try contradiction; [| exact I].
    destruct (mom_set_moment K a 1), (mom_set_moment L b 1); cbn [both] in M3; try contradiction; [| exact I].
    destruct (mom_set_moment K a 2), (mom_set_moment L b 2); cbn [both] in M4; try contradiction; [| exact I]. cbn [both]. now apply unit_kurtosis.
  Qed.
  Lemma unit_error v w n : R (d + d) v w -> R d (error_of_mean_result K sqrtK v n) (error_of_mean_result L sqrtL w n).
  Proof. intros H. unfold error_of_mean_result. now apply R_sqrt, R_div_nat. Qed.
  Lemma unit_error_lazy xs ys : Forall2 (R d) xs ys -> both (R d) (error_of_mean_run K sqrtK xs) (error_of_mean_run L sqrtL ys).
  Proof.
    intros F. unfold error_of_mean_run. pose proof (unit_lazy_variance _ _ F) as H. rewrite (Forall2_length _ _ _ F).
    destruct (lazy_variance_run K _ xs), (lazy_variance_run L _ ys); cbn [both] in H; try contradiction; [| exact I]. cbn. now apply unit_error.
  Qed.
  Lemma unit_error_immediate xs ys : Forall2 (R d) xs ys -> R d (error_of_immediate_mean_run K sqrtK xs) (error_of_immediate_mean_run L sqrtL ys).
  Proof. intros F. unfold error_of_immediate_mean_run. destruct (unit_variance _ _ F) as (E & _ & H). cbv zeta. rewrite E. now apply unit_error. Qed.

  (** With weights in the unit [e]. *)
  Context (e : Z).
  Local Notation RW := (fun (p : car K * car K) (q : car L * car L) => R d (fst p) (fst q) /\ R e (snd p) (snd q)).
  Lemma unit_wmean h g : Forall2 RW h g -> let a := wmean_set_run K (zero K) (zero K) h in let b := wmean_set_run L (zero L) (zero L) g in
    R (d + e)%Z (wm_sum K a) (wm_sum L b) /\ R d (wmean_set_mean K a) (wmean_set_mean L b).
  Proof.
    intros F. cbv zeta. match goal with |- R _ (wm_sum K ?a) (wm_sum L ?b) /\ _ => assert (H : R e (wm_W K a) (wm_W L b) /\ R (d + e)%Z (wm_sum K a) (wm_sum L b)) end.
    { apply (fold_rel RW (fun a b => R e (wm_W K a) (wm_W L b) /\ R (d + e)%Z (wm_sum K a) (wm_sum L b))); [| exact F | split; [apply R_zero | apply R_zero_one]].
      intros [n a] [m b] [x w] [y w'] [H1 H2] [H H']. cbn in *. split; [now apply R_add | apply R_add; [assumption | now apply R_mul]]. }
    destruct H as [H1 H2]. split; [exact H2 |]. unfold wmean_set_mean, weighted_mean_result. apply (R_as (d + e - e)); [lia |]. now apply R_div.
  Qed.
  Lemma unit_wkahan h g : Forall2 RW h g -> R (d + e)%Z (fst (weighted_kahan_run K (zero K) h)) (fst (weighted_kahan_run L (zero L) g)).
  Proof.
    intros F. unfold weighted_kahan_run. match goal with |- R _ (fst ?a) (fst ?b) => enough (H : R (d + e)%Z (fst a) (fst b) /\ R (d + e)%Z (snd a) (snd b)) by apply H end.
    apply (fold_rel RW (fun a b => R (d + e)%Z (fst a) (fst b) /\ R (d + e)%Z (snd a) (snd b))); [| exact F | split; [apply R_zero_one | apply R_zero]].
    intros [a a'] [b b'] [x w] [y w'] [H1 H2] [H H']. cbn in *.
    assert (M : R (d + e)%Z (mul K x w) (mul L y w')) by now apply R_mul. split; repeat first [apply R_sub | apply R_add]; assumption.
  Qed.
  Lemma unit_wimean_op W W' a b x y w w' : R e W W' -> R d a b -> R d x y -> R e w w' -> R d (imm_weighted_mean_op K a W x w) (imm_weighted_mean_op L b W' y w').
  Proof.
    intros H1 H2 H3 H4. unfold imm_weighted_mean_op. apply (R_as (d + e - e)); [lia |]. apply R_div; [| exact H1].
    apply R_add; [| now apply R_mul]. apply R_mul; [exact H2 | now apply R_sub].
  Qed.
  Lemma unit_wvar h g : Forall2 RW h g -> let a := wvar_set_run K (zero K) (zero K) h in let b := wvar_set_run L (zero L) (zero L) g in
    R d (wv_mean K a) (wv_mean L b) /\ R (d + d)%Z (wv_var K a) (wv_var L b).
  Proof.
    intros F. cbv zeta. match goal with |- R d (wv_mean K ?a) (wv_mean L ?b) /\ _ => enough (H : wv_count K a = wv_count L b /\ R e (wv_W K a) (wv_W L b) /\ R d (wv_mean K a) (wv_mean L b) /\ R (d + d)%Z (wv_var K a) (wv_var L b)) by tauto end.
    apply (fold_rel RW (fun a b => wv_count K a = wv_count L b /\ R e (wv_W K a) (wv_W L b) /\ R d (wv_mean K a) (wv_mean L b) /\ R (d + d)%Z (wv_var K a) (wv_var L b)));
      [| exact F | repeat split; cbn; repeat first [apply R_zero | apply R_div_one | apply R_div_nat | apply R_zero_one]].
    intros [n W a c] [m W' b c'] [x w] [y w'] (H1 & H2 & H3 & H4) [H H']. cbn in *. subst. assert (HW : R e (add K W w) (add L W' w')) by now apply R_add.
    assert (M := unit_wimean_op _ _ _ _ _ _ _ _ HW H3 H H'). repeat split; try assumption.
    unfold weighted_variance_op. destruct (Nat.ltb 1 (S m)); [| exact H4]. unfold sum_op.
    apply R_add; [apply (R_as (d + d + e - e)); [lia |]; apply R_div; [apply R_mul; [exact H4 | now apply R_sub] | exact HW] |].
    apply (R_as (d + d + e - e)); [lia |]. apply R_div; [apply R_mul; [apply R_mul; apply R_sub; assumption | exact H'] |]. now apply R_sub.
  Qed.
  Lemma wupowers_ops Ns : forall l l' x y w w', R d x y -> R e w w' -> upowers e Ns l l' -> both (upowers e Ns) (weighted_moment_ops K Ns l x w) (weighted_moment_ops L Ns l' y w').
  Proof.
    induction Ns as [|N Ns IH]; intros [|a l] [|b l'] x y w w' H Hw P; cbn [upowers] in P; try contradiction; [exact I |]. destruct P as [P1 P2]. cbn [weighted_moment_ops]. unfold weighted_moment_op.
    pose proof (unit_npow N x y H) as E. destruct (npow K x N) as [p|], (npow L y N) as [q|]; cbn [both] in E; try contradiction; [| exact I].
    specialize (IH _ _ _ _ _ _ H Hw P2). destruct (weighted_moment_ops K Ns l x w), (weighted_moment_ops L Ns l' y w'); cbn [both] in IH; try contradiction; [| exact I].
    cbn. split; [apply R_add; [exact P1 | apply (R_as (e + Z.of_nat N * d)); [lia | now apply R_mul]] | exact IH].
  Qed.
  Definition like_uwmom Ns (a : wmom_set K) (b : wmom_set L) : Prop := R e (wo_W K a) (wo_W L b) /\ R (d + e)%Z (wo_sum K a) (wo_sum L b) /\ upowers e Ns (wo_sums K a) (wo_sums L b).
  Lemma unit_wmom Ns h g : Forall2 RW h g -> both (like_uwmom Ns) (wmom_set_run K Ns (zero K) (zero K) h) (wmom_set_run L Ns (zero L) (zero L) g).
  Proof.
    intros F. apply (fold_rel RW (both (like_uwmom Ns))); [| exact F | cbn; repeat split; cbn; [apply R_zero | apply R_zero_one | apply upowers_init; intros; apply R_zero_one]].
    intros [a|] [b|] [x w] [y w'] Q [H H']; cbn in Q, H, H'; try contradiction; [| exact I]. destruct Q as (Q1 & Q2 & Q3). cbn [wmom_set_push fst snd].
    pose proof (wupowers_ops Ns _ _ _ _ _ _ H H' Q3) as P. destruct (weighted_moment_ops K Ns _ x w), (weighted_moment_ops L Ns _ y w'); cbn [both] in P; try contradiction; [| exact I].
    cbn. repeat split; cbn; [now apply R_add | apply R_add; [assumption | now apply R_mul] | exact P].
  Qed.
  Lemma unit_wmom_mean Ns a b : like_uwmom Ns a b -> R d (wmom_set_mean K a) (wmom_set_mean L b).
  Proof. intros (H1 & H2 & _). unfold wmom_set_mean, weighted_mean_result. apply (R_as (d + e - e)); [lia |]. now apply R_div. Qed.
  Lemma unit_wmoments Ns a b : like_uwmom Ns a b -> forall i N, nth_error Ns i = Some N -> both (R (Z.of_nat N * d)) (wmom_set_moment K a i) (wmom_set_moment L b i).
  Proof.
    intros (H1 & _ & H3) i N E. unfold wmom_set_moment. pose proof (upowers_nth _ _ _ _ H3 _ _ E) as P.
    destruct (nth_error (wo_sums K a) i), (nth_error (wo_sums L b) i); cbn [both] in P; try contradiction; [| exact I]. cbn.
    apply (R_as (Z.of_nat N * d + e - e)); [lia |]. now apply R_div.
  Qed.
  Lemma unit_wmoment N h g : Forall2 RW h g -> both (R (Z.of_nat N * d)) (weighted_moment_run K N (zero K) h) (weighted_moment_run L N (zero L) g).
  Proof.
    intros F. unfold weighted_moment_run. pose proof (unit_wmom [N] _ _ F) as H. destruct (wmom_set_run K [N] _ _ h), (wmom_set_run L [N] _ _ g); cbn [both] in H; try contradiction; [| exact I].
    now apply (unit_wmoments [N] _ _ H 0%nat N).
  Qed.
  Lemma unit_lazy_wvariance h g : Forall2 RW h g -> both (R (d + d)) (lazy_weighted_variance_run K (zero K) h) (lazy_weighted_variance_run L (zero L) g).
  Proof.
    intros F. unfold lazy_weighted_variance_run. pose proof (unit_wmom [2%nat] _ _ F) as H. destruct (wmom_set_run K _ _ _ h) as [a|], (wmom_set_run L _ _ _ g) as [b|]; cbn [both] in H; try contradiction; [| exact I].
    pose proof (unit_wmoments _ _ _ H 0%nat _ eq_refl) as M2. pose proof (unit_wmom_mean _ _ _ H) as M.
    destruct (wmom_set_moment K a 0), (wmom_set_moment L b 0); cbn [both] in M2; try contradiction; [| exact I]. cbn [both]. now apply unit_difference.
  Qed.
  Lemma unit_wskewness_run h g : Forall2 RW h g -> both (R 0%Z) (weighted_skewness_run K sqrtK (zero K) h) (weighted_skewness_run L sqrtL (zero L) g).
  Proof.
    intros F. unfold weighted_skewness_run. pose proof (unit_wmom [2%nat; 3%nat] _ _ F) as H. destruct (wmom_set_run K _ _ _ h) as [a|], (wmom_set_run L _ _ _ g) as [b|]; cbn [both] in H; try contradiction; [| exact I].
    pose proof (unit_wmoments _ _ _ H 0%nat _ eq_refl) as M2. pose proof (unit_wmoments _ _ _ H 1%nat _ eq_refl) as M3. pose proof (unit_wmom_mean _ _ _ H) as M.
    destruct (wmom_set_moment K a 0), (wmom_set_moment L b 0); cbn [both] in M2; try contradiction; [| exact I].
    destruct (wmom_set_moment K a 1), (wmom_set_moment L b 1); cbn [both] in M3; try contradiction; [| exact I]. cbn [both]. now apply unit_skewness.
  Qed.
  Lemma unit_wkurtosis_run h g : Forall2 RW h g -> both (R 0%Z) (weighted_kurtosis_run K (zero K) h) (weighted_kurtosis_run L (zero L) g).
  Proof.
    intros F. unfold weighted_kurtosis_run. pose proof (unit_wmom [2%nat; 3%nat; 4%nat] _ _ F) as H. destruct (wmom_set_run K _ _ _ h) as [a|], (wmom_set_run L _ _ _ g) as [b|]; cbn [both] in H; try contradiction; [| exact I].
    pose proof (unit_wmoments _ _ _ H 0%nat _ eq_refl) as M2. pose proof (unit_wmoments _ _ _ H 1%nat _ eq_refl) as M3. pose proof (unit_wmoments _ _ _ H 2%nat _ eq_refl) as M4. pose proof (unit_wmom_mean _ _ _ H) as M.
    destruct (wmom_set_moment K a 0), (wmom_set_moment L b 0); cbn [both] in M2; try contradiction; [| exact I].
    destruct (wmom_set_moment K a 1), (wmom_set_moment L b 1); cbn [both] in M3; try contradiction; [| exact I].
    destruct (wmom_set_moment K a 2), (wmom_set_moment L b 2); cbn [both] in M4; try contradiction; [| exact I]. cbn [both]. now apply unit_kurtosis.
  Qed.

  (** Covariance: the units of samples and variates multiply. *)
  Lemma unit_covariance h g : Forall2 RW h g -> R (e + d)%Z (cs_cov K (cov_set_run K (zero K) (zero K) h)) (cs_cov L (cov_set_run L (zero L) (zero L) g)).
  Proof.
    intros F. match goal with |- R _ (cs_cov K ?a) (cs_cov L ?b) => enough (H : cs_count K a = cs_count L b /\ R d (cs_sum K a) (cs_sum L b) /\ R e (cs_sumv K a) (cs_sumv L b) /\ R (e + d)%Z (cs_cov K a) (cs_cov L b)) by apply H end.
    apply (fold_rel RW (fun a b => cs_count K a = cs_count L b /\ R d (cs_sum K a) (cs_sum L b) /\ R e (cs_sumv K a) (cs_sumv L b) /\ R (e + d)%Z (cs_cov K a) (cs_cov L b))); [| exact F |].
    - intros [n p q r] [n' p' q' r'] [x v] [y u] (H1 & H2 & H3 & H4) [Hx Hv]. cbn in *. subst. unfold sum_op.
      assert (A : R d (add K p x) (add L p' y)) by now apply R_add. assert (B : R e (add K q v) (add L q' u)) by now apply R_add.
      repeat split; try assumption. unfold covariance_op. destruct (Nat.ltb 1 (S n')); [| exact H4]. apply R_add; [apply R_div_nat, R_mul_nat, H4 |].
      apply R_div_nat. apply R_mul; apply R_sub; try assumption; now apply R_div_nat.
    - repeat split; cbn; try apply R_zero. apply R_mul; apply R_div_one, R_zero.
  Qed.
  Context (t : Z).
  Local Notation RT := (fun (p : car K * car K * car K) (q : car L * car L * car L) => R d (fst (fst p)) (fst (fst q)) /\ R t (snd (fst p)) (snd (fst q)) /\ R e (snd p) (snd q)).
  Lemma unit_wcovariance h g : Forall2 RT h g ->
    R (t + d)%Z (wc_cov K (wcov_set_run K (zero K) (zero K) (zero K) h)) (wc_cov L (wcov_set_run L (zero L) (zero L) (zero L) g)).
  Proof.
    intros F. match goal with |- R _ (wc_cov K ?a) (wc_cov L ?b) => enough (H : wc_count K a = wc_count L b /\ R e (wc_W K a) (wc_W L b) /\ R (d + e)%Z (wc_sum K a) (wc_sum L b) /\ R (t + e)%Z (wc_sumv K a) (wc_sumv L b) /\ R (t + d)%Z (wc_cov K a) (wc_cov L b)) by apply H end.
    apply (fold_rel RT (fun a b => wc_count K a = wc_count L b /\ R e (wc_W K a) (wc_W L b) /\ R (d + e)%Z (wc_sum K a) (wc_sum L b) /\ R (t + e)%Z (wc_sumv K a) (wc_sumv L b) /\ R (t + d)%Z (wc_cov K a) (wc_cov L b))); [| exact F |].
    - intros [n W p q r] [n' W' p' q' r'] [[x v] w] [[y u] w'] (H1 & H0 & H2 & H3 & H4) (Hx & Hv & Hw). cbn in *. subst. unfold sum_op, weighted_sum_op.
      assert (A : R (d + e)%Z (add K p (mul K x w)) (add L p' (mul L y w'))) by (apply R_add; [assumption | now apply R_mul]).
      assert (B : R (t + e)%Z (add K q (mul K v w)) (add L q' (mul L u w'))) by (apply R_add; [assumption | now apply R_mul]).
      assert (C : R e (add K W w) (add L W' w')) by now apply R_add.
      repeat split; try assumption. unfold weighted_covariance_op. destruct (Nat.ltb 1 (S n')); [| exact H4].
      assert (MV : R t (div K (add K q (mul K v w)) (add K W w)) (div L (add L q' (mul L u w')) (add L W' w'))) by (apply (R_as (t + e - e)); [lia | now apply R_div]).
      assert (MS : R d (div K (add K p (mul K x w)) (add K W w)) (div L (add L p' (mul L y w')) (add L W' w'))) by (apply (R_as (d + e - e)); [lia | now apply R_div]).
      apply R_add; [apply (R_as (t + d + e - e)); [lia |]; apply R_div; [apply R_mul; [exact H4 | now apply R_sub] | exact C] |].
      apply (R_as (t + d + e - e)); [lia |]. apply R_div; [apply R_mul; [apply R_mul; apply R_sub; assumption | exact Hw] | now apply R_sub].
    - repeat split; cbn; try apply R_zero_one; try apply R_zero.
      assert (I0 : forall u, R u (mul K (div K (zero K) (one K)) (one K)) (mul L (div L (zero L) (one L)) (one L))) by (intros u; apply (R_as (u + 0)); [lia |]; apply R_mul; [apply R_div_one, R_zero | apply R_one]).
      apply R_mul; apply I0.
  Qed.
  End Unit.
End AnyArithmetic.
