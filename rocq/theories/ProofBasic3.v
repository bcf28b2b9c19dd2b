(** Run-level consequences used directly by PropsBasic.v. *)
From Coq Require Import List Arith NArith ZArith QArith Qcanon Field Reals Lia Permutation.
From Verif Require Import Num NumFacts ModelBasic SpecStats ProofBasic ProofBasic2.
Import ListNotations.

Section Field.
Variable K : Num.
Hypothesis HK : FieldLaws K.
Local Notation T := (car K).
Local Notation "0" := (zero K) : num_scope.
Local Notation "1" := (one K) : num_scope.
Local Notation "x + y" := (add K x y) : num_scope.
Local Notation "x - y" := (sub K x y) : num_scope.
Local Notation "x * y" := (mul K x y) : num_scope.
Local Notation "x / y" := (div K x y) : num_scope.
Local Notation "# n" := (ofnat K n) (at level 2) : num_scope.
Local Open Scope num_scope.
Add Field Kfield3 : (fl_field K HK).

Lemma sum_perm s0 xs ys : Permutation xs ys -> sum_run K s0 xs = sum_run K s0 ys.
Proof. intros HP. rewrite !(sum_run_spec K HK). rewrite (total_perm K HK _ _ _ HP). reflexivity. Qed.
Lemma sum_batches s0 xs ys : sum_run K s0 (xs ++ ys) = sum_run K s0 xs + sum_run K 0 ys.
Proof. rewrite !(sum_run_spec K HK), (total_app K HK). ring. Qed.

Lemma mean_lazy_immediate xs : xs <> [] ->
  im_mean K (imean_set_run K 0 xs) = mean_set_mean K (mean_set_run K 0 xs).
Proof. intros H. rewrite (imean_run_spec K HK), (mean_set_spec K HK) by exact H. reflexivity. Qed.

Lemma perm_nonempty {A} (xs ys : list A) : Permutation xs ys -> xs <> [] -> ys <> [].
Proof. intros HP Hne ->. apply Hne. apply Permutation_sym, Permutation_nil in HP. exact HP. Qed.

Lemma perm_all xs ys (sqrt : T -> T) N : Permutation xs ys -> xs <> [] -> (1 <= N)%nat ->
  mean_set_mean K (mean_set_run K 0 xs) = mean_set_mean K (mean_set_run K 0 ys)
  /\ im_mean K (imean_set_run K 0 xs) = im_mean K (imean_set_run K 0 ys)
  /\ vs_var K (var_set_run K 0 xs) = vs_var K (var_set_run K 0 ys)
  /\ lazy_variance_run K 0 xs = lazy_variance_run K 0 ys
  /\ moment_run K N 0 xs = moment_run K N 0 ys
  /\ skewness_run K sqrt 0 xs = skewness_run K sqrt 0 ys
  /\ kurtosis_run K 0 xs = kurtosis_run K 0 ys.
Proof.
  intros HP Hx HN. assert (Hy := perm_nonempty _ _ HP Hx).
  rewrite !(mean_set_spec K HK), !(imean_run_spec K HK), !(var_run_spec K HK),
    !(lazy_variance_run_spec K HK), !(moment_run_spec K HK), !(skewness_run_spec K HK),
    !(kurtosis_run_spec K HK) by assumption.
  rewrite (Mean_perm K HK _ _ HP), (Variance_perm K HK _ _ HP), (Moment_perm K HK N _ _ HP),
    !(CentralMoment_perm K HK _ _ _ HP). repeat split.
Qed.

Lemma perm_cov h1 h2 : Permutation h1 h2 -> h1 <> [] ->
  cs_cov K (cov_set_run K 0 0 h1) = cs_cov K (cov_set_run K 0 0 h2).
Proof.
  intros HP H1. rewrite !(cov_run_spec K HK) by eauto using perm_nonempty.
  apply (Covariance_perm K HK). exact HP.
Qed.

Lemma perm_weighted h1 h2 (sqrt : T -> T) N : Permutation h1 h2 -> h1 <> [] -> (1 <= N)%nat ->
  PrefixWeightsNonzero K h1 -> PrefixWeightsNonzero K h2 ->
  wmean_set_mean K (wmean_set_run K 0 0 h1) = wmean_set_mean K (wmean_set_run K 0 0 h2)
  /\ wv_mean K (wvar_set_run K 0 0 h1) = wv_mean K (wvar_set_run K 0 0 h2)
  /\ wv_var K (wvar_set_run K 0 0 h1) = wv_var K (wvar_set_run K 0 0 h2)
  /\ lazy_weighted_variance_run K 0 h1 = lazy_weighted_variance_run K 0 h2
  /\ weighted_moment_run K N 0 h1 = weighted_moment_run K N 0 h2
  /\ weighted_skewness_run K sqrt 0 h1 = weighted_skewness_run K sqrt 0 h2
  /\ weighted_kurtosis_run K 0 h1 = weighted_kurtosis_run K 0 h2.
Proof.
  intros HP Hx HN P1 P2. assert (Hy := perm_nonempty _ _ HP Hx).
  assert (W1 := PWN_self K _ P1 Hx). assert (W2 := PWN_self K _ P2 Hy).
  rewrite !(wmean_set_spec K HK), !(wvar_run_mean_spec K HK), !(wvar_run_spec K HK),
    !(lazy_weighted_variance_run_spec K HK), !(weighted_moment_run_spec K HK),
    !(weighted_skewness_run_spec K HK), !(weighted_kurtosis_run_spec K HK) by assumption.
  rewrite (WMean_perm K HK _ _ HP), (WVariance_perm K HK _ _ HP), (WMoment_perm K HK N _ _ HP),
    !(WCentralMoment_perm K HK _ _ _ HP). repeat split.
Qed.

Lemma unit_all xs (sqrt : T -> T) N : xs <> [] -> (1 <= N)%nat ->
  let h := unit_weights K xs in
  wmean_set_mean K (wmean_set_run K 0 0 h) = mean_set_mean K (mean_set_run K 0 xs)
  /\ wv_mean K (wvar_set_run K 0 0 h) = im_mean K (imean_set_run K 0 xs)
  /\ wv_var K (wvar_set_run K 0 0 h) = vs_var K (var_set_run K 0 xs)
  /\ lazy_weighted_variance_run K 0 h = lazy_variance_run K 0 xs
  /\ weighted_moment_run K N 0 h = moment_run K N 0 xs
  /\ weighted_skewness_run K sqrt 0 h = skewness_run K sqrt 0 xs
  /\ weighted_kurtosis_run K 0 h = kurtosis_run K 0 xs.
Proof.
  intros Hx HN h. assert (P : PrefixWeightsNonzero K h) by apply (unit_PWN K HK).
  assert (Hh : h <> []) by (destruct xs; [congruence | discriminate]).
  assert (W := PWN_self K _ P Hh).
  rewrite (wmean_set_spec K HK), (wvar_run_mean_spec K HK), (wvar_run_spec K HK),
    (lazy_weighted_variance_run_spec K HK), (weighted_moment_run_spec K HK),
    (weighted_skewness_run_spec K HK), (weighted_kurtosis_run_spec K HK) by assumption.
  rewrite (mean_set_spec K HK), (imean_run_spec K HK), (var_run_spec K HK),
    (lazy_variance_run_spec K HK), (moment_run_spec K HK), (skewness_run_spec K HK),
    (kurtosis_run_spec K HK) by assumption.
  unfold h, WVariance. rewrite (unit_WMean K HK), (unit_WMoment K HK), !(unit_WCentralMoment K HK).
  repeat split.
Qed.

Lemma unit_cov (l : list (T * T)) : l <> [] ->
  wc_cov K (wcov_set_run K 0 0 0 (unit_weights K l)) = cs_cov K (cov_set_run K 0 0 l).
Proof.
  intros Hl. rewrite (wcov_run_spec K HK).
  - rewrite (unit_WCovariance K HK), (cov_run_spec K HK) by exact Hl. reflexivity.
  - destruct l; [congruence | discriminate].
  - apply (unit_PWN K HK).
Qed.

Lemma scale_all c h (sqrt : T -> T) N : h <> [] -> (1 <= N)%nat -> c <> 0 -> PrefixWeightsNonzero K h ->
  let h' := scale_weights K c h in
  wmean_set_mean K (wmean_set_run K 0 0 h') = wmean_set_mean K (wmean_set_run K 0 0 h)
  /\ wv_mean K (wvar_set_run K 0 0 h') = wv_mean K (wvar_set_run K 0 0 h)
  /\ wv_var K (wvar_set_run K 0 0 h') = wv_var K (wvar_set_run K 0 0 h)
  /\ lazy_weighted_variance_run K 0 h' = lazy_weighted_variance_run K 0 h
  /\ weighted_moment_run K N 0 h' = weighted_moment_run K N 0 h
  /\ weighted_skewness_run K sqrt 0 h' = weighted_skewness_run K sqrt 0 h
  /\ weighted_kurtosis_run K 0 h' = weighted_kurtosis_run K 0 h.
Proof.
  intros Hh HN Hc P h'. assert (P' : PrefixWeightsNonzero K h') by (apply (scale_PWN K HK); assumption).
  assert (Hh' : h' <> []) by (destruct h; [congruence | discriminate]).
  assert (W := PWN_self K _ P Hh). assert (W' := PWN_self K _ P' Hh').
  rewrite !(wmean_set_spec K HK), !(wvar_run_mean_spec K HK), !(wvar_run_spec K HK),
    !(lazy_weighted_variance_run_spec K HK), !(weighted_moment_run_spec K HK),
    !(weighted_skewness_run_spec K HK), !(weighted_kurtosis_run_spec K HK) by assumption.
  unfold h', WVariance. rewrite (scale_WMean K HK), (scale_WMoment K HK), !(scale_WCentralMoment K HK) by assumption.
  repeat split.
Qed.

Lemma scale_cov c (h : list (T * T * T)) : h <> [] -> c <> 0 -> PrefixWeightsNonzero K h ->
  wc_cov K (wcov_set_run K 0 0 0 (scale_weights K c h)) = wc_cov K (wcov_set_run K 0 0 0 h).
Proof.
  intros Hh Hc P. rewrite !(wcov_run_spec K HK); try assumption.
  - apply (scale_WCovariance K HK); [exact Hc | apply PWN_self; assumption].
  - destruct h; [congruence | discriminate].
  - apply (scale_PWN K HK); assumption.
Qed.

Lemma nat_PWN {A} (l : list (A * nat)) : Forall (fun p => 1 <= snd p)%nat l -> PrefixWeightsNonzero K (nat_weights K l).
Proof.
  intros HF p q E Hp. unfold nat_weights in E.
  assert (Hp' : p = nat_weights K (firstn (length p) l)).
  { unfold nat_weights. rewrite <- firstn_map, E, firstn_app, firstn_all, Nat.sub_diag.
    cbn [firstn]. rewrite app_nil_r. reflexivity. }
  rewrite Hp', (nat_weights_TW K HK). apply (length_neq0 K HK).
  destruct p as [|x p]; [congruence|]. destruct l as [|[y k] l]; [discriminate|].
  inversion HF as [|? ? Hk _]; subst. cbn [length firstn replicated flat_map fst snd] in *.
  destruct k; [lia|]. discriminate.
Qed.

Lemma replicated_nonempty {A} (l : list (A * nat)) :
  l <> [] -> Forall (fun p => 1 <= snd p)%nat l -> replicated l <> [].
Proof.
  destruct l as [|[y k] l]; [congruence|]. intros _ HF. inversion HF as [|? ? Hk _]; subst.
  cbn in *. destruct k; [lia|]. discriminate.
Qed.

Lemma natural_all l (sqrt : T -> T) N : l <> [] -> (1 <= N)%nat -> Forall (fun p => 1 <= snd p)%nat l ->
  let h := nat_weights K l in let xs := replicated l in
  wmean_set_mean K (wmean_set_run K 0 0 h) = mean_set_mean K (mean_set_run K 0 xs)
  /\ wv_mean K (wvar_set_run K 0 0 h) = im_mean K (imean_set_run K 0 xs)
  /\ wv_var K (wvar_set_run K 0 0 h) = vs_var K (var_set_run K 0 xs)
  /\ lazy_weighted_variance_run K 0 h = lazy_variance_run K 0 xs
  /\ weighted_moment_run K N 0 h = moment_run K N 0 xs
  /\ weighted_skewness_run K sqrt 0 h = skewness_run K sqrt 0 xs
  /\ weighted_kurtosis_run K 0 h = kurtosis_run K 0 xs.
Proof.
  intros Hl HN HF h xs. assert (P : PrefixWeightsNonzero K h) by (apply nat_PWN; assumption).
  assert (Hh : h <> []) by (destruct l; [congruence | discriminate]).
  assert (Hx : xs <> []) by (apply replicated_nonempty; assumption).
  assert (W := PWN_self K _ P Hh).
  rewrite (wmean_set_spec K HK), (wvar_run_mean_spec K HK), (wvar_run_spec K HK),
    (lazy_weighted_variance_run_spec K HK), (weighted_moment_run_spec K HK),
    (weighted_skewness_run_spec K HK), (weighted_kurtosis_run_spec K HK) by assumption.
  rewrite (mean_set_spec K HK), (imean_run_spec K HK), (var_run_spec K HK),
    (lazy_variance_run_spec K HK), (moment_run_spec K HK), (skewness_run_spec K HK),
    (kurtosis_run_spec K HK) by assumption.
  unfold h, WVariance. rewrite (nat_weights_WMean K HK), (nat_weights_WMoment K HK), !(nat_weights_WCentralMoment K HK).
  repeat split.
Qed.

Lemma natural_cov (l : list (T * T * nat)) : l <> [] -> Forall (fun p => 1 <= snd p)%nat l ->
  wc_cov K (wcov_set_run K 0 0 0 (nat_weights K l)) = cs_cov K (cov_set_run K 0 0 (replicated l)).
Proof.
  intros Hl HF. rewrite (wcov_run_spec K HK).
  - rewrite (nat_weights_WCovariance K HK), (cov_run_spec K HK) by (apply replicated_nonempty; assumption). reflexivity.
  - destruct l; [congruence | discriminate].
  - apply nat_PWN; assumption.
Qed.

Lemma cov_symmetric h : h <> [] ->
  cs_cov K (cov_set_run K 0 0 (map (fun p => (snd p, fst p)) h)) = cs_cov K (cov_set_run K 0 0 h).
Proof.
  intros H. rewrite !(cov_run_spec K HK); try exact H.
  - apply (Covariance_swap K HK).
  - destruct h; [congruence | discriminate].
Qed.
Lemma cov_diagonal xs : xs <> [] ->
  cs_cov K (cov_set_run K 0 0 (map (fun x => (x, x)) xs)) = vs_var K (var_set_run K 0 xs).
Proof.
  intros H. rewrite (cov_run_spec K HK), (var_run_spec K HK); try exact H.
  - apply (Covariance_diag K HK).
  - destruct xs; [congruence | discriminate].
Qed.

(** the weighted sets, together *)
Lemma weighted_all h (sqrt : T -> T) N : h <> [] -> (1 <= N)%nat -> PrefixWeightsNonzero K h ->
  wm_sum K (wmean_set_run K 0 0 h) = total K (fun p => snd p * fst p) h
  /\ wm_W K (wmean_set_run K 0 0 h) = TotalWeight K h
  /\ wmean_set_mean K (wmean_set_run K 0 0 h) = WMean K h
  /\ wv_mean K (wvar_set_run K 0 0 h) = WMean K h
  /\ wv_var K (wvar_set_run K 0 0 h) = WVariance K h
  /\ lazy_weighted_variance_run K 0 h = Some (WVariance K h)
  /\ weighted_moment_run K N 0 h = Some (WMoment K N h)
  /\ weighted_skewness_run K sqrt 0 h
     = Some (WCentralMoment K 3 h / (WVariance K h * sqrt (WVariance K h)))
  /\ weighted_kurtosis_run K 0 h
     = Some (WCentralMoment K 4 h / (WVariance K h * WVariance K h) - #3).
Proof.
  intros Hh HN P. assert (W := PWN_self K _ P Hh).
  rewrite (wmean_set_spec K HK), (wvar_run_mean_spec K HK), (wvar_run_spec K HK),
    (lazy_weighted_variance_run_spec K HK), (weighted_moment_run_spec K HK),
    (weighted_skewness_run_spec K HK), (weighted_kurtosis_run_spec K HK) by assumption.
  rewrite (wmean_set_run_spec K HK). cbn [wm_sum wm_W]. repeat split; ring.
Qed.

(** construction with [sample = s0] *)
Lemma moment_bias N s0 xs : (1 <= N)%nat -> xs <> [] ->
  moment_run K N s0 xs = Some (Moment K N xs + s0 / #(length xs)).
Proof.
  intros HN Hx. unfold moment_run. rewrite (mom_set_run_spec K HK) by (constructor; auto).
  unfold mom_set_moment, moment_result, Moment, average. cbn [map nth_error mo_sums mo_count].
  f_equal. field. apply (length_neq0 K HK). exact Hx.
Qed.
Lemma mean_bias s0 xs : xs <> [] ->
  mean_set_mean K (mean_set_run K s0 xs) = Mean K xs + s0 / #(length xs).
Proof.
  intros Hx. rewrite (mean_set_run_spec K HK). unfold mean_set_mean, mean_result, Mean, average.
  cbn [ms_sum ms_count]. field. apply (length_neq0 K HK). exact Hx.
Qed.
End Field.

(** Cauchy-Schwarz, over the rationals. *)
Lemma Qc_CS {A} (f g : A -> Qc) l :
  (total QcN (fun x => f x * g x) l * total QcN (fun x => f x * g x) l
   <= total QcN (fun x => f x * f x) l * total QcN (fun x => g x * g x) l)%Qc.
Proof.
  set (a := total QcN (fun x => (f x * f x)%Qc) l). set (b := total QcN (fun x => (f x * g x)%Qc) l).
  set (c := total QcN (fun x => (g x * g x)%Qc) l).
  assert (Hq : forall t u : Qc, (0 <= t * t * a - Q2Qc 2 * t * u * b + u * u * c)%Qc).
  { intros t u. assert (E : total QcN (fun x => ((t * f x - u * g x) * (t * f x - u * g x))%Qc) l
       = (t * t * a - Q2Qc 2 * t * u * b + u * u * c)%Qc).
    { unfold a, b, c. clear. induction l as [|x l IH].
      - cbn. ring.
      - rewrite !total_cons. cbn [add QcN]. rewrite IH.
        generalize (total QcN (fun x => (f x * f x)%Qc) l) (total QcN (fun x => (f x * g x)%Qc) l)
          (total QcN (fun x => (g x * g x)%Qc) l). cbn [car QcN]. intros p q r. 
        replace (Q2Qc 2) with (1 + 1)%Qc by (apply Qc_is_canon; reflexivity). ring. }
    rewrite <- E. apply Qc_total_nonneg. intros x _. apply Qc_sq_nonneg. }
  assert (Ha : (0 <= a)%Qc) by (apply Qc_total_nonneg; intros; apply Qc_sq_nonneg).
  assert (Hc : (0 <= c)%Qc) by (apply Qc_total_nonneg; intros; apply Qc_sq_nonneg).
  clearbody a b c. cbn [car QcN] in *.
  destruct (Qc_eq_dec a 0%Qc) as [E|E].
  - assert (H1 := Hq ((1 + c) * b)%Qc 1%Qc). assert (H2 := Hq (b)%Qc 0%Qc).
    subst a. assert (Hb : (Q2Qc 2 * (b * b) * (1 + c) <= c)%Qc).
    { revert H1. qlra. }
    assert (H3 := Hq ((1 + c) * (1 + c) * b)%Qc 1%Qc).
    assert (Hbb : (0 <= b * b)%Qc) by apply Qc_sq_nonneg.
    destruct (Qc_eq_dec b 0%Qc) as [->|Eb]; [qlra|]. exfalso.
    (* b <> 0 : the linear function is unbounded below *)
    assert (Hbp : (0 < b * b)%Qc).
    { destruct (Qcle_lt_or_eq _ _ Hbb) as [H|H]; [exact H|]. symmetry in H.
      destruct (Qcmult_integral _ _ H); congruence. }
    assert (H4 := Hq ((1 + c) / b)%Qc 1%Qc).
    assert (H5 : ((1 + c) / b * b = 1 + c)%Qc) by (field; exact Eb).
    assert (H6 : (0 * ((1 + c) / b) = 0)%Qc) by ring.
    assert (H7 : (Q2Qc 2 * ((1 + c) / b) * 1 * b = Q2Qc 2 * (1 + c))%Qc).
    { rewrite <- H5 at 2. ring. }
    rewrite H7 in H4. qlra.
  - assert (Hap : (0 < a)%Qc) by (destruct (Qcle_lt_or_eq _ _ Ha) as [H|H]; [exact H | congruence]).
    assert (H1 := Hq b a). 
    assert (H2 : (0 <= a * (a * c - b * b))%Qc).
    { revert H1. replace (b * b * a - Q2Qc 2 * b * a * b + a * a * c)%Qc with (a * (a * c - b * b))%Qc; auto.
      replace (Q2Qc 2) with (1 + 1)%Qc by (apply Qc_is_canon; reflexivity). ring. }
    destruct (Qclt_le_dec (a * c) (b * b)) as [C|C]; [|exact C]. exfalso.
    assert (H3 : (a * c - b * b < 0)%Qc) by qlra.
    generalize dependent (a * c - b * b)%Qc. intros d H2 H3. clear - Hap H2 H3. qnra.
Qed.

Lemma Qc_scale_CS (a b c n : Qc) : (b * b <= a * c -> (b / n) * (b / n) <= (a / n) * (c / n))%Qc.
Proof.
  intros H.
  unfold Qcdiv. assert (Hi : (0 <= / n * / n)%Qc) by apply Qc_sq_nonneg.
  replace (b * / n * (b * / n))%Qc with ((b * b) * (/ n * / n))%Qc by ring.
  replace (a * / n * (c * / n))%Qc with ((a * c) * (/ n * / n))%Qc by ring.
  apply Qcmult_le_compat_r; assumption.
Qed.

Lemma Qc_cov_CS (h : list (Qc * Qc)) : h <> [] ->
  (Covariance QcN h * Covariance QcN h
   <= Variance QcN (map fst h) * Variance QcN (map snd h))%Qc.
Proof.
  intros Hne. unfold Covariance, Variance, CentralMoment, average.
  rewrite !(total_map QcN), !map_length. cbn [div QcN power mul sub one].
  set (m1 := Mean QcN (map fst h)). set (m2 := Mean QcN (map snd h)).
  assert (E1 : total QcN (fun x => ((fst x - m1) * ((fst x - m1) * 1))%Qc) h
     = total QcN (fun x => ((fst x - m1) * (fst x - m1))%Qc) h)
    by (apply total_ext; intros; cbn [car QcN] in *; ring).
  assert (E2 : total QcN (fun x => ((snd x - m2) * ((snd x - m2) * 1))%Qc) h
     = total QcN (fun x => ((snd x - m2) * (snd x - m2))%Qc) h)
    by (apply total_ext; intros; cbn [car QcN] in *; ring).
  rewrite E1, E2. assert (HC := Qc_CS (fun x => (fst x - m1)%Qc) (fun x => (snd x - m2)%Qc) h).
  exact (Qc_scale_CS _ _ _ (ofnat QcN (length h)) HC).
Qed.
