(** Property theorems C01-C03, C05-C12, C48 (basic statistics). *)
From Coq Require Import List Arith NArith ZArith QArith Qcanon Reals Permutation Lia.
From Verif Require Import Num NumFacts ModelBasic SpecStats ProofBasic ProofBasic2 ProofBasic3.
Import ListNotations.

Local Notation "[[ q ]]" := (Q2Qc q).
Local Ltac qc_run := apply Qc_is_canon; vm_compute; reflexivity.
Definition ex_samples : list Qc := [ [[1]]; [[2]]; [[4]]; [[4]]; [[-3#2]] ].
Definition ex_weighted : list (Qc * Qc) := [ ([[1]], [[1#2]]); ([[2]], [[3]]); ([[-4]], [[1]]) ].

(** ** C01 *)
Theorem C01_count : forall (A : Type) (xs : list A),
  count_run xs = N.modulo (N.of_nat (length xs)) (2 ^ 64).
Proof. exact (@count_run_spec). Qed.
Print Assumptions C01_count.
Example C01_ex : count_run ex_samples = 5%N.
Proof. vm_compute. reflexivity. Qed.

(** ** C02 (exact arithmetic; machine integers are in PropsMinMax.v) *)
Theorem C02_sum : forall (K : Num), FieldLaws K -> forall (s0 : car K) (xs : list (car K)),
  sum_run K s0 xs = add K s0 (total K (fun x => x) xs).
Proof. exact sum_run_spec. Qed.
Print Assumptions C02_sum.
Theorem C02_sum_any_order : forall (K : Num), FieldLaws K -> forall (s0 : car K) (xs ys : list (car K)),
  Permutation xs ys -> sum_run K s0 xs = sum_run K s0 ys.
Proof. exact sum_perm. Qed.
Print Assumptions C02_sum_any_order.
Theorem C02_sum_batches : forall (K : Num), FieldLaws K -> forall (s0 : car K) (xs ys : list (car K)),
  sum_run K s0 (xs ++ ys) = add K (sum_run K s0 xs) (sum_run K (zero K) ys).
Proof. exact sum_batches. Qed.
Print Assumptions C02_sum_batches.
Example C02_ex : FieldLaws QcN /\ sum_run QcN [[10]] ex_samples = [[39#2]].
Proof. split; [exact QcN_field | qc_run]. Qed.

(** ** C03 *)
Theorem C03_mean : forall (K : Num), FieldLaws K -> forall xs : list (car K), xs <> [] ->
  mean_set_mean K (mean_set_run K (zero K) xs) = Mean K xs.
Proof. exact (fun K HK xs _ => mean_set_spec K HK xs). Qed.
Print Assumptions C03_mean.
(** the initial value of an immediate mean is irrelevant *)
Theorem C03_immediate_mean : forall (K : Num), FieldLaws K -> forall (s0 : car K) (xs : list (car K)), xs <> [] ->
  im_mean K (imean_set_run K s0 xs) = Mean K xs.
Proof. exact imean_run_spec. Qed.
Print Assumptions C03_immediate_mean.
Theorem C03_interchangeable : forall (K : Num), FieldLaws K -> forall xs : list (car K), xs <> [] ->
  im_mean K (imean_set_run K (zero K) xs) = mean_set_mean K (mean_set_run K (zero K) xs).
Proof. exact mean_lazy_immediate. Qed.
Print Assumptions C03_interchangeable.
Example C03_ex : ex_samples <> [] /\ mean_set_mean QcN (mean_set_run QcN 0%Qc ex_samples) = [[19#10]]
  /\ im_mean QcN (imean_set_run QcN 0%Qc ex_samples) = [[19#10]].
Proof. split; [discriminate|]. split; qc_run. Qed.

(** ** C05 *)
Theorem C05_variance : forall (K : Num), FieldLaws K -> forall xs : list (car K), xs <> [] ->
  vs_var K (var_set_run K (zero K) xs) = Variance K xs.
Proof. exact var_run_spec. Qed.
Print Assumptions C05_variance.
Theorem C05_lazy_variance : forall (K : Num), FieldLaws K -> forall xs : list (car K), xs <> [] ->
  lazy_variance_run K (zero K) xs = Some (Variance K xs).
Proof. exact lazy_variance_run_spec. Qed.
Print Assumptions C05_lazy_variance.
Theorem C05_nonnegative : forall xs : list Qc, (0 <= Variance QcN xs)%Qc.
Proof. exact Qc_Variance_nonneg. Qed.
Print Assumptions C05_nonnegative.
Example C05_ex : vs_var QcN (var_set_run QcN 0%Qc ex_samples) = [[106#25]].
Proof. qc_run. Qed.

(** ** C06 *)
Theorem C06_pow : forall (K : Num), FieldLaws K -> forall (x : car K) (n : nat), (1 <= n)%nat ->
  npow K x n = Some (power K x n).
Proof. exact npow_spec. Qed.
Print Assumptions C06_pow.
Theorem C06_moment : forall (K : Num), FieldLaws K -> forall (N : nat) (xs : list (car K)), (1 <= N)%nat ->
  xs <> [] -> moment_run K N (zero K) xs = Some (Moment K N xs).
Proof. exact (fun K HK N xs HN _ => moment_run_spec K HK N xs HN). Qed.
Print Assumptions C06_moment.
Example C06_ex : moment_run QcN 5 0%Qc [ [[2]]; [[-1]] ] = Some [[31#2]].
Proof. vm_compute. f_equal. Qed.

(** ** C07 *)
Theorem C07_skewness : forall xs : list R, xs <> [] ->
  skewness_run RN rsqrt 0%R xs
  = Some (CentralMoment RN 3 xs / R_sqrt.sqrt (Variance RN xs) ^ 3)%R.
Proof. exact R_skewness_spec. Qed.
Print Assumptions C07_skewness.
Theorem C07_kurtosis : forall xs : list R, xs <> [] ->
  kurtosis_run RN 0%R xs = Some (CentralMoment RN 4 xs / (Variance RN xs) ^ 2 - 3)%R.
Proof. exact R_kurtosis_spec. Qed.
Print Assumptions C07_kurtosis.
(** affine maps with positive slope change nothing, negative slope flips the skewness *)
Theorem C07_skewness_affine : forall (a b : R) (xs : list R), xs <> [] -> Variance RN xs <> 0%R -> a <> 0%R ->
  exists g, skewness_run RN rsqrt 0%R xs = Some g
   /\ skewness_run RN rsqrt 0%R (map (fun x => a * x + b)%R xs) = Some (if Rlt_dec 0 a then g else - g)%R.
Proof. exact R_skewness_affine. Qed.
Print Assumptions C07_skewness_affine.
Theorem C07_kurtosis_affine : forall (a b : R) (xs : list R), xs <> [] -> Variance RN xs <> 0%R -> a <> 0%R ->
  kurtosis_run RN 0%R (map (fun x => a * x + b)%R xs) = kurtosis_run RN 0%R xs.
Proof. exact R_kurtosis_affine. Qed.
Print Assumptions C07_kurtosis_affine.
(** the same over any field, with any function standing for std::sqrt *)
Theorem C07_skewness_any_field : forall (K : Num), FieldLaws K -> forall (sqrt : car K -> car K) (xs : list (car K)),
  xs <> [] -> skewness_run K sqrt (zero K) xs
  = Some (div K (CentralMoment K 3 xs) (mul K (Variance K xs) (sqrt (Variance K xs)))).
Proof. exact skewness_run_spec. Qed.
Print Assumptions C07_skewness_any_field.
Example C07_ex : Variance RN [1; 2; 4]%R = (14 / 9)%R /\ Variance RN [1; 2; 4]%R <> 0%R.
Proof.
  assert (H : Variance RN [1; 2; 4]%R = (14 / 9)%R).
  { unfold Variance, CentralMoment, Mean, average, total; cbn; field. }
  split; [exact H|]. rewrite H. apply Rgt_not_eq. apply Rdiv_lt_0_compat; apply IZR_lt; lia.
Qed.

(** ** C08 (scalars; vectors in PropsVector.v) *)
Theorem C08_covariance : forall (K : Num), FieldLaws K -> forall h : list (car K * car K), h <> [] ->
  cs_cov K (cov_set_run K (zero K) (zero K) h) = Covariance K h.
Proof. exact cov_run_spec. Qed.
Print Assumptions C08_covariance.
Theorem C08_symmetric : forall (K : Num), FieldLaws K -> forall h : list (car K * car K), h <> [] ->
  cs_cov K (cov_set_run K (zero K) (zero K) (map (fun p => (snd p, fst p)) h))
  = cs_cov K (cov_set_run K (zero K) (zero K) h).
Proof. exact cov_symmetric. Qed.
Print Assumptions C08_symmetric.
Theorem C08_variance_on_diagonal : forall (K : Num), FieldLaws K -> forall xs : list (car K), xs <> [] ->
  cs_cov K (cov_set_run K (zero K) (zero K) (map (fun x => (x, x)) xs)) = vs_var K (var_set_run K (zero K) xs).
Proof. exact cov_diagonal. Qed.
Print Assumptions C08_variance_on_diagonal.
Theorem C08_cauchy_schwarz : forall h : list (Qc * Qc), h <> [] ->
  (Covariance QcN h * Covariance QcN h <= Variance QcN (map fst h) * Variance QcN (map snd h))%Qc.
Proof. exact Qc_cov_CS. Qed.
Print Assumptions C08_cauchy_schwarz.
Example C08_ex : cs_cov QcN (cov_set_run QcN 0%Qc 0%Qc [ ([[1]],[[2]]); ([[2]],[[5]]); ([[6]],[[2]]) ]) = [[-1]].
Proof. qc_run. Qed.

(** ** C09 *)
Theorem C09_weighted : forall (K : Num), FieldLaws K ->
  forall (h : list (car K * car K)) (sqrt : car K -> car K) (N : nat),
  h <> [] -> (1 <= N)%nat -> PrefixWeightsNonzero K h ->
  wm_sum K (wmean_set_run K (zero K) (zero K) h) = total K (fun p => mul K (snd p) (fst p)) h
  /\ wm_W K (wmean_set_run K (zero K) (zero K) h) = TotalWeight K h
  /\ wmean_set_mean K (wmean_set_run K (zero K) (zero K) h) = WMean K h
  /\ wv_mean K (wvar_set_run K (zero K) (zero K) h) = WMean K h
  /\ wv_var K (wvar_set_run K (zero K) (zero K) h) = WVariance K h
  /\ lazy_weighted_variance_run K (zero K) h = Some (WVariance K h)
  /\ weighted_moment_run K N (zero K) h = Some (WMoment K N h)
  /\ weighted_skewness_run K sqrt (zero K) h
     = Some (div K (WCentralMoment K 3 h) (mul K (WVariance K h) (sqrt (WVariance K h))))
  /\ weighted_kurtosis_run K (zero K) h
     = Some (sub K (div K (WCentralMoment K 4 h) (mul K (WVariance K h) (WVariance K h))) (ofnat K 3)).
Proof. exact weighted_all. Qed.
Print Assumptions C09_weighted.
Theorem C09_weighted_covariance : forall (K : Num), FieldLaws K -> forall h : list (car K * car K * car K),
  h <> [] -> PrefixWeightsNonzero K h ->
  wc_cov K (wcov_set_run K (zero K) (zero K) (zero K) h) = WCovariance K h.
Proof. exact wcov_run_spec. Qed.
Print Assumptions C09_weighted_covariance.
(** positive weights satisfy the hypothesis *)
Theorem C09_positive_weights : forall (A : Type) (h : list (A * Qc)),
  Forall (fun p => (0 < snd p)%Qc) h -> PrefixWeightsNonzero QcN h.
Proof. exact @Qc_positive_weights. Qed.
Print Assumptions C09_positive_weights.
Theorem C09_nonnegative : forall h : list (Qc * Qc),
  Forall (fun p => (0 < snd p)%Qc) h -> (0 <= WVariance QcN h)%Qc.
Proof. exact Qc_WVariance_nonneg. Qed.
Print Assumptions C09_nonnegative.
Example C09_ex : PrefixWeightsNonzero QcN ex_weighted
  /\ wv_var QcN (wvar_set_run QcN 0%Qc 0%Qc ex_weighted) = [[488#81]].
Proof.
  split; [apply C09_positive_weights; repeat (apply Forall_cons; [reflexivity|]); apply Forall_nil | qc_run].
Qed.

(** ** C10 *)
Theorem C10_unit_weights : forall (K : Num), FieldLaws K ->
  forall (xs : list (car K)) (sqrt : car K -> car K) (N : nat), xs <> [] -> (1 <= N)%nat ->
  let h := unit_weights K xs in
  wmean_set_mean K (wmean_set_run K (zero K) (zero K) h) = mean_set_mean K (mean_set_run K (zero K) xs)
  /\ wv_mean K (wvar_set_run K (zero K) (zero K) h) = im_mean K (imean_set_run K (zero K) xs)
  /\ wv_var K (wvar_set_run K (zero K) (zero K) h) = vs_var K (var_set_run K (zero K) xs)
  /\ lazy_weighted_variance_run K (zero K) h = lazy_variance_run K (zero K) xs
  /\ weighted_moment_run K N (zero K) h = moment_run K N (zero K) xs
  /\ weighted_skewness_run K sqrt (zero K) h = skewness_run K sqrt (zero K) xs
  /\ weighted_kurtosis_run K (zero K) h = kurtosis_run K (zero K) xs.
Proof. exact unit_all. Qed.
Print Assumptions C10_unit_weights.
Theorem C10_unit_covariance : forall (K : Num), FieldLaws K -> forall l : list (car K * car K), l <> [] ->
  wc_cov K (wcov_set_run K (zero K) (zero K) (zero K) (unit_weights K l))
  = cs_cov K (cov_set_run K (zero K) (zero K) l).
Proof. exact unit_cov. Qed.
Print Assumptions C10_unit_covariance.
Theorem C10_scaled_weights : forall (K : Num), FieldLaws K ->
  forall (c : car K) (h : list (car K * car K)) (sqrt : car K -> car K) (N : nat),
  h <> [] -> (1 <= N)%nat -> c <> zero K -> PrefixWeightsNonzero K h ->
  let h' := scale_weights K c h in
  wmean_set_mean K (wmean_set_run K (zero K) (zero K) h') = wmean_set_mean K (wmean_set_run K (zero K) (zero K) h)
  /\ wv_mean K (wvar_set_run K (zero K) (zero K) h') = wv_mean K (wvar_set_run K (zero K) (zero K) h)
  /\ wv_var K (wvar_set_run K (zero K) (zero K) h') = wv_var K (wvar_set_run K (zero K) (zero K) h)
  /\ lazy_weighted_variance_run K (zero K) h' = lazy_weighted_variance_run K (zero K) h
  /\ weighted_moment_run K N (zero K) h' = weighted_moment_run K N (zero K) h
  /\ weighted_skewness_run K sqrt (zero K) h' = weighted_skewness_run K sqrt (zero K) h
  /\ weighted_kurtosis_run K (zero K) h' = weighted_kurtosis_run K (zero K) h.
Proof. exact scale_all. Qed.
Print Assumptions C10_scaled_weights.
Theorem C10_scaled_covariance : forall (K : Num), FieldLaws K ->
  forall (c : car K) (h : list (car K * car K * car K)), h <> [] -> c <> zero K -> PrefixWeightsNonzero K h ->
  wc_cov K (wcov_set_run K (zero K) (zero K) (zero K) (scale_weights K c h))
  = wc_cov K (wcov_set_run K (zero K) (zero K) (zero K) h).
Proof. exact scale_cov. Qed.
Print Assumptions C10_scaled_covariance.
Theorem C10_natural_weights : forall (K : Num), FieldLaws K ->
  forall (l : list (car K * nat)) (sqrt : car K -> car K) (N : nat),
  l <> [] -> (1 <= N)%nat -> Forall (fun p => 1 <= snd p)%nat l ->
  let h := nat_weights K l in let xs := replicated l in
  wmean_set_mean K (wmean_set_run K (zero K) (zero K) h) = mean_set_mean K (mean_set_run K (zero K) xs)
  /\ wv_mean K (wvar_set_run K (zero K) (zero K) h) = im_mean K (imean_set_run K (zero K) xs)
  /\ wv_var K (wvar_set_run K (zero K) (zero K) h) = vs_var K (var_set_run K (zero K) xs)
  /\ lazy_weighted_variance_run K (zero K) h = lazy_variance_run K (zero K) xs
  /\ weighted_moment_run K N (zero K) h = moment_run K N (zero K) xs
  /\ weighted_skewness_run K sqrt (zero K) h = skewness_run K sqrt (zero K) xs
  /\ weighted_kurtosis_run K (zero K) h = kurtosis_run K (zero K) xs.
Proof. exact natural_all. Qed.
Print Assumptions C10_natural_weights.
Theorem C10_natural_covariance : forall (K : Num), FieldLaws K -> forall l : list (car K * car K * nat),
  l <> [] -> Forall (fun p => 1 <= snd p)%nat l ->
  wc_cov K (wcov_set_run K (zero K) (zero K) (zero K) (nat_weights K l))
  = cs_cov K (cov_set_run K (zero K) (zero K) (replicated l)).
Proof. exact natural_cov. Qed.
Print Assumptions C10_natural_covariance.
Example C10_ex : replicated [ ([[1]], 2%nat); ([[5]], 1%nat) ] = [ [[1]]; [[1]]; [[5]] ]
  /\ Forall (fun p => 1 <= snd p)%nat [ ([[1]], 2%nat); ([[5]], 1%nat) ]
  /\ wv_var QcN (wvar_set_run QcN 0%Qc 0%Qc (nat_weights QcN [ ([[1]], 2%nat); ([[5]], 1%nat) ])) = [[32#9]].
Proof. split; [reflexivity|]. split; [repeat constructor | qc_run]. Qed.

(** ** C11 *)
Theorem C11_any_order : forall (K : Num), FieldLaws K ->
  forall (xs ys : list (car K)) (sqrt : car K -> car K) (N : nat), Permutation xs ys -> xs <> [] -> (1 <= N)%nat ->
  mean_set_mean K (mean_set_run K (zero K) xs) = mean_set_mean K (mean_set_run K (zero K) ys)
  /\ im_mean K (imean_set_run K (zero K) xs) = im_mean K (imean_set_run K (zero K) ys)
  /\ vs_var K (var_set_run K (zero K) xs) = vs_var K (var_set_run K (zero K) ys)
  /\ lazy_variance_run K (zero K) xs = lazy_variance_run K (zero K) ys
  /\ moment_run K N (zero K) xs = moment_run K N (zero K) ys
  /\ skewness_run K sqrt (zero K) xs = skewness_run K sqrt (zero K) ys
  /\ kurtosis_run K (zero K) xs = kurtosis_run K (zero K) ys.
Proof. exact perm_all. Qed.
Print Assumptions C11_any_order.
Theorem C11_covariance : forall (K : Num), FieldLaws K -> forall h1 h2 : list (car K * car K),
  Permutation h1 h2 -> h1 <> [] ->
  cs_cov K (cov_set_run K (zero K) (zero K) h1) = cs_cov K (cov_set_run K (zero K) (zero K) h2).
Proof. exact perm_cov. Qed.
Print Assumptions C11_covariance.
Theorem C11_weighted : forall (K : Num), FieldLaws K ->
  forall (h1 h2 : list (car K * car K)) (sqrt : car K -> car K) (N : nat),
  Permutation h1 h2 -> h1 <> [] -> (1 <= N)%nat ->
  PrefixWeightsNonzero K h1 -> PrefixWeightsNonzero K h2 ->
  wmean_set_mean K (wmean_set_run K (zero K) (zero K) h1) = wmean_set_mean K (wmean_set_run K (zero K) (zero K) h2)
  /\ wv_mean K (wvar_set_run K (zero K) (zero K) h1) = wv_mean K (wvar_set_run K (zero K) (zero K) h2)
  /\ wv_var K (wvar_set_run K (zero K) (zero K) h1) = wv_var K (wvar_set_run K (zero K) (zero K) h2)
  /\ lazy_weighted_variance_run K (zero K) h1 = lazy_weighted_variance_run K (zero K) h2
  /\ weighted_moment_run K N (zero K) h1 = weighted_moment_run K N (zero K) h2
  /\ weighted_skewness_run K sqrt (zero K) h1 = weighted_skewness_run K sqrt (zero K) h2
  /\ weighted_kurtosis_run K (zero K) h1 = weighted_kurtosis_run K (zero K) h2.
Proof. exact perm_weighted. Qed.
Print Assumptions C11_weighted.
Example C11_ex : Permutation ex_samples (rev ex_samples) /\ ex_samples <> []
  /\ vs_var QcN (var_set_run QcN 0%Qc (rev ex_samples)) = [[106#25]].
Proof. split; [apply Permutation_rev|]. split; [discriminate | qc_run]. Qed.

(** ** C12 *)
Theorem C12_error_of_mean : forall xs : list R, (2 <= length xs)%nat ->
  exists e, error_of_mean_run RN rsqrt xs = Some e /\ error_of_immediate_mean_run RN rsqrt xs = e
   /\ (0 <= e)%R /\ (e * e = SampleVariance RN xs / INR (length xs))%R.
Proof. exact R_error_of_mean. Qed.
Print Assumptions C12_error_of_mean.
Example C12_ex : SampleVariance RN [1; 2; 6]%R = 7%R.
Proof. unfold SampleVariance, Mean, average, total; cbn; field. Qed.

(** ** C48: a non-zero initial sample does bias variance, moments and lazy mean: the exact bias *)
Theorem C48_variance_bias : forall (K : Num), FieldLaws K -> forall (s0 : car K) (xs : list (car K)), xs <> [] ->
  vs_var K (var_set_run K s0 xs) = add K (Variance K xs) (div K s0 (ofnat K (length xs))).
Proof. exact var_run_general. Qed.
Print Assumptions C48_variance_bias.
Theorem C48_moment_bias : forall (K : Num), FieldLaws K -> forall (N : nat) (s0 : car K) (xs : list (car K)),
  (1 <= N)%nat -> xs <> [] ->
  moment_run K N s0 xs = Some (add K (Moment K N xs) (div K s0 (ofnat K (length xs)))).
Proof. exact moment_bias. Qed.
Print Assumptions C48_moment_bias.
Theorem C48_mean_bias : forall (K : Num), FieldLaws K -> forall (s0 : car K) (xs : list (car K)), xs <> [] ->
  mean_set_mean K (mean_set_run K s0 xs) = add K (Mean K xs) (div K s0 (ofnat K (length xs))).
Proof. exact mean_bias. Qed.
Print Assumptions C48_mean_bias.
Theorem C48_variance_refuted : exists (s0 : Qc) (xs : list Qc), xs <> [] /\
  vs_var QcN (var_set_run QcN s0 xs) <> Variance QcN xs /\
  moment_run QcN 2 s0 xs <> Some (Moment QcN 2 xs).
Proof.
  exists [[10]], [ [[5]]; [[5]] ]. split; [discriminate|].
  split; vm_compute; discriminate.
Qed.
Print Assumptions C48_variance_refuted.
