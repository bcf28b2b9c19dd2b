(** Property theorems C71: inequalities between statistics. *)
From Coq Require Import List Arith QArith Qcanon.
From Verif Require Import Num NumFacts SpecStats SpecRolling SpecDensity SpecPSquare ModelBasic ModelRolling ProofBounds.
Import ListNotations.
Local Open Scope nat_scope.

(** ** C71.  In exact arithmetic (an ordered field), [lo] the least and [hi] the greatest sample: the mean
    lies between them; the variance is at least 0, at most (hi - mean)(mean - lo), and 0 exactly when all
    samples are equal (to the mean); the lazy variance is that same number. *)
Theorem C71_mean_variance : forall K : Num, OrderedLaws K -> forall (s0 : car K) (xs : list (car K)) (lo hi : car K),
  IsMin K xs lo -> IsMax K xs hi ->
  let m := mean_set_mean K (mean_set_run K (zero K) xs) in
  let v := vs_var K (var_set_run K (zero K) xs) in
  Between K lo m hi /\ im_mean K (imean_set_run K s0 xs) = m
  /\ ltb K v (zero K) = false /\ ltb K (mul K (sub K hi m) (sub K m lo)) v = false
  /\ (v = zero K <-> forall x, In x xs -> x = m)
  /\ lazy_variance_run K (zero K) xs = Some v.
Proof. exact bounds_unweighted. Qed.
Print Assumptions C71_mean_variance.
Example C71_mean_variance_ex : IsMin QcN shape_sample (Q2Qc 1) /\ IsMax QcN shape_sample (Q2Qc 7)
  /\ this (mean_set_mean QcN (mean_set_run QcN (zero QcN) shape_sample)) = 3%Q
  /\ this (vs_var QcN (var_set_run QcN (zero QcN) shape_sample)) = (11 # 2)%Q.
Proof.
  split; [|split; [|split; apply shape_sample_values]].
  - split; [now left|]. intros x [<-|[<-|[<-|[<-|[]]]]]; vm_compute; reflexivity.
  - split; [right; right; right; now left|]. intros x [<-|[<-|[<-|[<-|[]]]]]; vm_compute; reflexivity.
Qed.

(** The square of the covariance is at most the product of the variances: a correlation computed from
    the set is between -1 and 1. *)
Theorem C71_covariance : forall K : Num, OrderedLaws K -> forall h : list (car K * car K), h <> [] ->
  let c := cs_cov K (cov_set_run K (zero K) (zero K) h) in
  ltb K (mul K (vs_var K (var_set_run K (zero K) (map fst h))) (vs_var K (var_set_run K (zero K) (map snd h)))) (mul K c c) = false.
Proof. exact bounds_covariance. Qed.
Print Assumptions C71_covariance.
Example C71_covariance_ex :
  let h := combine shape_sample (rev shape_sample) in
  this (cs_cov QcN (cov_set_run QcN (zero QcN) (zero QcN) h)) = (-7 # 2)%Q.
Proof. vm_compute. reflexivity. Qed.

(** With a variance other than 0 the kurtosis is at least skewness squared less 2 (so at least -2). *)
Theorem C71_shape : forall K : Num, OrderedLaws K -> forall (sqrt : car K -> car K) (xs : list (car K)),
  (forall v, ltb K (zero K) v = true -> mul K (sqrt v) (sqrt v) = v) -> xs <> [] ->
  vs_var K (var_set_run K (zero K) xs) <> zero K ->
  exists g k, skewness_run K sqrt (zero K) xs = Some g /\ kurtosis_run K (zero K) xs = Some k
    /\ ltb K k (sub K (mul K g g) (ofnat K 2)) = false.
Proof. exact bounds_shape. Qed.
Print Assumptions C71_shape.
Example C71_shape_ex : option_map this (kurtosis_run QcN (zero QcN) shape_sample) = Some (-89 # 121)%Q.
Proof. apply shape_sample_values. Qed.

(** The same of weighted samples, with weights that are not negative; *)
Theorem C71_weighted : forall K : Num, OrderedLaws K -> forall (sqrt : car K -> car K) (h : list (car K * car K)) (lo hi : car K),
  h <> [] -> Forall (fun p => ltb K (snd p) (zero K) = false) h -> PrefixWeightsNonzero K h ->
  IsMin K (map fst h) lo -> IsMax K (map fst h) hi ->
  let m := wmean_set_mean K (wmean_set_run K (zero K) (zero K) h) in
  let v := wv_var K (wvar_set_run K (zero K) (zero K) h) in
  Between K lo m hi /\ wv_mean K (wvar_set_run K (zero K) (zero K) h) = m
  /\ ltb K v (zero K) = false /\ ltb K (mul K (sub K hi m) (sub K m lo)) v = false
  /\ (v = zero K <-> forall p, In p h -> ltb K (zero K) (snd p) = true -> fst p = m)
  /\ lazy_weighted_variance_run K (zero K) h = Some v
  /\ ((forall a, ltb K (zero K) a = true -> mul K (sqrt a) (sqrt a) = a) -> v <> zero K ->
      exists g k, weighted_skewness_run K sqrt (zero K) h = Some g /\ weighted_kurtosis_run K (zero K) h = Some k
        /\ ltb K k (sub K (mul K g g) (ofnat K 2)) = false).
Proof. exact bounds_weighted. Qed.
Print Assumptions C71_weighted.
Example C71_weighted_ex : let h := [(Q2Qc 1, Q2Qc 3); (Q2Qc 9, Q2Qc 0); (Q2Qc 5, Q2Qc 1)] in
  Forall (fun p => ltb QcN (snd p) (zero QcN) = false) h
  /\ this (wmean_set_mean QcN (wmean_set_run QcN (zero QcN) (zero QcN) h)) = 2%Q
  /\ this (wv_var QcN (wvar_set_run QcN (zero QcN) (zero QcN) h)) = 3%Q.
Proof. repeat split; [repeat constructor|..]; vm_compute; reflexivity. Qed.
Theorem C71_weighted_covariance : forall K : Num, OrderedLaws K -> forall h : list (car K * car K * car K),
  h <> [] -> Forall (fun p => ltb K (snd p) (zero K) = false) h -> PrefixWeightsNonzero K h ->
  let c := wc_cov K (wcov_set_run K (zero K) (zero K) (zero K) h) in
  let hs := map (fun p => (fst (fst p), snd p)) h in
  let hv := map (fun p => (snd (fst p), snd p)) h in
  ltb K (mul K (wv_var K (wvar_set_run K (zero K) (zero K) hs)) (wv_var K (wvar_set_run K (zero K) (zero K) hv))) (mul K c c) = false.
Proof. exact bounds_weighted_covariance. Qed.
Print Assumptions C71_weighted_covariance.
(** with a negative weight the mean may lie outside the samples and the variance be negative. *)
Theorem C71_negative_weight_refuted : PrefixWeightsNonzero QcN negative_weights
  /\ map (fun p => this (fst p)) negative_weights = [0%Q; 1%Q]
  /\ this (wmean_set_mean QcN (wmean_set_run QcN (zero QcN) (zero QcN) negative_weights)) = (-1 # 2)%Q
  /\ this (wv_var QcN (wvar_set_run QcN (zero QcN) (zero QcN) negative_weights)) = (-3 # 4)%Q.
Proof. exact (conj negative_weights_nonzero (conj eq_refl negative_weights_values)). Qed.
Print Assumptions C71_negative_weight_refuted.

(** Rolling window: both means between the least and the greatest sample still in the window, both
    variances at least 0. *)
Theorem C71_rolling : forall K : Num, OrderedLaws K -> forall (N M : nat) (xs : list (car K)) (s : roll K) (lo hi : car K),
  1 <= M -> 1 <= N -> roll_run K N M (zero K) xs = Some s -> IsMin K (LastN N xs) lo -> IsMax K (LastN N xs) hi ->
  Between K lo (ro_mean K s) hi /\ Between K lo (ro_lazy_mean K N s) hi
  /\ ltb K (ro_variance K N s) (zero K) = false /\ ltb K (ro_lazy_variance K N s) (zero K) = false.
Proof. exact bounds_rolling. Qed.
Print Assumptions C71_rolling.
Example C71_rolling_ex : LastN 2 shape_sample = [Q2Qc 2; Q2Qc 7]
  /\ option_map (fun s => this (ro_variance QcN 2 s)) (roll_run QcN 2 1 (zero QcN) shape_sample) = Some (25 # 2)%Q.
Proof. split; vm_compute; reflexivity. Qed.
