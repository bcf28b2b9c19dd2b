(** Consequences of the characterisations of ProofBasic.v. *)
From Coq Require Import List Arith NArith ZArith QArith Qcanon Field Reals Lia Lqa Lra Permutation.
From Verif Require Import Num NumFacts ModelBasic SpecStats ProofBasic.
Import ListNotations.

Section Field.
Variable K : Num.
Hypothesis HK : FieldLaws K.
Local Notation T := (car K).
Local Notation "0" := (zero K) : num_scope.
Local Notation "1" := (one K) : num_scope.
Local Notation "x + y" := (add K x y) : num_scope.
Local Notation "x - y" := (sub K x y) : num_scope.
Local Notation "x * y" := (mul K x y) : num_scope.
Local Notation "x / y" := (div K x y) : num_scope.
Local Notation "# n" := (ofnat K n) (at level 2) : num_scope.
Local Open Scope num_scope.
Add Field Kfield2 : (fl_field K HK).

(** ** Extraction after a history *)
Lemma moment_run_spec N xs : (1 <= N)%nat -> moment_run K N 0 xs = Some (Moment K N xs).
Proof.
  intros HN. unfold moment_run.
  assert (HF : Forall (fun N => 1 <= N)%nat [N]) by (constructor; auto).
  destruct (mom_set_run K [N] 0 xs) as [s|] eqn:E.
  - apply (mom_set_moment_spec K HK [N] xs s 0 N HF eq_refl E).
  - rewrite (mom_set_run_spec K HK _ _ _ HF) in E. discriminate.
Qed.

Ltac mom_forall := repeat constructor; lia.

Lemma lazy_variance_run_spec xs : xs <> [] -> lazy_variance_run K 0 xs = Some (Variance K xs).
Proof.
  intros Hne. unfold lazy_variance_run.
  assert (HF : Forall (fun N => 1 <= N)%nat [2%nat]) by mom_forall.
  destruct (mom_set_run K [2%nat] 0 xs) as [s|] eqn:E.
  - rewrite (mom_set_moment_spec K HK [2%nat] xs s 0 2 HF eq_refl E).
    rewrite (mom_set_mean_spec K HK _ _ _ HF E). unfold lazy_variance_result.
    rewrite (avg_sub_raw2 K HK xs Hne). reflexivity.
  - rewrite (mom_set_run_spec K HK _ _ _ HF) in E. discriminate.
Qed.

Lemma skewness_run_spec sqrt xs : xs <> [] ->
  skewness_run K sqrt 0 xs
  = Some (CentralMoment K 3 xs / (Variance K xs * sqrt (Variance K xs))).
Proof.
  intros Hne. unfold skewness_run.
  assert (HF : Forall (fun N => 1 <= N)%nat [2%nat;3%nat]) by mom_forall.
  destruct (mom_set_run K [2%nat;3%nat] 0 xs) as [s|] eqn:E.
  - rewrite (mom_set_moment_spec K HK _ xs s 0 2 HF eq_refl E).
    rewrite (mom_set_moment_spec K HK _ xs s 1 3 HF eq_refl E).
    rewrite (mom_set_mean_spec K HK _ _ _ HF E). unfold skewness_result.
    rewrite <- (avg_sub_raw2 K HK xs Hne). rewrite <- (central3_raw K HK xs Hne). reflexivity.
  - rewrite (mom_set_run_spec K HK _ _ _ HF) in E. discriminate.
Qed.

Lemma kurtosis_run_spec xs : xs <> [] ->
  kurtosis_run K 0 xs
  = Some (CentralMoment K 4 xs / (Variance K xs * Variance K xs) - #3).
Proof.
  intros Hne. unfold kurtosis_run.
  assert (HF : Forall (fun N => 1 <= N)%nat [2%nat;3%nat;4%nat]) by mom_forall.
  destruct (mom_set_run K [2%nat;3%nat;4%nat] 0 xs) as [s|] eqn:E.
  - rewrite (mom_set_moment_spec K HK _ xs s 0 2 HF eq_refl E).
    rewrite (mom_set_moment_spec K HK _ xs s 1 3 HF eq_refl E).
    rewrite (mom_set_moment_spec K HK _ xs s 2 4 HF eq_refl E).
    rewrite (mom_set_mean_spec K HK _ _ _ HF E). unfold kurtosis_result.
    rewrite <- (avg_sub_raw2 K HK xs Hne). rewrite <- (central4_raw K HK xs Hne). reflexivity.
  - rewrite (mom_set_run_spec K HK _ _ _ HF) in E. discriminate.
Qed.

Lemma error_of_mean_run_spec sqrt xs : xs <> [] ->
  error_of_mean_run K sqrt xs = Some (sqrt (Variance K xs / #(length xs - 1))).
Proof.
  intros Hne. unfold error_of_mean_run. rewrite lazy_variance_run_spec by exact Hne. reflexivity.
Qed.

Lemma error_of_immediate_mean_run_spec sqrt xs : xs <> [] ->
  error_of_immediate_mean_run K sqrt xs = sqrt (Variance K xs / #(length xs - 1)).
Proof.
  intros Hne. unfold error_of_immediate_mean_run. cbv zeta.
  rewrite (var_run_spec K HK _ Hne). destruct (var_run_counts K 0 xs) as [-> _]. reflexivity.
Qed.

Lemma variance_sample_variance xs : (2 <= length xs)%nat ->
  Variance K xs / #(length xs - 1) = SampleVariance K xs / #(length xs).
Proof.
  intros Hl. rewrite (Variance_SS K xs). unfold SampleVariance. fold (SS K xs).
  assert (Hn : #(length xs) <> 0).
  { destruct xs as [|x xs]; cbn [length] in *; [lia|]. apply (ofnat_S_neq0 K HK). }
  assert (Hn1 : #(length xs - 1) <> 0).
  { destruct (length xs) as [|[|n]]; try lia. replace (S (S n) - 1)%nat with (S n) by lia.
    apply (ofnat_S_neq0 K HK). }
  field. split; assumption.
Qed.

Lemma weighted_moment_run_spec N h : (1 <= N)%nat -> weighted_moment_run K N 0 h = Some (WMoment K N h).
Proof.
  intros HN. unfold weighted_moment_run.
  assert (HF : Forall (fun N => 1 <= N)%nat [N]) by (constructor; auto).
  destruct (wmom_set_run K [N] 0 0 h) as [s|] eqn:E.
  - apply (wmom_set_moment_spec K HK [N] h s 0 N HF eq_refl E).
  - rewrite (wmom_set_run_spec K HK _ _ _ HF) in E. discriminate.
Qed.

Lemma lazy_weighted_variance_run_spec h : TotalWeight K h <> 0 ->
  lazy_weighted_variance_run K 0 h = Some (WVariance K h).
Proof.
  intros HW. unfold lazy_weighted_variance_run.
  assert (HF : Forall (fun N => 1 <= N)%nat [2%nat]) by mom_forall.
  destruct (wmom_set_run K [2%nat] 0 0 h) as [s|] eqn:E.
  - rewrite (wmom_set_moment_spec K HK [2%nat] h s 0 2 HF eq_refl E).
    rewrite (wmom_set_mean_spec K HK _ _ _ HF E). unfold lazy_weighted_variance_result.
    rewrite (WVariance_raw K HK h HW). reflexivity.
  - rewrite (wmom_set_run_spec K HK _ _ _ HF) in E. discriminate.
Qed.

Lemma weighted_skewness_run_spec sqrt h : TotalWeight K h <> 0 ->
  weighted_skewness_run K sqrt 0 h
  = Some (WCentralMoment K 3 h / (WVariance K h * sqrt (WVariance K h))).
Proof.
  intros HW. unfold weighted_skewness_run.
  assert (HF : Forall (fun N => 1 <= N)%nat [2%nat;3%nat]) by mom_forall.
  destruct (wmom_set_run K [2%nat;3%nat] 0 0 h) as [s|] eqn:E.
  - rewrite (wmom_set_moment_spec K HK _ h s 0 2 HF eq_refl E).
    rewrite (wmom_set_moment_spec K HK _ h s 1 3 HF eq_refl E).
    rewrite (wmom_set_mean_spec K HK _ _ _ HF E). unfold skewness_result.
    rewrite <- (WVariance_raw K HK h HW). rewrite <- (wcentral3_raw K HK h HW). reflexivity.
  - rewrite (wmom_set_run_spec K HK _ _ _ HF) in E. discriminate.
Qed.

Lemma weighted_kurtosis_run_spec h : TotalWeight K h <> 0 ->
  weighted_kurtosis_run K 0 h
  = Some (WCentralMoment K 4 h / (WVariance K h * WVariance K h) - #3).
Proof.
  intros HW. unfold weighted_kurtosis_run.
  assert (HF : Forall (fun N => 1 <= N)%nat [2%nat;3%nat;4%nat]) by mom_forall.
  destruct (wmom_set_run K [2%nat;3%nat;4%nat] 0 0 h) as [s|] eqn:E.
  - rewrite (wmom_set_moment_spec K HK _ h s 0 2 HF eq_refl E).
    rewrite (wmom_set_moment_spec K HK _ h s 1 3 HF eq_refl E).
    rewrite (wmom_set_moment_spec K HK _ h s 2 4 HF eq_refl E).
    rewrite (wmom_set_mean_spec K HK _ _ _ HF E). unfold kurtosis_result.
    rewrite <- (WVariance_raw K HK h HW). rewrite <- (wcentral4_raw K HK h HW). reflexivity.
  - rewrite (wmom_set_run_spec K HK _ _ _ HF) in E. discriminate.
Qed.

(** ** Permutations *)
Lemma average_perm {A} (f g : A -> T) l1 l2 :
  Permutation l1 l2 -> (forall x, f x = g x) -> average K f l1 = average K g l2.
Proof.
  intros HP Hfg. unfold average. rewrite (Permutation_length HP).
  rewrite (total_perm K HK f _ _ HP). rewrite (total_ext K f g) by auto. reflexivity.
Qed.

Lemma waverage_perm {A} (f g : A -> T) l1 l2 :
  Permutation l1 l2 -> (forall x, f x = g x) -> waverage K f l1 = waverage K g l2.
Proof.
  intros HP Hfg. unfold waverage, TotalWeight.
  rewrite (total_perm K HK snd _ _ HP), (total_perm K HK (fun p => snd p * f (fst p)) _ _ HP).
  f_equal. apply total_ext. intros; rewrite Hfg; reflexivity.
Qed.

Lemma Mean_perm l1 l2 : Permutation l1 l2 -> Mean K l1 = Mean K l2.
Proof. intros; apply average_perm; auto. Qed.
Lemma Moment_perm N l1 l2 : Permutation l1 l2 -> Moment K N l1 = Moment K N l2.
Proof. intros; apply average_perm; auto. Qed.
Lemma CentralMoment_perm N l1 l2 : Permutation l1 l2 -> CentralMoment K N l1 = CentralMoment K N l2.
Proof. intros; apply average_perm; auto. intros; erewrite Mean_perm; eauto. Qed.
Lemma Variance_perm l1 l2 : Permutation l1 l2 -> Variance K l1 = Variance K l2.
Proof. apply CentralMoment_perm. Qed.
Lemma Covariance_perm l1 l2 : Permutation l1 l2 -> Covariance K l1 = Covariance K l2.
Proof.
  intros HP; apply average_perm; auto. intros.
  rewrite (Mean_perm _ _ (Permutation_map fst HP)), (Mean_perm _ _ (Permutation_map snd HP)). reflexivity.
Qed.
Lemma WMean_perm l1 l2 : Permutation l1 l2 -> WMean K l1 = WMean K l2.
Proof. intros; apply waverage_perm; auto. Qed.
Lemma WMoment_perm N l1 l2 : Permutation l1 l2 -> WMoment K N l1 = WMoment K N l2.
Proof. intros; apply waverage_perm; auto. Qed.
Lemma WCentralMoment_perm N l1 l2 : Permutation l1 l2 -> WCentralMoment K N l1 = WCentralMoment K N l2.
Proof. intros; apply waverage_perm; auto. intros; erewrite WMean_perm; eauto. Qed.
Lemma WVariance_perm l1 l2 : Permutation l1 l2 -> WVariance K l1 = WVariance K l2.
Proof. apply WCentralMoment_perm. Qed.
Lemma WCovariance_perm l1 l2 : Permutation l1 l2 -> WCovariance K l1 = WCovariance K l2.
Proof.
  intros HP; apply waverage_perm; auto. intros.
  rewrite (waverage_perm fst fst _ _ HP) by auto.
  rewrite (waverage_perm snd snd _ _ HP) by auto. reflexivity.
Qed.
Lemma TotalWeight_perm {A} (l1 l2 : list (A * T)) : Permutation l1 l2 -> TotalWeight K l1 = TotalWeight K l2.
Proof. intros HP. unfold TotalWeight. apply (total_perm K HK). exact HP. Qed.

(** ** Weights *)
Lemma total_repeat {A} (f : A -> T) x k : total K f (repeat x k) = #k * f x.
Proof.
  induction k as [|k IH]; cbn [repeat ofnat]; rewrite ?total_nil, ?total_cons; [ring|]. rewrite IH. ring.
Qed.

Lemma nat_weights_total {A} (f : A -> T) l :
  total K (fun p => snd p * f (fst p)) (nat_weights K l) = total K f (replicated l).
Proof.
  induction l as [|[x k] l IH]; [reflexivity|].
  unfold nat_weights, replicated in *. cbn [map flat_map fst snd].
  rewrite total_cons, (total_app K HK), total_repeat, IH. reflexivity.
Qed.

Lemma nat_weights_TW {A} (l : list (A * nat)) : TotalWeight K (nat_weights K l) = #(length (replicated l)).
Proof.
  unfold TotalWeight.
  rewrite (total_ext K snd (fun p => snd p * (fun _ => 1) (fst p))) by (intros; ring).
  rewrite (nat_weights_total (fun _ => 1)). rewrite (total_const K HK). ring.
Qed.

Lemma nat_weights_waverage {A} (f g : A -> T) l :
  (forall x, f x = g x) ->
  waverage K f (nat_weights K l) = average K g (replicated l).
Proof.
  intros Hfg. unfold waverage, average. rewrite nat_weights_total, nat_weights_TW.
  f_equal. apply total_ext; auto.
Qed.

Lemma nat_weights_WMean l : WMean K (nat_weights K l) = Mean K (replicated l).
Proof. apply nat_weights_waverage; reflexivity. Qed.
Lemma nat_weights_WMoment N l : WMoment K N (nat_weights K l) = Moment K N (replicated l).
Proof. apply nat_weights_waverage; reflexivity. Qed.
Lemma nat_weights_WCentralMoment N l : WCentralMoment K N (nat_weights K l) = CentralMoment K N (replicated l).
Proof. apply nat_weights_waverage. intros; rewrite nat_weights_WMean; reflexivity. Qed.

Lemma nat_weights_WCovariance l : WCovariance K (nat_weights K l) = Covariance K (replicated l).
Proof.
  apply nat_weights_waverage. intros x.
  rewrite (nat_weights_waverage fst fst), (nat_weights_waverage snd snd) by reflexivity.
  unfold Mean, average. rewrite !(total_map K), !map_length. reflexivity.
Qed.

Lemma unit_weights_nat {A} (l : list A) : unit_weights K l = nat_weights K (map (fun x => (x, 1%nat)) l).
Proof.
  unfold unit_weights, nat_weights. rewrite map_map. apply map_ext. intros x. cbn [fst snd].
  rewrite (ofnat_1 K HK). reflexivity.
Qed.
Lemma replicated_unit {A} (l : list A) : replicated (map (fun x => (x, 1%nat)) l) = l.
Proof.
  unfold replicated. induction l as [|x l IH]; cbn; [reflexivity|]. f_equal. exact IH.
Qed.

Lemma unit_WMean l : WMean K (unit_weights K l) = Mean K l.
Proof. rewrite unit_weights_nat, nat_weights_WMean, replicated_unit. reflexivity. Qed.
Lemma unit_WMoment N l : WMoment K N (unit_weights K l) = Moment K N l.
Proof. rewrite unit_weights_nat, nat_weights_WMoment, replicated_unit. reflexivity. Qed.
Lemma unit_WCentralMoment N l : WCentralMoment K N (unit_weights K l) = CentralMoment K N l.
Proof. rewrite unit_weights_nat, nat_weights_WCentralMoment, replicated_unit. reflexivity. Qed.
Lemma unit_WCovariance l : WCovariance K (unit_weights K l) = Covariance K l.
Proof. rewrite unit_weights_nat, nat_weights_WCovariance, replicated_unit. reflexivity. Qed.
Lemma unit_TW {A} (l : list A) : TotalWeight K (unit_weights K l) = #(length l).
Proof. rewrite unit_weights_nat, nat_weights_TW, replicated_unit. reflexivity. Qed.

Lemma unit_PWN {A} (l : list A) : PrefixWeightsNonzero K (unit_weights K l).
Proof.
  intros p q E Hp. unfold unit_weights in E.
  assert (Hp' : p = unit_weights K (firstn (length p) l)).
  { unfold unit_weights. rewrite <- firstn_map, E, firstn_app, firstn_all, Nat.sub_diag.
    cbn [firstn]. rewrite app_nil_r. reflexivity. }
  rewrite Hp', unit_TW. apply (length_neq0 K HK).
  intros C. rewrite C in Hp'. apply Hp. rewrite Hp'. reflexivity.
Qed.

Lemma scale_total {A} c (f : A -> T) l :
  total K (fun p => snd p * f (fst p)) (scale_weights K c l) = c * total K (fun p => snd p * f (fst p)) l.
Proof.
  unfold scale_weights. rewrite (total_map K). cbn [fst snd].
  rewrite <- (total_scale K HK). apply total_ext. intros; ring.
Qed.
Lemma scale_TW {A} c (l : list (A * T)) : TotalWeight K (scale_weights K c l) = c * TotalWeight K l.
Proof.
  unfold TotalWeight, scale_weights. rewrite (total_map K). cbn [snd]. apply (total_scale K HK).
Qed.
Lemma scale_waverage {A} c (f g : A -> T) l :
  c <> 0 -> TotalWeight K l <> 0 -> (forall x, f x = g x) ->
  waverage K f (scale_weights K c l) = waverage K g l.
Proof.
  intros Hc HW Hfg. unfold waverage. rewrite scale_total, scale_TW.
  rewrite (total_ext K (fun p => snd p * f (fst p)) (fun p => snd p * g (fst p)))
    by (intros; rewrite Hfg; reflexivity).
  field. split; assumption.
Qed.
Lemma mul_neq0 a b : a <> 0 -> b <> 0 -> a * b <> 0.
Proof.
  intros Ha Hb C. apply Hb. transitivity ((a * b) / a); [field; exact Ha|]. rewrite C. field. exact Ha.
Qed.
Lemma scale_WMean c l : c <> 0 -> TotalWeight K l <> 0 -> WMean K (scale_weights K c l) = WMean K l.
Proof. intros; apply scale_waverage; auto. Qed.
Lemma scale_WMoment N c l : c <> 0 -> TotalWeight K l <> 0 -> WMoment K N (scale_weights K c l) = WMoment K N l.
Proof. intros; apply scale_waverage; auto. Qed.
Lemma scale_WCentralMoment N c l : c <> 0 -> TotalWeight K l <> 0 ->
  WCentralMoment K N (scale_weights K c l) = WCentralMoment K N l.
Proof. intros; apply scale_waverage; auto. intros; rewrite scale_WMean; auto. Qed.
Lemma scale_WCovariance c l : c <> 0 -> TotalWeight K l <> 0 ->
  WCovariance K (scale_weights K c l) = WCovariance K l.
Proof.
  intros; apply scale_waverage; auto. intros.
  rewrite (scale_waverage c fst fst), (scale_waverage c snd snd); auto.
Qed.
Lemma scale_PWN {A} c (l : list (A * T)) : c <> 0 ->
  PrefixWeightsNonzero K l -> PrefixWeightsNonzero K (scale_weights K c l).
Proof.
  intros Hc HP p q E Hp. unfold scale_weights in E.
  assert (Hl : l = firstn (length p) l ++ skipn (length p) l) by (symmetry; apply firstn_skipn).
  assert (Hp' : p = scale_weights K c (firstn (length p) l)).
  { unfold scale_weights. rewrite <- firstn_map, E, firstn_app, firstn_all, Nat.sub_diag.
    cbn [firstn]. rewrite app_nil_r. reflexivity. }
  rewrite Hp', scale_TW. apply mul_neq0; [exact Hc|]. eapply HP; [exact Hl|].
  intros C. rewrite C in Hp'. apply Hp. rewrite Hp'. reflexivity.
Qed.

(** ** Affine maps *)
Lemma power_mul a b n : power K (a * b) n = power K a n * power K b n.
Proof. induction n as [|n IH]; cbn [power]; [ring | rewrite IH; ring]. Qed.

Lemma Mean_affine a b xs : xs <> [] -> Mean K (map (fun x => a * x + b) xs) = a * Mean K xs + b.
Proof.
  intros Hne. unfold Mean, average. rewrite (total_map K), map_length.
  rewrite (total_add K HK), (total_scale K HK), (total_const K HK).
  field. apply (length_neq0 K HK); exact Hne.
Qed.
Lemma CentralMoment_affine k a b xs : xs <> [] ->
  CentralMoment K k (map (fun x => a * x + b) xs) = power K a k * CentralMoment K k xs.
Proof.
  intros Hne. unfold CentralMoment. rewrite Mean_affine by exact Hne.
  unfold average. rewrite (total_map K), map_length.
  rewrite (total_ext K _ (fun x => power K a k * power K (x - Mean K xs) k)).
  - rewrite (total_scale K HK). field. apply (length_neq0 K HK); exact Hne.
  - intros x _. rewrite <- power_mul. f_equal. ring.
Qed.

(** ** Covariance *)
Lemma Covariance_swap (h : list (T * T)) :
  Covariance K (map (fun p => (snd p, fst p)) h) = Covariance K h.
Proof.
  unfold Covariance, average. rewrite (total_map K), !map_length, !map_map. cbn [fst snd].
  f_equal. apply total_ext. intros p _.
  change (fun x : T * T => snd x) with (@snd T T). change (fun x : T * T => fst x) with (@fst T T). ring.
Qed.
Lemma Covariance_diag (xs : list T) : Covariance K (map (fun x => (x, x)) xs) = Variance K xs.
Proof.
  unfold Covariance, Variance, CentralMoment, average.
  rewrite (total_map K), !map_length, !map_map. cbn [fst snd]. rewrite !map_id.
  f_equal. apply total_ext. intros p _. cbn [power]. ring.
Qed.
Lemma Covariance_affine a b (h : list (T * T)) : h <> [] ->
  Covariance K (map (fun p => (a * fst p + b, snd p)) h) = a * Covariance K h.
Proof.
  intros Hne. unfold Covariance, average. rewrite (total_map K), !map_length, !map_map. cbn [fst snd].
  change (fun x : T * T => snd x) with (@snd T T).
  rewrite <- (map_map fst (fun x => a * x + b)).
  rewrite Mean_affine by (destruct h; [congruence | discriminate]).
  rewrite (total_ext K _ (fun x => a * ((fst x - Mean K (map fst h)) * (snd x - Mean K (map snd h)))))
    by (intros; ring).
  rewrite (total_scale K HK). field. apply (length_neq0 K HK); exact Hne.
Qed.

(** Variance of two batches (used for window/merge arguments). *)
Lemma Mean_app xs ys : xs <> [] -> ys <> [] ->
  Mean K (xs ++ ys) = (#(length xs) * Mean K xs + #(length ys) * Mean K ys) / #(length xs + length ys).
Proof.
  intros Hx Hy. unfold Mean, average. rewrite (total_app K HK), app_length.
  assert (Hx' := length_neq0 K HK _ Hx). assert (Hy' := length_neq0 K HK _ Hy).
  assert (Hxy : #(length xs + length ys) <> 0).
  { destruct xs; [congruence|]. apply (ofnat_S_neq0 K HK). }
  field. repeat split; assumption.
Qed.
End Field.

(** ** Ordered fields: rationals and reals *)
Section Q.
Open Scope Qc_scope.

Lemma Qc_ofnat_nonneg n : 0 <= ofnat QcN n.
Proof. induction n as [|n IH]; cbn [ofnat QcN zero add one car] in *; qlra. Qed.
Lemma Qc_ofnat_pos n : (1 <= n)%nat -> 0 < ofnat QcN n.
Proof.
  destruct n as [|n]; [lia|]. intros _. assert (H := Qc_ofnat_nonneg n).
  cbn [ofnat QcN zero add one car] in *. qlra.
Qed.
Lemma Qc_total_nonneg {A} (f : A -> Qc) l : (forall x, In x l -> 0 <= f x) -> 0 <= total QcN f l.
Proof.
  induction l as [|x l IH]; intros H.
  - cbn. qlra.
  - rewrite total_cons. cbn [add QcN]. assert (0 <= f x) by (apply H; left; reflexivity).
    assert (0 <= total QcN f l) by (apply IH; intros; apply H; right; assumption).
    cbn [car QcN] in *. qlra.
Qed.
Lemma Qc_mul_nonneg (a b : Qc) : 0 <= a -> 0 <= b -> 0 <= a * b.
Proof. qnra. Qed.
Lemma Qc_sq_nonneg (x : Qc) : 0 <= x * x.
Proof. qnra. Qed.
Lemma Qc_div_nonneg (a b : Qc) : 0 <= a -> 0 <= b -> 0 <= a / b.
Proof.
  intros Ha Hb. destruct (Qc_eq_dec b 0) as [->|Hne].
  - unfold Qcdiv. replace (/ 0) with 0 by (apply Qc_is_canon; reflexivity). qlra.
  - assert (Hb' : 0 < b). { destruct (Qcle_lt_or_eq _ _ Hb) as [H|H]; [exact H | congruence]. }
    unfold Qcdiv. assert (H1 : b * / b = 1) by (apply Qcmult_inv_r; exact Hne).
    assert (Hi : 0 <= / b).
    { destruct (Qclt_le_dec (/ b) 0) as [C|C]; [|exact C]. exfalso.
      assert (b * / b < 0) by qnra. rewrite H1 in H. revert H. apply Qcle_not_lt. qlra. }
    generalize dependent (/ b). intros. qnra.
Qed.
Lemma Qc_Variance_nonneg xs : 0 <= Variance QcN xs.
Proof.
  unfold Variance, CentralMoment, average. cbn [div QcN]. apply Qc_div_nonneg.
  - apply Qc_total_nonneg. intros x _. cbn [power mul one QcN].
    generalize (sub QcN x (Mean QcN xs)). cbn [car QcN]. intros d. qnra.
  - apply Qc_ofnat_nonneg.
Qed.
Lemma Qc_positive_weights {A} (h : list (A * Qc)) :
  Forall (fun p => 0 < snd p) h -> PrefixWeightsNonzero QcN h.
Proof.
  intros HF p q -> Hp. apply Forall_app in HF as [HF _].
  destruct p as [|x p]; [congruence|]. inversion HF as [|x' p' Hx HF']; subst.
  unfold TotalWeight. rewrite total_cons. cbn [add QcN zero].
  assert (0 <= total QcN snd p).
  { apply Qc_total_nonneg. intros y Hy. rewrite Forall_forall in HF'. specialize (HF' y Hy). cbn beta in HF'. apply Qclt_le_weak. exact HF'. }
  intros C. assert (E : snd x + total QcN snd p = 0) by exact C. clear C. revert H E. generalize (total QcN snd p). cbn [car QcN]. intros t Ht E. cbv beta in Hx. qlra.
Qed.
Lemma Qc_WVariance_nonneg h : Forall (fun p => 0 < snd p) h -> 0 <= WVariance QcN h.
Proof.
  intros HF. rewrite Forall_forall in HF.
  unfold WVariance, WCentralMoment, waverage. cbn [div QcN]. apply Qc_div_nonneg.
  - apply Qc_total_nonneg. intros x Hx. specialize (HF x Hx). cbv beta in HF. cbn [power mul one QcN].
    generalize (sub QcN (fst x) (WMean QcN h)). cbn [car QcN]. intros d.
    apply Qc_mul_nonneg; [apply Qclt_le_weak; exact HF | qnra].
  - apply Qc_total_nonneg. intros x Hx. specialize (HF x Hx). apply Qclt_le_weak. exact HF.
Qed.
End Q.

Section Rsec.
Open Scope R_scope.
Lemma R_ofnat n : ofnat RN n = INR n.
Proof.
  induction n as [|n IH]; [reflexivity|]. rewrite S_INR, <- IH. reflexivity.
Qed.
Lemma R_total_nonneg {A} (f : A -> R) l : (forall x, In x l -> 0 <= f x) -> 0 <= total RN f l.
Proof.
  induction l as [|x l IH]; intros H.
  - cbn. Lra.lra.
  - rewrite total_cons. cbn [add RN]. assert (0 <= f x) by (apply H; left; reflexivity).
    assert (0 <= total RN f l) by (apply IH; intros; apply H; right; assumption).
    cbn [car RN] in *. Lra.lra.
Qed.
Lemma R_div_nonneg a b : 0 <= a -> 0 <= b -> 0 <= a / b.
Proof.
  intros Ha Hb. destruct Hb as [Hb | <-].
  - apply Rmult_le_pos; [exact Ha|]. left. apply Rinv_0_lt_compat. exact Hb.
  - unfold Rdiv. rewrite Rinv_0. Lra.lra.
Qed.
Lemma R_Variance_nonneg xs : 0 <= Variance RN xs.
Proof.
  unfold Variance, CentralMoment, average. cbn [div RN]. apply R_div_nonneg.
  - apply R_total_nonneg. intros x _. cbn [power mul one RN].
    generalize (sub RN x (Mean RN xs)). cbn [car RN]. intros d. Psatz.nra.
  - rewrite R_ofnat. apply pos_INR.
Qed.
Lemma R_positive_weights {A} (h : list (A * R)) :
  Forall (fun p => 0 < snd p) h -> PrefixWeightsNonzero RN h.
Proof.
  intros HF p q -> Hp. apply Forall_app in HF as [HF _].
  destruct p as [|x p]; [congruence|]. inversion HF as [|x' p' Hx HF']; subst.
  unfold TotalWeight. rewrite total_cons. cbn [add RN zero].
  assert (0 <= total RN snd p).
  { apply R_total_nonneg. intros y Hy. rewrite Forall_forall in HF'. specialize (HF' y Hy). left; exact HF'. }
  cbn [car RN] in *. Lra.lra.
Qed.

(** skewness and kurtosis *)
Definition rsqrt : car RN -> car RN := R_sqrt.sqrt.
Lemma skew_denominator v : 0 <= v -> v * sqrt v = sqrt v ^ 3.
Proof.
  intros Hv. cbn [pow]. rewrite Rmult_1_r. rewrite (sqrt_sqrt v Hv). ring.
Qed.
Lemma R_skewness_spec xs : xs <> [] ->
  skewness_run RN rsqrt 0 xs = Some (CentralMoment RN 3 xs / sqrt (Variance RN xs) ^ 3).
Proof.
  intros Hne. etransitivity; [exact (skewness_run_spec RN RN_field rsqrt xs Hne)|]. f_equal.
  cbn [div mul RN]. f_equal. apply skew_denominator. apply R_Variance_nonneg.
Qed.
Lemma R_kurtosis_spec xs : xs <> [] ->
  kurtosis_run RN 0 xs = Some (CentralMoment RN 4 xs / (Variance RN xs) ^ 2 - 3).
Proof.
  intros Hne. etransitivity; [exact (kurtosis_run_spec RN RN_field xs Hne)|]. f_equal.
  cbn [div mul RN sub ofnat add one zero]. f_equal; [f_equal; ring | Lra.lra].
Qed.
Lemma R_CM_affine k a b xs : xs <> [] ->
  CentralMoment RN k (map (fun x => a * x + b) xs) = a ^ k * CentralMoment RN k xs.
Proof.
  intros Hne. etransitivity; [exact (CentralMoment_affine RN RN_field k a b xs Hne)|].
  cbn [mul RN]. f_equal.
Qed.
Lemma sqrt_abs_scale a v : 0 <= v -> sqrt (a ^ 2 * v) = Rabs a * sqrt v.
Proof.
  intros Hv. rewrite sqrt_mult by (try assumption; apply pow2_ge_0).
  f_equal. rewrite <- Rsqr_pow2. apply sqrt_Rsqr_abs.
Qed.
Lemma R_skewness_affine a b xs : xs <> [] -> Variance RN xs <> 0 -> a <> 0 ->
  exists g, skewness_run RN rsqrt 0 xs = Some g
   /\ skewness_run RN rsqrt 0 (map (fun x => a * x + b) xs) = Some (if Rlt_dec 0 a then g else - g).
Proof.
  intros Hne Hv Ha. eexists. split; [apply R_skewness_spec; exact Hne|].
  rewrite R_skewness_spec by (destruct xs; [congruence|discriminate]).
  unfold Variance. rewrite !R_CM_affine by exact Hne. fold (Variance RN xs).
  assert (Hv0 := R_Variance_nonneg xs). rewrite sqrt_abs_scale by exact Hv0.
  assert (Hs : sqrt (Variance RN xs) <> 0).
  { intros C. apply Hv. apply sqrt_eq_0; assumption. }
  apply f_equal. destruct (Rlt_dec 0 a) as [Hp|Hn].
  - rewrite Rabs_pos_eq by Lra.lra. field. split; assumption.
  - rewrite Rabs_left by Lra.lra. field. split; assumption.
Qed.
Lemma R_kurtosis_affine a b xs : xs <> [] -> Variance RN xs <> 0 -> a <> 0 ->
  kurtosis_run RN 0 (map (fun x => a * x + b) xs) = kurtosis_run RN 0 xs.
Proof.
  intros Hne Hv Ha. rewrite (R_kurtosis_spec xs Hne).
  rewrite R_kurtosis_spec by (destruct xs; [congruence|discriminate]).
  unfold Variance. rewrite !R_CM_affine by exact Hne. fold (Variance RN xs).
  apply f_equal. cbn [pow]. field. repeat split; assumption.
Qed.

(** standard error *)
Lemma R_error_of_mean xs : (2 <= length xs)%nat ->
  exists e, error_of_mean_run RN rsqrt xs = Some e /\ error_of_immediate_mean_run RN rsqrt xs = e
   /\ 0 <= e /\ e * e = SampleVariance RN xs / INR (length xs).
Proof.
  intros Hl. assert (Hne : xs <> []) by (destruct xs; [cbn in Hl; lia | discriminate]).
  eexists. split; [apply (error_of_mean_run_spec RN RN_field); exact Hne|].
  split; [apply (error_of_immediate_mean_run_spec RN RN_field); exact Hne|].
  split; [apply sqrt_pos|]. unfold rsqrt. rewrite sqrt_sqrt.
  - rewrite (variance_sample_variance RN RN_field xs Hl), R_ofnat. reflexivity.
  - cbn [div RN]. apply R_div_nonneg; [apply R_Variance_nonneg|]. rewrite R_ofnat. apply pos_INR.
Qed.
End Rsec.
