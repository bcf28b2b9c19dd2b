(** Change of unit: the statements as they are used in PropsAffine. *)
From Coq Require Import List Arith Bool Lia Field Permutation Sorted QArith Qcanon.
From Verif Require Import Num NumFacts ModelBasic ModelTail ModelPot ModelDensity ModelPSquare SpecStats SpecTail SpecPot SpecPSquare SpecAffine
  ProofBasic ProofBasic2 ProofOrder ProofTail ProofTailStats ProofTailTop ProofPSquareInst ProofPSquareMore ProofPSquareEx ProofAffine ProofAffine2 ProofAffine3.
Import ListNotations.

Section Top.
Variable K : Num.
Hypothesis HO : OrderedLaws K.
Let HK : FieldLaws K := ord_field K HO.
Local Notation T := (car K).
Local Notation "0" := (zero K) : num_scope.
Local Notation "1" := (one K) : num_scope.
Local Notation "x + y" := (add K x y) : num_scope.
Local Notation "x - y" := (sub K x y) : num_scope.
Local Notation "x * y" := (mul K x y) : num_scope.
Local Notation "x / y" := (div K x y) : num_scope.
Local Notation "- x" := (opp K x) : num_scope.
Local Notation "# n" := (ofnat K n) (at level 2) : num_scope.
Local Open Scope num_scope.
Add Field KfieldAff4 : (fl_field K HK).

(** *** Orientation *)
Section Orient.
Variables a b : T.
Hypothesis Ha : a <> 0.
Local Notation f := (Affine K a b).
Local Notation f' := (aff K a b).
Variable lr : side.
Local Notation lr' := (ImageSide K a lr).

Lemma neg_of : ltb K 0 a = false -> ltb K 0 (- a) = true.
Proof.
  intros H. destruct (ltb K a 0) eqn:E.
  - change (klt K a 0) in E. apply (ksub_pos K HO) in E. unfold klt in E. replace (- a) with (0 - a) by ring. exact E.
  - exfalso. apply Ha. apply (ord_total K HO); assumption.
Qed.
Lemma aff_neg x y : ltb K 0 a = false -> ltb K (f' x) (f' y) = ltb K y x.
Proof.
  intros H. pose proof (neg_of H) as N.
  assert (E : forall u v, ltb K (aff K (- a) (- b) u) (aff K (- a) (- b) v) = ltb K u v) by (intros; apply (aff_ltb K HO); exact N).
  rewrite <- (E y x). assert (L : forall u v, ltb K u v = ltb K (- v) (- u)).
  { assert (L1 : forall u v, ltb K u v = true -> ltb K (- v) (- u) = true).
    { intros u v L. change (klt K u v) in L. apply (ksub_pos K HO) in L. change (klt K (- v) (- u)). apply (ksub_pos K HO).
      replace (- u - - v) with (v - u) by ring. exact L. }
    intros u v. destruct (ltb K u v) eqn:Euv; [symmetry; apply L1; exact Euv|]. destruct (ltb K (- v) (- u)) eqn:E2; [|reflexivity].
    apply L1 in E2. replace (- - u) with u in E2 by ring. replace (- - v) with v in E2 by ring. congruence. }
  rewrite (L (f' x)). f_equal; unfold aff; ring.
Qed.
Lemma pred_image x y : tail_pred K lr' (f' x) (f' y) = tail_pred K lr x y.
Proof.
  unfold ImageSide. destruct (ltb K 0 a) eqn:E.
  - destruct lr; cbn [tail_pred]; apply (aff_ltb K HO); exact E.
  - destruct lr; cbn [tail_pred]; apply aff_neg; exact E.
Qed.
Lemma level_image p : tail_level K lr' (ImageLevel K a p) = tail_level K lr p.
Proof. unfold ImageSide, ImageLevel. destruct (ltb K 0 a); [reflexivity|]. destruct lr; cbn [tail_level]; ring. Qed.
Lemma abs_pos : ltb K 0 (Absolute K a) = true.
Proof. unfold Absolute. destruct (ltb K 0 a) eqn:E; [exact E|]. apply neg_of. exact E. Qed.
Lemma sgn_image x : sgn K lr' (f' x) = Absolute K a * sgn K lr x + Mirror K lr' b.
Proof. unfold ImageSide, Absolute. destruct (ltb K 0 a); destruct lr; cbn [sgn Mirror]; unfold aff; ring. Qed.
Lemma abs_sq : Absolute K a * Absolute K a = a * a.
Proof. unfold Absolute. destruct (ltb K 0 a); ring. Qed.

Lemma in_unit_obnd {A} (g : A -> A) (o : outcome A) : in_unit g o = obnd o (fun x => Ok (g x)).
Proof. destruct o; reflexivity. Qed.
Lemma tail_unit (ceil : T -> nat) (H : HeapOps) (HC : HeapContract H) (V : Type) (k nv : nat) (dA dA' : T) (dV : V) (ops : list (tail_op T V)) :
  (0 < k)%nat -> WellFormed nv ops ->
  exists s s' t, tail_run H (tail_pred K lr) (tail_init k nv dA dV) ops = Ok s /\
    tail_run H (tail_pred K lr') (tail_init k nv dA' dV) (map (in_unit_t K f) ops) = Ok s' /\
    tail_result H (tail_pred K lr) s = Ok t /\ tail_result H (tail_pred K lr') s' = Ok (map f t) /\
    (NoDup (map fst (pushes ops)) -> forall j, (j < nv)%nat ->
      exists vals, tail_variate_result H (tail_pred K lr) s j = Ok vals /\ tail_variate_result H (tail_pred K lr') s' j = Ok vals) /\
    forall cnt p, let p' := ImageLevel K a p in
      tail_quantile_result K ceil lr' cnt (map f t) p' = in_unit f (tail_quantile_result K ceil lr cnt t p) /\
      non_coherent_tail_mean_result K ceil lr' cnt (map f t) p' = in_unit f (non_coherent_tail_mean_result K ceil lr cnt t p).
Proof.
  intros Hk HW.
  destruct (tail_affine K HO a b lr lr' pred_image H HC V k nv dA dA' dV ops Hk HW) as (s & s' & t & E1 & E2 & E3 & E4 & E5).
  exists s, s', t. split; [exact E1|]. split; [exact E2|]. split; [exact E3|]. split; [exact E4|]. split; [exact E5|].
  intros cnt p p'. rewrite !in_unit_obnd. split.
  - apply (tail_quantile_aff K a b lr lr' ceil p p' (level_image p)).
  - apply (nctm_aff K HO a b lr lr' ceil p p' (level_image p)).
Qed.
Lemma weighted_tail_unit (wtot p : T) (tl ws : list T) : let p' := ImageLevel K a p in
  weighted_tail_quantile_result K lr' wtot (map f tl) ws p' = in_unit f (weighted_tail_quantile_result K lr wtot tl ws p) /\
  (ltb K 0 (wtot * TailShare K lr p) = true -> length ws = length tl ->
   non_coherent_weighted_tail_mean_result K lr' wtot (map f tl) ws p' = in_unit f (non_coherent_weighted_tail_mean_result K lr wtot tl ws p)).
Proof.
  intros p'. rewrite !in_unit_obnd. split.
  - apply (weighted_tail_quantile_aff K a b lr lr' p p' (level_image p)).
  - intros Hw HL. apply (weighted_nctm_aff K HO a b lr lr' p p' (level_image p)); [exact Hw|rewrite HL; apply le_n].
Qed.
Lemma pot_unit (pw : T -> T -> T) (thr : T) (xs : list T) :
  let other_fit := fun t : T * T * T => let '(u, be, xi) := t in (Absolute K a * u + Mirror K lr' b, Absolute K a * be, xi) in
  pot_out K pw lr' 0 (f thr) (map (fun x => PPush K (f x) 1) xs ++ [PExtract K])
  = map (in_unit other_fit) (pot_out K pw lr 0 thr (map (fun x => PPush K x 1) xs ++ [PExtract K])) /\
  forall fit p, pot_quantile_result K pw lr' (other_fit fit) (ImageLevel K a p) = f (pot_quantile_result K pw lr fit p).
Proof.
  intros g. pose proof abs_pos as AP.
  split.
  - pose proof (pot_affine K HO a b lr lr' pred_image 0 _ (level_image 0) pw (Absolute K a) (Mirror K lr' b) (kpos_neq0 K HO _ AP) abs_sq sgn_image) as P.
    etransitivity; [apply P|].
    + intros x y. apply (aff_ltb K HO (Absolute K a) (Mirror K lr' b)). exact AP.
    + apply map_ext. intros o. rewrite in_unit_obnd. reflexivity.
  - intros fit p. apply (pot_quantile_aff K HO a b lr lr' p pw (Absolute K a) (Mirror K lr' b) sgn_image fit (ImageLevel K a p) (level_image p)).
Qed.
End Orient.

(** *** Coherent tail means: only a change of scale *)
Lemma coherent_scale (a : T) (lr : side) (ceil : T -> nat) (cnt : nat) (tl : list T) (p : T) :
  coherent_tail_mean_result K ceil lr cnt (map (Affine K a 0) tl) p = in_unit (Affine K a 0) (coherent_tail_mean_result K ceil lr cnt tl p).
Proof.
  unfold coherent_tail_mean_result. change (Affine K a 0) with (aff K a 0).
  rewrite (tail_quantile_aff K a 0 lr lr ceil p p eq_refl), (nctm_aff K HO a 0 lr lr ceil p p eq_refl).
  destruct (non_coherent_tail_mean_result K ceil lr cnt tl p) as [m| |], (tail_quantile_result K ceil lr cnt tl p) as [q| |]; cbn [obnd coherent_tail_mean_of in_unit]; try reflexivity.
  f_equal. unfold aff. rewrite !(div_def K HO). destruct lr; ring.
Qed.

(** *** Moments *)
Lemma WMean_affine a b (h : list (T * T)) : TotalWeight K h <> 0 ->
  WMean K (map (fun e => (Affine K a b (fst e), snd e)) h) = Affine K a b (WMean K h).
Proof.
  intros N. unfold WMean, waverage, TotalWeight, Affine. rewrite !(total_map K). cbn [fst snd].
  rewrite (total_ext K _ (fun e => a * (snd e * fst e) + b * snd e)) by (intros; ring).
  rewrite (total_add K HK), !(total_scale K HK).
  change (total K (fun x : T * T => snd x) h) with (TotalWeight K h). change (total K snd h) with (TotalWeight K h). field. exact N.
Qed.
Lemma WVariance_affine a b (h : list (T * T)) : TotalWeight K h <> 0 ->
  WVariance K (map (fun e => (Affine K a b (fst e), snd e)) h) = a * a * WVariance K h.
Proof.
  intros N. unfold WVariance, WCentralMoment. rewrite (WMean_affine a b h N). set (m := WMean K h).
  unfold waverage, TotalWeight, Affine. rewrite !(total_map K). cbn [fst snd power].
  rewrite (total_ext K _ (fun e => a * a * (snd e * ((fst e - m) * ((fst e - m) * 1))))) by (intros; ring).
  rewrite (total_scale K HK).
  change (total K (fun x : T * T => snd x) h) with (TotalWeight K h). change (total K snd h) with (TotalWeight K h). field. exact N.
Qed.
Lemma prefix_map {A B} (g : A -> B) (h : list (A * T)) : PrefixWeightsNonzero K h -> PrefixWeightsNonzero K (map (fun e => (g (fst e), snd e)) h).
Proof.
  intros H p q E Hp. apply map_eq_app in E. destruct E as (p0 & q0 & -> & <- & _).
  unfold TotalWeight. rewrite (total_map K). cbn [snd]. apply (H p0 q0 eq_refl). intros ->. apply Hp. reflexivity.
Qed.
Lemma moments_unit (a b : T) (xs : list T) : xs <> [] -> let ys := map (Affine K a b) xs in
  mean_set_mean K (mean_set_run K 0 ys) = Affine K a b (mean_set_mean K (mean_set_run K 0 xs)) /\
  im_mean K (imean_set_run K 0 ys) = Affine K a b (im_mean K (imean_set_run K 0 xs)) /\
  vs_var K (var_set_run K 0 ys) = a * a * vs_var K (var_set_run K 0 xs) /\
  exists v, lazy_variance_run K 0 xs = Some v /\ lazy_variance_run K 0 ys = Some (a * a * v).
Proof.
  intros Hne ys. assert (Hy : ys <> []) by (unfold ys; destruct xs; [congruence|discriminate]).
  assert (M : Mean K ys = Affine K a b (Mean K xs)) by (apply (Mean_affine K HK); exact Hne).
  assert (V : Variance K ys = a * a * Variance K xs).
  { unfold Variance. etransitivity; [apply (CentralMoment_affine K HK 2 a b); exact Hne|]. cbn [power]. ring. }
  split; [rewrite !(mean_set_spec K HK); exact M|].
  split; [rewrite !(imean_run_spec K HK) by assumption; exact M|].
  split; [rewrite !(var_run_spec K HK) by assumption; exact V|].
  exists (Variance K xs). rewrite !(lazy_variance_run_spec K HK) by assumption. rewrite V. auto.
Qed.
Lemma weighted_moments_unit (a b : T) (h : list (T * T)) : h <> [] -> PrefixWeightsNonzero K h ->
  let h' := map (fun e => (Affine K a b (fst e), snd e)) h in
  wmean_set_mean K (wmean_set_run K 0 0 h') = Affine K a b (wmean_set_mean K (wmean_set_run K 0 0 h)) /\
  wv_mean K (wvar_set_run K 0 0 h') = Affine K a b (wv_mean K (wvar_set_run K 0 0 h)) /\
  wv_var K (wvar_set_run K 0 0 h') = a * a * wv_var K (wvar_set_run K 0 0 h).
Proof.
  intros Hne HP h'. assert (Hy : h' <> []) by (unfold h'; destruct h; [congruence|discriminate]).
  assert (N : TotalWeight K h <> 0) by (apply (HP h []); [rewrite app_nil_r; reflexivity|exact Hne]).
  assert (HP' : PrefixWeightsNonzero K h') by (apply prefix_map; exact HP).
  rewrite !(wmean_set_spec K HK), !(wvar_run_mean_spec K HK), !(wvar_run_spec K HK) by assumption.
  split; [apply WMean_affine; exact N|]. split; [apply WMean_affine; exact N|apply WVariance_affine; exact N].
Qed.
Lemma covariance_unit (a b c d : T) (h : list (T * T)) : h <> [] ->
  cs_cov K (cov_set_run K 0 0 (map (fun e => (Affine K a b (fst e), Affine K c d (snd e))) h)) = a * c * cs_cov K (cov_set_run K 0 0 h).
Proof.
  intros Hne.
  assert (N1 : forall A B (g : A -> B) l, l <> [] -> map g l <> []) by (intros A B g [|]; [congruence|discriminate]).
  rewrite !(cov_run_spec K HK) by auto.
  replace (map (fun e => (Affine K a b (fst e), Affine K c d (snd e))) h)
    with (map (fun p => (a * fst p + b, snd p)) (map (fun p : T * T => (snd p, fst p)) (map (fun p => (c * fst p + d, snd p)) (map (fun p : T * T => (snd p, fst p)) h))))
    by (rewrite !map_map; reflexivity).
  rewrite (Covariance_affine K HK) by auto. rewrite (Covariance_swap K HK). rewrite (Covariance_affine K HK) by auto. rewrite (Covariance_swap K HK). ring.
Qed.
End Top.

(** *** Counterexamples *)
Lemma coherent_shift_refuted : exists (p : Qc) (tl : list Qc) (r r' : Qc), Inside01 QcN p /\
  coherent_tail_mean_result QcN Qc_ceil Right (length tl) tl p = Ok r /\
  coherent_tail_mean_result QcN Qc_ceil Right (length tl) (map (Affine QcN (one QcN) (one QcN)) tl) p = Ok r' /\
  r' <> Affine QcN (one QcN) (one QcN) r.
Proof.
  exists (Q2Qc (3#5)), (repeat (Q2Qc 0) 4), (Q2Qc 0), (Q2Qc (19#20)).
  split; [split; reflexivity|]. split; [vm_compute; f_equal; apply Qc_is_canon; reflexivity|]. split; [vm_compute; f_equal; apply Qc_is_canon; reflexivity|].
  intros E. apply (f_equal this) in E. vm_compute in E. discriminate.
Qed.
Lemma p_square_mirror_refuted : exists (xs : list Qc) s s' r r',
  Permutation (map (fun x => Qcminus (Q2Qc 6) x) xs) xs /\
  pq_run QcN (half QcN) xs = Ok s /\ pq_result QcN s = Ok r /\
  pq_run QcN (half QcN) (map (fun x => Qcminus (Q2Qc 6) x) xs) = Ok s' /\ pq_result QcN s' = Ok r' /\
  r' <> Qcminus (Q2Qc 6) r /\ r <> Q2Qc 3.
Proof.
  set (xs := map (fun n => Q2Qc (inject_Z n)) [1; 2; 3; 4; 5; 3; 3; 3; 3; 3]%Z).
  destruct (pq_main QcN QcN_ordered (half QcN) xs) as (s & r & lo & hi & E & _ & _ & _ & Er & _); [cbn; lia|].
  destruct (pq_main QcN QcN_ordered (half QcN) (map (fun x => Qcminus (Q2Qc 6) x) xs)) as (s' & r' & lo' & hi' & E' & _ & _ & _ & Er' & _); [cbn; lia|].
  exists xs, s, s', r, r'. split; [|split; [exact E|split; [exact Er|split; [exact E'|split; [exact Er'|]]]]].
  - transitivity (map (fun n => Q2Qc (inject_Z n)) ([5; 4; 3; 2; 1] ++ [3; 3; 3; 3; 3])%Z).
    + assert (EQ : map (fun x => Qcminus (Q2Qc 6) x) xs = map (fun n => Q2Qc (inject_Z n)) ([5; 4; 3; 2; 1] ++ [3; 3; 3; 3; 3])%Z).
      { unfold xs. cbn [map app]. repeat (apply f_equal2; [apply Qc_is_canon; reflexivity|]). reflexivity. }
      rewrite EQ. apply Permutation_refl.
    + apply Permutation_map. change [1; 2; 3; 4; 5; 3; 3; 3; 3; 3]%Z with (rev [5; 4; 3; 2; 1] ++ [3; 3; 3; 3; 3])%Z.
      apply Permutation_app; [apply Permutation_rev|apply Permutation_refl].
  - assert (V : match pq_run QcN (half QcN) xs with Ok s => match pq_result QcN s with Ok r => Qeq_bool (this r) (171#50) | _ => false end | _ => false end = true) by (vm_compute; reflexivity).
    rewrite E, Er in V. apply Qeq_bool_iff in V.
    assert (V' : match pq_run QcN (half QcN) (map (fun x => Qcminus (Q2Qc 6) x) xs) with Ok s => match pq_result QcN s with Ok r => Qeq_bool (this r) (171#50) | _ => false end | _ => false end = true) by (vm_compute; reflexivity).
    rewrite E', Er' in V'. apply Qeq_bool_iff in V'.
    assert (R : r = Q2Qc (171#50)) by (apply Qc_is_canon; rewrite V; reflexivity).
    assert (R' : r' = Q2Qc (171#50)) by (apply Qc_is_canon; rewrite V'; reflexivity).
    subst r r'. split; intros F; apply (f_equal this) in F; vm_compute in F; discriminate.
Qed.
