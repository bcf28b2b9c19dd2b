(** Vectors: weighted covariance, minima and maxima, textbook values, wrong dimensions. *)
From Coq Require Import List Arith Bool Lia Field.
From Verif Require Import Num NumFacts SpecStats SpecVector ModelBasic ModelPSquare ModelMinMax ModelVector
  ProofBasic ProofBasic2 ProofBasic3 ProofVector.
Import ListNotations.

Section WCov.
Variable K : Num.
Local Notation T := (car K).
Local Notation z := (zero K).

Definition WCDim d e (h : list (list T * list T * T)) :=
  AllDim d (map (fun p => fst (fst p)) h) /\ AllDim e (map (fun p => snd (fst p)) h).
Lemma WCDim_snoc d e h s v w : WCDim d e (h ++ [(s, v, w)]) -> WCDim d e h /\ length s = d /\ length v = e.
Proof. unfold WCDim. rewrite !map_app. intros [H1 H2]. apply AllDim_snoc in H1 as [? ?]. apply AllDim_snoc in H2 as [? ?]. auto. Qed.

Lemma wcov_count l : wc_count K (wcov_set_run K z z z l) = length l.
Proof.
  unfold wcov_set_run. induction l as [|[[a b] c] l IH] using rev_ind; auto.
  rewrite fold_left_app, app_length, Nat.add_1_r. cbn. now rewrite IH.
Qed.
Lemma wcov_weight i j h : wc_W K (wcov_set_run K z z z (wcolumns z i j h)) = wc_W K (wcov_set_run K z z z (wcolumns z 0 0 h)).
Proof.
  unfold wcov_set_run, wcolumns. induction h as [|[[a b] c] h IH] using rev_ind; auto.
  rewrite !map_app, !fold_left_app. cbn. now rewrite IH.
Qed.
Lemma wcov_sum i j k h : wc_sum K (wcov_set_run K z z z (wcolumns z i j h)) = wc_sum K (wcov_set_run K z z z (wcolumns z i k h)).
Proof.
  unfold wcov_set_run, wcolumns. induction h as [|[[a b] c] h IH] using rev_ind; auto.
  rewrite !map_app, !fold_left_app. cbn. now rewrite IH.
Qed.
Lemma wcov_sumv i j k h : wc_sumv K (wcov_set_run K z z z (wcolumns z i j h)) = wc_sumv K (wcov_set_run K z z z (wcolumns z k j h)).
Proof.
  unfold wcov_set_run, wcolumns. induction h as [|[[a b] c] h IH] using rev_ind; auto.
  rewrite !map_app, !fold_left_app. cbn. now rewrite IH.
Qed.

Lemma vwcov_fold d h : WCDim d d h ->
  fold_left (vwcov_push K) h
    (Ok (0, z, vweighted_sum_init K (vector d (fun _ => z)), vweighted_sum_init K (vector d (fun _ => z)),
         vwcov_init K (vector d (fun _ => z)) (vector d (fun _ => z))))
  = Ok (length h, wc_W K (wcov_set_run K z z z (wcolumns z 0 0 h)),
        vector d (fun j => wc_sum K (wcov_set_run K z z z (wcolumns z j 0 h))),
        vector d (fun i => wc_sumv K (wcov_set_run K z z z (wcolumns z 0 i h))),
        matrix d d (fun i j => wc_cov K (wcov_set_run K z z z (wcolumns z j i h)))).
Proof.
  induction h as [|[[s v] w] h IH] using rev_ind; intros H.
  - cbn. unfold vwcov_init, vweighted_sum_init. rewrite vdivs_vector, !vmuls_vector, outer_vector. reflexivity.
  - apply WCDim_snoc in H as (H & Hs & Hv). rewrite fold_left_app, IH by auto. cbn [fold_left].
    unfold vwcov_push. cbn [obnd fst snd].
    assert (E : forall i j, wcov_set_run K z z z (wcolumns z j i (h ++ [(s, v, w)]))
      = wcov_set_push K (wcov_set_run K z z z (wcolumns z j i h)) (nth j s z, nth i v z, w)).
    { intros i j. unfold wcolumns, wcov_set_run. now rewrite map_app, fold_left_app. }
    assert (EC : forall i j, wc_count K (wcov_set_run K z z z (wcolumns z j i h)) = length h).
    { intros i j. rewrite wcov_count. apply map_length. }
    unfold vweighted_sum_op. rewrite (dim_vector z d s Hs) at 1. rewrite vmuls_vector, vplus_vector. cbn [obnd].
    rewrite (dim_vector z d v Hv) at 1. rewrite vmuls_vector, vplus_vector. cbn [obnd].
    unfold vweighted_mean_result. rewrite !vdivs_vector. unfold vwcov_op.
    rewrite app_length, Nat.add_1_r. destruct (Nat.ltb 1 (S (length h))) eqn:Hc.
    + rewrite (dim_vector z d v Hv) at 1. rewrite vzip_vector. cbn [obnd].
      rewrite (dim_vector z d s Hs) at 1. rewrite vzip_vector. cbn [obnd].
      rewrite mscale_matrix, outer_vector, mscale_matrix, mplus_matrix. cbn [obnd]. f_equal. f_equal; [f_equal; [f_equal|]|].
      * rewrite E. reflexivity.
      * apply vector_ext. intros j _. rewrite E. reflexivity.
      * apply vector_ext. intros j _. rewrite E. reflexivity.
      * apply matrix_ext. intros i j _ _. rewrite E. cbn [wcov_set_push wc_cov]. unfold weighted_covariance_op. rewrite EC, Hc.
        rewrite (wcov_weight j i), (wcov_sum j i 0), (wcov_sumv j i 0). reflexivity.
    + cbn [obnd]. f_equal. f_equal; [f_equal; [f_equal|]|].
      * rewrite E. reflexivity.
      * apply vector_ext. intros j _. rewrite E. reflexivity.
      * apply vector_ext. intros j _. rewrite E. reflexivity.
      * apply matrix_ext. intros i j _ _. rewrite E. cbn [wcov_set_push wc_cov]. unfold weighted_covariance_op. rewrite EC, Hc. reflexivity.
Qed.
Lemma vwcov_run_spec d h : WCDim d d h ->
  vwcov_run K (vector d (fun _ => z)) (vector d (fun _ => z)) h
  = Ok (matrix d d (fun i j => wc_cov K (wcov_set_run K z z z (wcolumns z j i h)))).
Proof. intros H. unfold vwcov_run. now rewrite vwcov_fold. Qed.
End WCov.

(** Minima and maxima *)
Section MinMax.
Variable L : Limits.
Local Notation T := (lcar L).
Lemma vassign_vector (f : T -> T -> T) d g h : vassign L f (vector d g) (vector d h) = Ok (vector d (fun j => f (g j) (h j))).
Proof. unfold vector. generalize (seq 0 d). induction l as [|a l IH]; cbn; auto. now rewrite IH. Qed.
Lemma repeat_vector (a : T) d : repeat a d = vector d (fun _ => a).
Proof. unfold vector. rewrite <- (seq_length d 0) at 1. induction (seq 0 d); cbn; congruence. Qed.
Lemma vminmax_run f (a zz : T) d xs : AllDim d xs ->
  fold_left (fun o x => obnd o (fun m => vassign L f m x)) xs (Ok (repeat a d))
  = Ok (vector d (fun j => fold_left f (column zz j xs) a)).
Proof.
  rewrite repeat_vector. induction xs as [|x xs IH] using rev_ind; intros H; [reflexivity|].
  apply AllDim_snoc in H as [H Hx]. rewrite fold_left_app, IH by auto. cbn [fold_left obnd].
  rewrite (dim_vector zz d x Hx) at 1. rewrite vassign_vector. f_equal. apply vector_ext. intros j _.
  unfold column. rewrite map_app, fold_left_app. reflexivity.
Qed.
Lemma vmin_run_spec s0 zz xs : AllDim (length s0) xs ->
  vmin_run L s0 xs = Ok (vector (length s0) (fun j => min_run L (column zz j xs))).
Proof. intros H. unfold vmin_run. now rewrite (vminmax_run _ _ zz). Qed.
Lemma vmax_run_spec s0 zz xs : AllDim (length s0) xs ->
  vmax_run L s0 xs = Ok (vector (length s0) (fun j => max_run L (column zz j xs))).
Proof. intros H. unfold vmax_run. now rewrite (vminmax_run _ _ zz). Qed.
Lemma vassign_length f l r m : vassign L f l r = Ok m -> length r = length l /\ length m = length l.
Proof.
  revert r m. induction l as [|a l IH]; intros [|b r] m; cbn; intros H; try discriminate.
  - injection H as <-. auto.
  - destruct (vassign L f l r) as [m'| |] eqn:E; try discriminate. cbn in H. injection H as <-.
    apply IH in E as [? ?]. cbn. auto.
Qed.
Lemma vminmax_dim f xs m0 m :
  fold_left (fun o x => obnd o (fun m => vassign L f m x)) xs (Ok m0) = Ok m -> AllDim (length m0) xs.
Proof.
  revert m. induction xs as [|x xs IH] using rev_ind; intros m H; [constructor|].
  rewrite fold_left_app in H. cbn [fold_left] in H.
  assert (HL : forall m', fold_left (fun o x => obnd o (fun m => vassign L f m x)) xs (Ok m0) = Ok m' -> length m' = length m0).
  { clear. revert m0. induction xs as [|x xs IHx]; cbn; intros m0 m' H; [congruence|].
    destruct (vassign L f m0 x) as [m1| |] eqn:E.
    - apply IHx in H. apply vassign_length in E. lia.
    - exfalso. revert H. clear. induction xs; cbn; auto; discriminate.
    - exfalso. revert H. clear. induction xs; cbn; auto; discriminate. }
  destruct (fold_left _ xs (Ok m0)) as [m'| |] eqn:E; try discriminate.
  apply Forall_app. split; [now apply (IH m')|]. constructor; [|constructor].
  cbn in H. apply vassign_length in H. rewrite <- (HL m') by auto. tauto.
Qed.
Lemma vmin_dim s0 xs : (exists m, vmin_run L s0 xs = Ok m) <-> AllDim (length s0) xs.
Proof.
  split.
  - intros [m H]. apply vminmax_dim in H. now rewrite repeat_length in H.
  - intros H. eexists. now apply (vmin_run_spec _ (lowest L)).
Qed.
Lemma vmax_dim s0 xs : (exists m, vmax_run L s0 xs = Ok m) <-> AllDim (length s0) xs.
Proof.
  split.
  - intros [m H]. apply vminmax_dim in H. now rewrite repeat_length in H.
  - intros H. eexists. now apply (vmax_run_spec _ (lowest L)).
Qed.
End MinMax.

(** Textbook values *)
Section Laws.
Variable K : Num.
Hypothesis HK : FieldLaws K.
Local Notation T := (car K).
Local Notation z := (zero K).
Local Notation col := (column (zero K)).
Local Notation wcol := (wcolumn (zero K)).

Lemma col_nonempty j xs : xs <> [] -> col j xs <> [].
Proof. destruct xs; [congruence|discriminate]. Qed.
Lemma sum_mean s0 l : mean_result K (sum_run K s0 l) (length l) = mean_set_mean K (mean_set_run K s0 l).
Proof.
  unfold mean_set_mean. f_equal.
  - unfold sum_run, mean_set_run. induction l as [|a l IH] using rev_ind; auto. rewrite !fold_left_app. cbn. now rewrite IH.
  - unfold mean_set_run. induction l as [|a l IH] using rev_ind; auto. rewrite fold_left_app, app_length, Nat.add_1_r. cbn. now rewrite IH.
Qed.

Lemma vector_textbook d s0 N xs : xs <> [] -> 1 <= N -> AllDim d xs ->
  vsum_run K (vector d (fun _ => z)) xs = Ok (vector d (fun j => total K (fun x => x) (col j xs)))
  /\ vmean_run K (vector d (fun _ => z)) xs = Ok (vector d (fun j => Mean K (col j xs)))
  /\ vimean_run K (vector d s0) xs = Ok (vector d (fun j => Mean K (col j xs)))
  /\ vvar_run K (vector d (fun _ => z)) xs = Ok (vector d (fun j => Variance K (col j xs)))
  /\ vlazy_variance_run K (vector d (fun _ => z)) xs = Ok (vector d (fun j => Variance K (col j xs)))
  /\ vmoment_run K N (vector d (fun _ => z)) xs = Ok (vector d (fun j => Moment K N (col j xs))).
Proof.
  intros Hne HN H. repeat split.
  - rewrite vsum_run_spec by auto. f_equal. apply vector_ext. intros j _. rewrite sum_run_spec by auto.
    exact (Radd_0_l (F_R (fl_field K HK)) _).
  - rewrite vmean_run_spec by auto. f_equal. apply vector_ext. intros j _.
    rewrite <- (col_length K j xs), sum_mean. now apply mean_set_spec.
  - rewrite vimean_run_spec by auto. f_equal. apply vector_ext. intros j _. apply imean_run_spec; auto using col_nonempty.
  - rewrite vvar_run_spec by auto. f_equal. apply vector_ext. intros j _. apply var_run_spec; auto using col_nonempty.
  - apply vlazy_variance_run_componentwise; auto. intros j _. apply lazy_variance_run_spec; auto using col_nonempty.
  - apply vmoment_run_componentwise; auto. intros j _. apply moment_run_spec; auto.
Qed.

(** Weighted textbook values *)
Lemma total_weight_map {A B} (f : A -> B) (h : list (A * T)) : TotalWeight K (map (fun p => (f (fst p), snd p)) h) = TotalWeight K h.
Proof. unfold TotalWeight. induction h as [|p h IH]; auto. cbn [map]. rewrite !total_cons by exact HK. cbn [snd]. now rewrite IH. Qed.
Lemma prefix_map {A B} (f : A -> B) (h : list (A * T)) : PrefixWeightsNonzero K h ->
  PrefixWeightsNonzero K (map (fun p => (f (fst p), snd p)) h).
Proof.
  intros H p q E Hp. apply map_eq_app in E.
  destruct E as (p' & q' & -> & <- & <-). rewrite total_weight_map. apply (H p' q' eq_refl).
  intros ->. now apply Hp.
Qed.
Lemma wcol_prefix j h : PrefixWeightsNonzero K h -> PrefixWeightsNonzero K (wcol j h).
Proof. exact (prefix_map (fun x => nth j x z) h). Qed.
Lemma wcol_nonempty j (h : list (list T * T)) : h <> [] -> wcol j h <> [].
Proof. destruct h; [congruence|discriminate]. Qed.

Lemma vector_weighted_textbook d s0 N h : h <> [] -> 1 <= N -> AllDim d (map fst h) -> PrefixWeightsNonzero K h ->
  vweighted_sum_run K (vector d (fun _ => z)) h
    = Ok (vector d (fun j => total K (fun p => mul K (snd p) (fst p)) (wcol j h)))
  /\ vweighted_mean_run K (vector d (fun _ => z)) h = Ok (vector d (fun j => WMean K (wcol j h)))
  /\ vwimean_run K (vector d s0) h = Ok (vector d (fun j => WMean K (wcol j h)))
  /\ vwvar_run K (vector d (fun _ => z)) h = Ok (vector d (fun j => WVariance K (wcol j h)))
  /\ vlazy_weighted_variance_run K (vector d (fun _ => z)) h = Ok (vector d (fun j => WVariance K (wcol j h)))
  /\ vweighted_moment_run K N (vector d (fun _ => z)) h = Ok (vector d (fun j => WMoment K N (wcol j h))).
Proof.
  intros Hne HN H HP.
  assert (HA : forall j, h <> [] -> _) by (intros j _; exact (weighted_all K HK (wcol j h) (fun x => x) N (wcol_nonempty j h Hne) HN (wcol_prefix j h HP))).
  repeat split.
  - rewrite vweighted_sum_run_spec by auto. f_equal. apply vector_ext. intros j _. now destruct (HA j Hne) as (E & _).
  - rewrite vweighted_mean_run_spec by auto. f_equal. apply vector_ext. intros j _. now destruct (HA j Hne) as (_ & _ & E & _).
  - rewrite vwimean_run_spec by auto. f_equal. apply vector_ext. intros j _.
    apply wvar_run_mean_spec; auto using wcol_nonempty, wcol_prefix.
  - rewrite vwvar_run_spec by auto. f_equal. apply vector_ext. intros j _. now destruct (HA j Hne) as (_ & _ & _ & _ & E & _).
  - apply vlazy_weighted_variance_run_componentwise; auto. intros j _. now destruct (HA j Hne) as (_ & _ & _ & _ & _ & E & _).
  - apply vweighted_moment_run_componentwise; auto. intros j _. now destruct (HA j Hne) as (_ & _ & _ & _ & _ & _ & E & _).
Qed.

(** Covariances *)
Lemma vector_covariance d h : h <> [] -> AllDim d (map fst h) -> AllDim d (map snd h) ->
  vcov_run K (vector d (fun _ => z)) (vector d (fun _ => z)) h
  = Ok (matrix d d (fun i j => Covariance K (columns z j i h))).
Proof.
  intros Hne H1 H2. rewrite vcov_run_spec by now split. f_equal. apply matrix_ext. intros i j _ _.
  apply cov_run_spec; auto. destruct h; [congruence|discriminate].
Qed.
Lemma vector_scalar_covariance d h : h <> [] -> AllDim d (map fst h) ->
  vscov_run K (vector d (fun _ => z)) z h = Ok (vector d (fun j => Covariance K (vscolumn z j h))).
Proof.
  intros Hne H. rewrite vscov_run_spec by auto. f_equal. apply vector_ext. intros j _.
  apply cov_run_spec; auto. destruct h; [congruence|discriminate].
Qed.
Lemma scalar_vector_covariance d h : h <> [] -> AllDim d (map snd h) ->
  svcov_run K z (vector d (fun _ => z)) h = Ok (vector d (fun j => Covariance K (svcolumn z j h))).
Proof.
  intros Hne H. rewrite svcov_run_spec by auto. f_equal. apply vector_ext. intros j _.
  apply cov_run_spec; auto. destruct h; [congruence|discriminate].
Qed.
Lemma vector_weighted_covariance d h : h <> [] -> AllDim d (map (fun p => fst (fst p)) h) ->
  AllDim d (map (fun p => snd (fst p)) h) -> PrefixWeightsNonzero K h ->
  vwcov_run K (vector d (fun _ => z)) (vector d (fun _ => z)) h
  = Ok (matrix d d (fun i j => WCovariance K (wcolumns z j i h))).
Proof.
  intros Hne H1 H2 HP. rewrite vwcov_run_spec by now split. f_equal. apply matrix_ext. intros i j _ _.
  apply wcov_run_spec; auto.
  - destruct h; [congruence|discriminate].
  - exact (prefix_map (fun p => (nth j (fst p) z, nth i (snd p) z)) h HP).
Qed.
End Laws.

(** Wrong dimensions *)
Section Dim.
Variable K : Num.
Local Notation T := (car K).
Lemma fold_ub {A B} (f : B -> A -> outcome B) l : fold_left (fun o x => obnd o (fun s => f s x)) l UB = UB.
Proof. induction l; cbn; auto. Qed.
Lemma vsum_dims s0 xs : ~ AllDim (length s0) xs -> vsum_run K s0 xs = UB.
Proof.
  unfold vsum_run. revert s0. induction xs as [|x xs IH]; intros s0 H; [exfalso; apply H; constructor|].
  cbn [fold_left obnd]. unfold vsum_op at 2, vplus_assign.
  destruct (Nat.eqb_spec (length s0) (length x)) as [E|E]; [|apply (fold_ub (vsum_op K))].
  rewrite (dim_vector (zero K) _ s0 eq_refl). rewrite (dim_vector (zero K) (length s0) x (eq_sym E)).
  rewrite vzip_vector. apply IH. rewrite vector_length. intros H'. apply H. constructor; auto.
Qed.
Lemma vmean_dims s0 xs : ~ AllDim (length s0) xs -> vmean_run K s0 xs = UB.
Proof. intros H. unfold vmean_run. now rewrite vsum_dims. Qed.
(** a set that is constructed without an initial sample *)
Lemma vimean_no_seed xs : vimean_run K [] xs = Ok [].
Proof.
  unfold vimean_run. enough (E : fold_left (vimean_push K) xs (Ok (0, vimm_mean_init K [])) = Ok (length xs, [])) by now rewrite E.
  induction xs as [|x xs IH] using rev_ind; [reflexivity|].
  rewrite fold_left_app, IH, app_length, Nat.add_1_r. reflexivity.
Qed.
Lemma vvar_no_seed x y xs : y <> [] -> vvar_run K [] (x :: y :: xs) = UB.
Proof.
  intros H. destruct y as [|b y]; [congruence|]. unfold vvar_run.
  assert (E : fold_left (vvar_push K) xs UB = UB) by (induction xs; cbn; auto).
  cbn [fold_left]. unfold vvar_push at 3. cbn [obnd]. unfold vimm_mean_op at 1. cbn [vmuls vimm_mean_init vzip map obnd vdivs].
  unfold vvariance_op at 1. cbn [Nat.ltb Nat.leb obnd]. unfold vvar_push at 2. cbn [obnd]. unfold vimm_mean_op at 1.
  cbn [vmuls vzip map obnd vdivs]. unfold vvariance_op at 1. cbn [Nat.ltb Nat.leb vzip obnd]. now rewrite E.
Qed.
Lemma vzip_long op d f (x : list T) : d <= length x ->
  vzip K op (vector d f) x = Ok (vector d (fun j => op (f j) (nth j x (zero K)))).
Proof.
  revert f x. induction d as [|d IH]; intros f x H; [reflexivity|]. destruct x as [|b x]; cbn in H; [lia|].
  unfold vector in *. cbn [seq map vzip]. rewrite <- seq_shift, !map_map.
  rewrite (IH (fun j => f (S j)) x) by lia. reflexivity.
Qed.
(** longer samples are truncated *)
Lemma vimean_truncates d (s0 : nat -> T) xs : Forall (fun x => d <= length x) xs ->
  vimean_run K (vector d s0) xs = vimean_run K (vector d s0) (map (firstn d) xs).
Proof.
  intros H. unfold vimean_run. f_equal.
  enough (E : exists c m, fold_left (vimean_push K) xs (Ok (0, vimm_mean_init K (vector d s0))) = Ok (c, vector d m)
    /\ fold_left (vimean_push K) (map (firstn d) xs) (Ok (0, vimm_mean_init K (vector d s0))) = Ok (c, vector d m)).
  { destruct E as (c & m & -> & ->). reflexivity. }
  induction xs as [|x xs IH] using rev_ind.
  - exists 0, (fun j => div K (s0 j) (one K)). cbn. unfold vimm_mean_init. now rewrite vdivs_vector.
  - apply Forall_app in H as [H Hx]. inversion_clear Hx as [|? ? Hx' _].
    destruct (IH H) as (c & m & E1 & E2). rewrite map_app, !fold_left_app, E1, E2. cbn [map fold_left].
    unfold vimean_push. cbn [obnd fst snd]. unfold vimm_mean_op. rewrite vmuls_vector, !vzip_long by (rewrite ?firstn_length; lia).
    cbn [obnd]. rewrite !vdivs_vector. do 2 eexists. split; [reflexivity|]. f_equal. f_equal. apply vector_ext. intros j Hj.
    f_equal. f_equal. rewrite <- (firstn_skipn d x) at 2. rewrite app_nth1; auto. rewrite firstn_length. lia.
Qed.
Lemma vsum_no_seed x xs : x <> [] -> vsum_run K [] (x :: xs) = UB.
Proof. intros H. apply vsum_dims. intros H'. inversion_clear H'. destruct x; [congruence|discriminate]. Qed.
End Dim.
