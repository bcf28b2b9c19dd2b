(** Vectors behave component-wise. *)
From Coq Require Import List Arith Bool Lia Field.
From Verif Require Import Num NumFacts SpecStats SpecVector ModelBasic ModelPSquare ModelMinMax ModelVector ProofBasic ProofBasic2 ProofBasic3.
Import ListNotations.

Lemma vector_length {T} d (f : nat -> T) : length (vector d f) = d.
Proof. unfold vector. now rewrite map_length, seq_length. Qed.
Lemma vector_ext {T} d (f g : nat -> T) : (forall j, j < d -> f j = g j) -> vector d f = vector d g.
Proof. intros H. unfold vector. apply map_ext_in. intros j Hj. apply in_seq in Hj. apply H; lia. Qed.
Lemma nth_vector {T} d (f : nat -> T) j z : j < d -> nth j (vector d f) z = f j.
Proof.
  intros H. unfold vector. rewrite (nth_indep _ z (f 0)) by now rewrite map_length, seq_length.
  rewrite map_nth, seq_nth; auto.
Qed.
Lemma list_vector {T} (z : T) (x : list T) : x = vector (length x) (fun j => nth j x z).
Proof.
  induction x as [|a x IH]; cbn; auto. unfold vector in *. cbn. f_equal.
  rewrite <- seq_shift, map_map. exact IH.
Qed.
Lemma dim_vector {T} (z : T) d (x : list T) : length x = d -> x = vector d (fun j => nth j x z).
Proof. intros <-. apply list_vector. Qed.
Lemma map_vector {T S} (g : T -> S) d f : map g (vector d f) = vector d (fun j => g (f j)).
Proof. unfold vector. now rewrite map_map. Qed.
Lemma AllDim_snoc {T} d (xs : list (list T)) x : AllDim d (xs ++ [x]) -> AllDim d xs /\ length x = d.
Proof. intros H. apply Forall_app in H as [H1 H2]. split; auto. now inversion H2. Qed.

Section Ops.
Variable K : Num.
Local Notation T := (car K).
Local Notation col := (column (zero K)).

Lemma vzip_map op {I} (f g : I -> T) l : vzip K op (map f l) (map g l) = Ok (map (fun j => op (f j) (g j)) l).
Proof. induction l as [|a l IH]; cbn; auto. now rewrite IH. Qed.
Lemma vzip_vector op d f g : vzip K op (vector d f) (vector d g) = Ok (vector d (fun j => op (f j) (g j))).
Proof. apply vzip_map. Qed.
Lemma vplus_vector d f g : vplus_assign K (vector d f) (vector d g) = Ok (vector d (fun j => add K (f j) (g j))).
Proof. unfold vplus_assign. rewrite !vector_length, Nat.eqb_refl. apply vzip_vector. Qed.
Lemma vdivs_vector d f c : vdivs K (vector d f) c = vector d (fun j => div K (f j) c).
Proof. apply map_vector. Qed.
Lemma vmuls_vector d f c : vmuls K (vector d f) c = vector d (fun j => mul K (f j) c).
Proof. apply map_vector. Qed.
Lemma smulv_vector d f c : smulv K c (vector d f) = vector d (fun j => mul K c (f j)).
Proof. apply map_vector. Qed.
Lemma col_snoc j xs x : col j (xs ++ [x]) = col j xs ++ [nth j x (zero K)].
Proof. unfold column. now rewrite map_app. Qed.
Lemma col_length j xs : length (col j xs) = length xs.
Proof. apply map_length. Qed.
Lemma wcol_snoc j (h : list (list T * T)) p :
  wcolumn (zero K) j (h ++ [p]) = wcolumn (zero K) j h ++ [(nth j (fst p) (zero K), snd p)].
Proof. unfold wcolumn. now rewrite map_app. Qed.

(** Unweighted sets, without laws *)
Lemma vsum_run_spec d (s0 : nat -> T) xs : AllDim d xs ->
  vsum_run K (vector d s0) xs = Ok (vector d (fun j => sum_run K (s0 j) (col j xs))).
Proof.
  induction xs as [|x xs IH] using rev_ind; intros H.
  - reflexivity.
  - apply AllDim_snoc in H as [H Hx]. unfold vsum_run. rewrite fold_left_app. cbn [fold_left].
    change (obnd (vsum_run K (vector d s0) xs) (fun s => vsum_op K s x) = Ok (vector d (fun j => sum_run K (s0 j) (col j (xs ++ [x]))))).
    rewrite IH by auto. cbn [obnd]. unfold vsum_op. rewrite (dim_vector (zero K) d x Hx) at 1.
    rewrite vplus_vector. f_equal. apply vector_ext. intros j _. rewrite col_snoc. unfold sum_run. rewrite fold_left_app. reflexivity.
Qed.
Lemma vmean_run_spec d (s0 : nat -> T) xs : AllDim d xs ->
  vmean_run K (vector d s0) xs = Ok (vector d (fun j => mean_result K (sum_run K (s0 j) (col j xs)) (length xs))).
Proof.
  intros H. unfold vmean_run. rewrite vsum_run_spec by auto. cbn [obnd]. unfold vmean_result.
  rewrite vdivs_vector. reflexivity.
Qed.
Lemma vimean_fold d (s0 : nat -> T) xs : AllDim d xs ->
  fold_left (vimean_push K) xs (Ok (0, vimm_mean_init K (vector d s0)))
  = Ok (length xs, vector d (fun j => im_mean K (imean_set_run K (s0 j) (col j xs)))).
Proof.
  induction xs as [|x xs IH] using rev_ind; intros H.
  - cbn. unfold vimm_mean_init. now rewrite vdivs_vector.
  - apply AllDim_snoc in H as [H Hx]. rewrite fold_left_app, IH by auto. cbn [fold_left].
    unfold vimean_push. cbn [obnd fst snd]. unfold vimm_mean_op.
    rewrite (dim_vector (zero K) d x Hx) at 1. rewrite vmuls_vector, vzip_vector. cbn [obnd].
    rewrite vdivs_vector. f_equal. rewrite app_length, Nat.add_1_r. f_equal.
    apply vector_ext. intros j _. rewrite col_snoc. unfold imean_set_run. rewrite fold_left_app. cbn.
    fold (imean_set_run K (s0 j) (col j xs)).
    assert (E : im_count K (imean_set_run K (s0 j) (col j xs)) = length xs).
    { rewrite <- (col_length j xs). generalize (col j xs). intros l. unfold imean_set_run.
      induction l as [|a l IHl] using rev_ind; auto. rewrite fold_left_app, app_length, Nat.add_1_r. cbn. now rewrite IHl. }
    rewrite E. reflexivity.
Qed.
Lemma vimean_run_spec d (s0 : nat -> T) xs : AllDim d xs ->
  vimean_run K (vector d s0) xs = Ok (vector d (fun j => im_mean K (imean_set_run K (s0 j) (col j xs)))).
Proof. intros H. unfold vimean_run. now rewrite vimean_fold. Qed.

Lemma var_count s0 l : vs_count K (var_set_run K s0 l) = length l.
Proof.
  unfold var_set_run. induction l as [|a l IHl] using rev_ind; auto.
  rewrite fold_left_app, app_length, Nat.add_1_r. cbn. now rewrite IHl.
Qed.
Lemma vvar_fold d (s0 : nat -> T) xs : AllDim d xs ->
  fold_left (vvar_push K) xs (Ok (0, vimm_mean_init K (vector d s0), vvariance_init K (vector d s0)))
  = Ok (length xs, vector d (fun j => vs_mean K (var_set_run K (s0 j) (col j xs))),
                   vector d (fun j => vs_var K (var_set_run K (s0 j) (col j xs)))).
Proof.
  induction xs as [|x xs IH] using rev_ind; intros H.
  - cbn. unfold vimm_mean_init, vvariance_init. now rewrite vdivs_vector.
  - apply AllDim_snoc in H as [H Hx]. rewrite fold_left_app, IH by auto. cbn [fold_left].
    unfold vvar_push. cbn [obnd]. unfold vimm_mean_op.
    rewrite (dim_vector (zero K) d x Hx) at 1. rewrite vmuls_vector, vzip_vector. cbn [obnd].
    rewrite vdivs_vector. unfold vvariance_op.
    assert (E : forall j, var_set_run K (s0 j) (col j (xs ++ [x]))
      = var_set_push K (var_set_run K (s0 j) (col j xs)) (nth j x (zero K))).
    { intros j. rewrite col_snoc. unfold var_set_run. now rewrite fold_left_app. }
    assert (EC : forall j, vs_count K (var_set_run K (s0 j) (col j xs)) = length xs).
    { intros j. now rewrite var_count, col_length. }
    rewrite app_length, Nat.add_1_r. destruct (Nat.ltb 1 (S (length xs))) eqn:Hc.
    + rewrite (dim_vector (zero K) d x Hx) at 1. rewrite vzip_vector. cbn [obnd]. rewrite vzip_vector. cbn [obnd].
      rewrite vmuls_vector, !vdivs_vector, vzip_vector. cbn [obnd]. f_equal. f_equal; [f_equal|].
      * apply vector_ext. intros j _. rewrite E. cbn. rewrite EC. reflexivity.
      * apply vector_ext. intros j _. rewrite E. cbn [var_set_push vs_var]. unfold variance_op. rewrite EC, Hc. reflexivity.
    + cbn [obnd]. f_equal. f_equal; [f_equal|].
      * apply vector_ext. intros j _. rewrite E. cbn. rewrite EC. reflexivity.
      * apply vector_ext. intros j _. rewrite E. cbn [var_set_push vs_var]. unfold variance_op. rewrite EC, Hc. reflexivity.
Qed.
Lemma vvar_run_spec d (s0 : nat -> T) xs : AllDim d xs ->
  vvar_run K (vector d s0) xs = Ok (vector d (fun j => vs_var K (var_set_run K (s0 j) (col j xs)))).
Proof. intros H. unfold vvar_run. now rewrite vvar_fold. Qed.

Lemma vpow_fuel_map f n (g : T -> T) v : (forall a, npow_fuel K f a n = Some (g a)) -> vpow_fuel K f v n = Ok (map g v).
Proof.
  revert n g. induction f as [|f IH]; intros n g H.
  - discriminate (H (zero K)).
  - cbn [npow_fuel vpow_fuel] in *. destruct (Nat.eqb n 1).
    + f_equal. rewrite <- (map_id v) at 1. apply map_ext. intros a. specialize (H a). congruence.
    + set (g' := fun a => match npow_fuel K f a (n / 2) with Some y => y | None => a end).
      rewrite (IH (n / 2) g').
      2:{ intros a. unfold g'. specialize (H a). destruct (npow_fuel K f a (n / 2)); [reflexivity|discriminate]. }
      cbn [obnd]. rewrite vzip_map. cbn [obnd].
      assert (Hg : forall a, g a = if Nat.eqb (n mod 2) 0 then mul K (g' a) (g' a) else mul K (mul K (g' a) (g' a)) a).
      { intros a. unfold g'. specialize (H a). destruct (npow_fuel K f a (n / 2)) eqn:Ea; [|discriminate]. congruence. }
      destruct (Nat.eqb (n mod 2) 0).
      * f_equal. apply map_ext. intros a. now rewrite Hg.
      * rewrite <- (map_id v) at 2. rewrite vzip_map. f_equal. apply map_ext. intros a. now rewrite Hg.
Qed.

(** [npow] answers for every positive exponent *)
Definition npowf (n : nat) (a : T) : T := match npow K a n with Some y => y | None => a end.
Lemma npow_fuel_some f n a : 1 <= n <= f -> npow_fuel K f a n <> None.
Proof.
  revert n. induction f as [|f IH]; intros n Hn; [lia|].
  cbn [npow_fuel]. destruct (Nat.eqb_spec n 1); [discriminate|].
  assert (H : npow_fuel K f a (n / 2) <> None).
  { apply IH. split; [apply Nat.div_le_lower_bound; lia|].
    assert (n / 2 < n) by (apply Nat.div_lt; lia). lia. }
  destruct (npow_fuel K f a (n / 2)); [discriminate|congruence].
Qed.
Lemma npow_npowf n a : 1 <= n -> npow K a n = Some (npowf n a).
Proof.
  intros Hn. unfold npowf. destruct (npow K a n) eqn:E; auto.
  exfalso. revert E. apply npow_fuel_some. lia.
Qed.
Lemma vpow_npowf n v : 1 <= n -> vpow K v n = Ok (map (npowf n) v).
Proof. intros Hn. apply vpow_fuel_map. intros a. exact (npow_npowf n a Hn). Qed.

Definition msum (n : nat) (s0 : T) (xs : list T) : T := fold_left (fun s x => add K s (npowf n x)) xs s0.
Lemma mom_run_msum n s0 xs : 1 <= n ->
  mom_set_run K [n] s0 xs = Some {| mo_count := length xs; mo_sum := sum_run K s0 xs; mo_sums := [msum n s0 xs] |}.
Proof.
  intros Hn. unfold mom_set_run. induction xs as [|x xs IH] using rev_ind; [reflexivity|].
  rewrite fold_left_app, IH. cbn [fold_left mom_set_push moment_ops mo_sums moment_op].
  unfold moment_op. rewrite npow_npowf by auto. cbn [mo_count mo_sum].
  rewrite app_length, Nat.add_1_r. unfold msum, sum_run. rewrite !fold_left_app. reflexivity.
Qed.
Lemma moment_run_msum n s0 xs : 1 <= n -> moment_run K n s0 xs = Some (moment_result K (msum n s0 xs) (length xs)).
Proof. intros Hn. unfold moment_run. rewrite mom_run_msum by auto. reflexivity. Qed.
Lemma lazy_variance_run_msum s0 xs : lazy_variance_run K s0 xs
  = Some (lazy_variance_result K (moment_result K (msum 2 s0 xs) (length xs)) (mean_result K (sum_run K s0 xs) (length xs))).
Proof. unfold lazy_variance_run. rewrite mom_run_msum by auto. reflexivity. Qed.

Lemma vmoment_sum_spec n d (s0 : nat -> T) xs : 1 <= n -> AllDim d xs ->
  vmoment_sum K n (vector d s0) xs = Ok (vector d (fun j => msum n (s0 j) (col j xs))).
Proof.
  intros Hn. induction xs as [|x xs IH] using rev_ind; intros H.
  - reflexivity.
  - apply AllDim_snoc in H as [H Hx]. unfold vmoment_sum in *. rewrite fold_left_app, IH by auto. cbn [fold_left obnd].
    unfold vmoment_op. rewrite vpow_npowf by auto. cbn [obnd].
    rewrite (dim_vector (zero K) d x Hx) at 1. rewrite map_vector, vplus_vector. f_equal.
    apply vector_ext. intros j _. rewrite col_snoc. unfold msum. rewrite fold_left_app. reflexivity.
Qed.
Lemma vmoment_run_componentwise n d (s0 m : nat -> T) xs : 1 <= n -> AllDim d xs ->
  (forall j, j < d -> moment_run K n (s0 j) (col j xs) = Some (m j)) ->
  vmoment_run K n (vector d s0) xs = Ok (vector d m).
Proof.
  intros Hn H Hm. unfold vmoment_run. rewrite vmoment_sum_spec by auto. cbn [obnd]. unfold vmoment_result.
  rewrite vdivs_vector. f_equal. apply vector_ext. intros j Hj. specialize (Hm j Hj).
  rewrite moment_run_msum in Hm by auto. rewrite col_length in Hm. injection Hm as <-. reflexivity.
Qed.
Lemma vlazy_variance_run_componentwise d (s0 m : nat -> T) xs : AllDim d xs ->
  (forall j, j < d -> lazy_variance_run K (s0 j) (col j xs) = Some (m j)) ->
  vlazy_variance_run K (vector d s0) xs = Ok (vector d m).
Proof.
  intros H Hm. unfold vlazy_variance_run, vmoment_run. rewrite vmoment_sum_spec by auto. cbn [obnd]. unfold vmoment_result.
  rewrite vdivs_vector, vmean_run_spec by auto. cbn [obnd]. unfold vlazy_variance_result.
  rewrite vzip_vector. cbn [obnd]. rewrite vzip_vector.
  f_equal. apply vector_ext. intros j Hj. specialize (Hm j Hj).
  rewrite lazy_variance_run_msum, col_length in Hm. injection Hm as <-. reflexivity.
Qed.

(** Weighted sets *)
Local Notation wcol := (wcolumn (zero K)).
Definition WDim d (h : list (list T * T)) := AllDim d (map fst h).
Lemma WDim_snoc d h x w : WDim d (h ++ [(x, w)]) -> WDim d h /\ length x = d.
Proof. unfold WDim. rewrite map_app. intros H. now apply AllDim_snoc in H. Qed.

Lemma vweight_sum_spec s0 j h : vweight_sum K (zero K) h = wm_W K (wmean_set_run K s0 (zero K) (wcol j h)).
Proof.
  unfold vweight_sum, wmean_set_run. induction h as [|[x w] h IH] using rev_ind; [reflexivity|].
  rewrite wcol_snoc, !fold_left_app. cbn. now rewrite IH.
Qed.
Lemma vweighted_sum_run_spec d (s0 : nat -> T) h : WDim d h ->
  vweighted_sum_run K (vector d s0) h = Ok (vector d (fun j => wm_sum K (wmean_set_run K (s0 j) (zero K) (wcol j h)))).
Proof.
  unfold vweighted_sum_run, wmean_set_run. induction h as [|[x w] h IH] using rev_ind; intros H.
  - cbn. unfold vweighted_sum_init. now rewrite vmuls_vector.
  - apply WDim_snoc in H as [H Hx]. rewrite fold_left_app, IH by auto. cbn [fold_left obnd fst snd].
    unfold vweighted_sum_op. rewrite (dim_vector (zero K) d x Hx) at 1. rewrite vmuls_vector, vplus_vector. f_equal.
    apply vector_ext. intros j _. rewrite wcol_snoc, fold_left_app. reflexivity.
Qed.
Lemma vweighted_mean_run_spec d (s0 : nat -> T) h : WDim d h ->
  vweighted_mean_run K (vector d s0) h = Ok (vector d (fun j => wmean_set_mean K (wmean_set_run K (s0 j) (zero K) (wcol j h)))).
Proof.
  intros H. unfold vweighted_mean_run. rewrite vweighted_sum_run_spec by auto. cbn [obnd].
  unfold vweighted_mean_result. rewrite vdivs_vector. f_equal. apply vector_ext. intros j _.
  unfold wmean_set_mean, weighted_mean_result. now rewrite (vweight_sum_spec (s0 j) j).
Qed.

Definition wmsum (n : nat) (s0 : T) (h : list (T * T)) : T :=
  fold_left (fun s p => add K s (mul K (snd p) (npowf n (fst p)))) h (weighted_moment_init K s0).
Lemma wmom_run_wmsum n s0 h : 1 <= n ->
  wmom_set_run K [n] s0 (zero K) h
  = Some {| wo_W := wm_W K (wmean_set_run K s0 (zero K) h); wo_sum := wm_sum K (wmean_set_run K s0 (zero K) h);
            wo_sums := [wmsum n s0 h] |}.
Proof.
  intros Hn. unfold wmom_set_run, wmean_set_run. induction h as [|[x w] h IH] using rev_ind; [reflexivity|].
  rewrite fold_left_app, IH. cbn [fold_left wmom_set_push weighted_moment_ops wo_sums].
  unfold weighted_moment_op. cbn [fst snd]. rewrite npow_npowf by auto. cbn [wo_W wo_sum].
  unfold wmsum. rewrite !fold_left_app. reflexivity.
Qed.
Lemma vwmoment_sum_spec n d (s0 : nat -> T) h : 1 <= n -> WDim d h ->
  fold_left (fun o p => obnd o (fun s => vweighted_moment_op K n s (fst p) (snd p))) h
    (Ok (vweighted_moment_init K (vector d s0))) = Ok (vector d (fun j => wmsum n (s0 j) (wcol j h))).
Proof.
  intros Hn. induction h as [|[x w] h IH] using rev_ind; intros H.
  - cbn. unfold vweighted_moment_init. now rewrite vmuls_vector.
  - apply WDim_snoc in H as [H Hx]. rewrite fold_left_app, IH by auto. cbn [fold_left obnd fst snd].
    unfold vweighted_moment_op. rewrite vpow_npowf by auto. cbn [obnd].
    rewrite (dim_vector (zero K) d x Hx) at 1. rewrite map_vector, smulv_vector, vplus_vector. f_equal.
    apply vector_ext. intros j _. rewrite wcol_snoc. unfold wmsum. rewrite fold_left_app. reflexivity.
Qed.
Lemma vweighted_moment_run_msum n d (s0 : nat -> T) h : 1 <= n -> WDim d h ->
  vweighted_moment_run K n (vector d s0) h
  = Ok (vector d (fun j => weighted_moment_result K (wmsum n (s0 j) (wcol j h)) (vweight_sum K (zero K) h))).
Proof.
  intros Hn H. unfold vweighted_moment_run. rewrite vwmoment_sum_spec by auto. cbn [obnd].
  unfold vweighted_moment_result. now rewrite vdivs_vector.
Qed.
Lemma vweighted_moment_run_componentwise n d (s0 m : nat -> T) h : 1 <= n -> WDim d h ->
  (forall j, j < d -> weighted_moment_run K n (s0 j) (wcol j h) = Some (m j)) ->
  vweighted_moment_run K n (vector d s0) h = Ok (vector d m).
Proof.
  intros Hn H Hm. rewrite vweighted_moment_run_msum by auto. f_equal. apply vector_ext. intros j Hj. specialize (Hm j Hj).
  unfold weighted_moment_run in Hm. rewrite wmom_run_wmsum in Hm by auto. cbn in Hm. injection Hm as <-.
  now rewrite (vweight_sum_spec (s0 j) j).
Qed.
Lemma vlazy_weighted_variance_run_componentwise d (s0 m : nat -> T) h : WDim d h ->
  (forall j, j < d -> lazy_weighted_variance_run K (s0 j) (wcol j h) = Some (m j)) ->
  vlazy_weighted_variance_run K (vector d s0) h = Ok (vector d m).
Proof.
  intros H Hm. unfold vlazy_weighted_variance_run. rewrite vweighted_moment_run_msum, vweighted_mean_run_spec by auto.
  cbn [obnd]. unfold vlazy_weighted_variance_result. rewrite vzip_vector. cbn [obnd]. rewrite vzip_vector.
  f_equal. apply vector_ext. intros j Hj. specialize (Hm j Hj).
  unfold lazy_weighted_variance_run in Hm. rewrite wmom_run_wmsum in Hm by auto. cbn in Hm. injection Hm as <-.
  now rewrite (vweight_sum_spec (s0 j) j).
Qed.

Lemma wvar_count s0 h : wv_count K (wvar_set_run K s0 (zero K) h) = length h.
Proof.
  unfold wvar_set_run. induction h as [|[x w] h IH] using rev_ind; auto.
  rewrite fold_left_app, app_length, Nat.add_1_r. cbn. now rewrite IH.
Qed.
Lemma wvar_weight s0 j h : wv_W K (wvar_set_run K s0 (zero K) (wcol j h)) = vweight_sum K (zero K) h.
Proof.
  unfold vweight_sum, wvar_set_run. induction h as [|[x w] h IH] using rev_ind; [reflexivity|].
  rewrite wcol_snoc, !fold_left_app. cbn. now rewrite <- IH.
Qed.
Lemma vwvar_set_spec d (s0 : nat -> T) h : WDim d h ->
  vwvar_set K (vector d s0) h
  = Ok (length h, vweight_sum K (zero K) h,
        vector d (fun j => wv_mean K (wvar_set_run K (s0 j) (zero K) (wcol j h))),
        vector d (fun j => wv_var K (wvar_set_run K (s0 j) (zero K) (wcol j h)))).
Proof.
  unfold vwvar_set. induction h as [|[x w] h IH] using rev_ind; intros H.
  - cbn. unfold vimm_weighted_mean_init, vweighted_variance_init. now rewrite vmuls_vector, !vdivs_vector.
  - apply WDim_snoc in H as [H Hx]. rewrite fold_left_app, IH by auto. cbn [fold_left].
    unfold vwvar_push. cbn [obnd fst snd]. unfold vimm_weighted_mean_op.
    rewrite (dim_vector (zero K) d x Hx) at 1. rewrite !vmuls_vector, vzip_vector. cbn [obnd].
    rewrite vdivs_vector. unfold vweighted_variance_op.
    assert (E : forall j, wvar_set_run K (s0 j) (zero K) (wcol j (h ++ [(x, w)]))
      = wvar_set_push K (wvar_set_run K (s0 j) (zero K) (wcol j h)) (nth j x (zero K), w)).
    { intros j. rewrite wcol_snoc. unfold wvar_set_run. now rewrite fold_left_app. }
    assert (EC : forall j, wv_count K (wvar_set_run K (s0 j) (zero K) (wcol j h)) = length h).
    { intros j. rewrite wvar_count. apply map_length. }
    assert (EW : vweight_sum K (zero K) (h ++ [(x, w)]) = add K (vweight_sum K (zero K) h) w).
    { unfold vweight_sum. now rewrite fold_left_app. }
    rewrite EW, app_length, Nat.add_1_r. destruct (Nat.ltb 1 (S (length h))) eqn:Hc.
    + rewrite (dim_vector (zero K) d x Hx) at 1. rewrite vzip_vector. cbn [obnd]. rewrite vzip_vector. cbn [obnd].
      rewrite !vmuls_vector, !vdivs_vector, vzip_vector. cbn [obnd]. f_equal. f_equal; [f_equal|].
      * apply vector_ext. intros j _. rewrite E. cbn. rewrite wvar_weight. reflexivity.
      * apply vector_ext. intros j _. rewrite E. cbn [wvar_set_push wv_var]. unfold weighted_variance_op. rewrite EC, Hc, wvar_weight. reflexivity.
    + cbn [obnd]. f_equal. f_equal; [f_equal|].
      * apply vector_ext. intros j _. rewrite E. cbn. rewrite wvar_weight. reflexivity.
      * apply vector_ext. intros j _. rewrite E. cbn [wvar_set_push wv_var]. unfold weighted_variance_op. rewrite EC, Hc. reflexivity.
Qed.
Lemma vwimean_run_spec d (s0 : nat -> T) h : WDim d h ->
  vwimean_run K (vector d s0) h = Ok (vector d (fun j => wv_mean K (wvar_set_run K (s0 j) (zero K) (wcol j h)))).
Proof. intros H. unfold vwimean_run. now rewrite vwvar_set_spec. Qed.
Lemma vwvar_run_spec d (s0 : nat -> T) h : WDim d h ->
  vwvar_run K (vector d s0) h = Ok (vector d (fun j => wv_var K (wvar_set_run K (s0 j) (zero K) (wcol j h)))).
Proof. intros H. unfold vwvar_run. now rewrite vwvar_set_spec. Qed.

(** Covariance *)
Local Notation z := (zero K).
Lemma mscale_matrix f d e g : mscale K f (matrix d e g) = matrix d e (fun i j => f (g i j)).
Proof. unfold mscale, matrix. rewrite map_vector. apply vector_ext. intros i _. apply map_vector. Qed.
Lemma outer_vector d e f g : outer K (vector d f) (vector e g) = matrix d e (fun i j => mul K (f i) (g j)).
Proof. unfold outer, matrix. rewrite map_vector. apply vector_ext. intros i _. apply map_vector. Qed.
Lemma mplus_matrix d e f g : mplus K (matrix d e f) (matrix d e g) = Ok (matrix d e (fun i j => add K (f i j) (g i j))).
Proof.
  unfold matrix, vector at 1 3 5. generalize (seq 0 d). induction l as [|i l IH]; [reflexivity|].
  cbn [map mplus]. rewrite !vector_length, Nat.eqb_refl, vzip_vector. cbn [obnd]. rewrite IH. reflexivity.
Qed.
Lemma matrix_ext {A} d e (f g : nat -> nat -> A) : (forall i j, i < d -> j < e -> f i j = g i j) -> matrix d e f = matrix d e g.
Proof. intros H. unfold matrix. apply vector_ext. intros i Hi. apply vector_ext. intros j Hj. now apply H. Qed.

Definition CDim d e (h : list (list T * list T)) := AllDim d (map fst h) /\ AllDim e (map snd h).
Lemma CDim_snoc d e h s v : CDim d e (h ++ [(s, v)]) -> CDim d e h /\ length s = d /\ length v = e.
Proof. unfold CDim. rewrite !map_app. intros [H1 H2]. apply AllDim_snoc in H1 as [? ?]. apply AllDim_snoc in H2 as [? ?]. auto. Qed.
Lemma cov_count s0 v0 l : cs_count K (cov_set_run K s0 v0 l) = length l.
Proof.
  unfold cov_set_run. induction l as [|[a b] l IH] using rev_ind; auto.
  rewrite fold_left_app, app_length, Nat.add_1_r. cbn. now rewrite IH.
Qed.
Lemma cov_sum s0 v0 l : cs_sum K (cov_set_run K s0 v0 l) = sum_run K s0 (map fst l).
Proof.
  unfold cov_set_run, sum_run. induction l as [|[a b] l IH] using rev_ind; auto.
  rewrite map_app, !fold_left_app. cbn. now rewrite IH.
Qed.
Lemma cov_sumv s0 v0 l : cs_sumv K (cov_set_run K s0 v0 l) = sum_run K v0 (map snd l).
Proof.
  unfold cov_set_run, sum_run. induction l as [|[a b] l IH] using rev_ind; auto.
  rewrite map_app, !fold_left_app. cbn. now rewrite IH.
Qed.
Lemma columns_fst i j (h : list (list T * list T)) : map fst (columns z i j h) = col i (map fst h).
Proof. unfold columns, column. rewrite !map_map. reflexivity. Qed.
Lemma columns_snd i j (h : list (list T * list T)) : map snd (columns z i j h) = col j (map snd h).
Proof. unfold columns, column. rewrite !map_map. reflexivity. Qed.
Lemma vsum_op_col d (s0 : nat -> T) xs x : length x = d ->
  vsum_op K (vector d (fun j => sum_run K (s0 j) (col j xs))) x = Ok (vector d (fun j => sum_run K (s0 j) (col j (xs ++ [x])))).
Proof.
  intros Hx. unfold vsum_op. rewrite (dim_vector z d x Hx) at 1. rewrite vplus_vector. f_equal.
  apply vector_ext. intros j _. rewrite col_snoc. unfold sum_run. rewrite fold_left_app. reflexivity.
Qed.

Lemma vcov_fold d h : CDim d d h ->
  fold_left (vcov_push K) h (Ok (0, vector d (fun _ => z), vector d (fun _ => z), vcov_init K (vector d (fun _ => z)) (vector d (fun _ => z))))
  = Ok (length h, vector d (fun j => sum_run K z (col j (map fst h))), vector d (fun j => sum_run K z (col j (map snd h))),
        matrix d d (fun i j => cs_cov K (cov_set_run K z z (columns z j i h)))).
Proof.
  induction h as [|[s v] h IH] using rev_ind; intros H.
  - cbn. unfold vcov_init. rewrite vdivs_vector, outer_vector. reflexivity.
  - apply CDim_snoc in H as (H & Hs & Hv). rewrite fold_left_app, IH by auto. cbn [fold_left].
    unfold vcov_push. cbn [obnd fst snd]. rewrite (vsum_op_col d (fun _ => z)) by auto. cbn [obnd].
    rewrite (vsum_op_col d (fun _ => z)) by auto. cbn [obnd].
    unfold vmean_result. rewrite !vdivs_vector. unfold vcov_op.
    assert (E : forall i j, cov_set_run K z z (columns z j i (h ++ [(s, v)]))
      = cov_set_push K (cov_set_run K z z (columns z j i h)) (nth j s z, nth i v z)).
    { intros i j. unfold columns, cov_set_run. now rewrite map_app, fold_left_app. }
    assert (EC : forall i j, cs_count K (cov_set_run K z z (columns z j i h)) = length h).
    { intros i j. rewrite cov_count. apply map_length. }
    rewrite app_length, Nat.add_1_r, !map_app. cbn [map fst snd]. destruct (Nat.ltb 1 (S (length h))) eqn:Hc.
    + rewrite (dim_vector z d v Hv) at 1. rewrite vzip_vector. cbn [obnd].
      rewrite (dim_vector z d s Hs) at 1. rewrite vzip_vector. cbn [obnd].
      rewrite mscale_matrix, outer_vector, mscale_matrix, mplus_matrix. cbn [obnd]. f_equal. f_equal.
      apply matrix_ext. intros i j _ _. rewrite E. cbn [cov_set_push cs_cov]. unfold covariance_op. rewrite EC, Hc.
      rewrite cov_sum, cov_sumv, columns_fst, columns_snd, !col_snoc. unfold mean_result, sum_run. rewrite !fold_left_app. reflexivity.
    + cbn [obnd]. f_equal. f_equal.
      apply matrix_ext. intros i j _ _. rewrite E. cbn [cov_set_push cs_cov]. unfold covariance_op. rewrite EC, Hc. reflexivity.
Qed.
Lemma vcov_run_spec d h : CDim d d h ->
  vcov_run K (vector d (fun _ => z)) (vector d (fun _ => z)) h
  = Ok (matrix d d (fun i j => cs_cov K (cov_set_run K z z (columns z j i h)))).
Proof. intros H. unfold vcov_run. now rewrite vcov_fold. Qed.

(** Different dimensions: undefined at the second sample *)
Lemma fold_cov_UB h : fold_left (vcov_push K) h UB = UB.
Proof. induction h; cbn; auto. Qed.
Lemma mplus_dims d e f g : d <> e -> mplus K (matrix d e f) (matrix e d g) = UB.
Proof.
  intros H. destruct d as [|d], e as [|e]; try congruence; try reflexivity.
  unfold matrix. unfold vector at 1 3. cbn [seq map mplus]. rewrite !vector_length.
  destruct (Nat.eqb_spec (S e) (S d)); [congruence|reflexivity].
Qed.
Lemma vcov_run_mismatch d e (s0 v0 : nat -> T) h : d <> e -> CDim d e h -> 2 <= length h ->
  vcov_run K (vector d s0) (vector e v0) h = UB.
Proof.
  intros Hne H Hl. destruct h as [|[s1 v1] [|[s2 v2] h]]; cbn in Hl; try lia.
  destruct H as [H1 H2]. inversion_clear H1 as [|? ? Hs1 H1']. inversion_clear H1' as [|? ? Hs2 _].
  inversion_clear H2 as [|? ? Hv1 H2']. inversion_clear H2' as [|? ? Hv2 _]. cbn [fst snd] in *.
  unfold vcov_run. cbn [fold_left]. unfold vcov_push at 3. cbn [obnd fst snd].
  rewrite (dim_vector z d s1 Hs1) at 1. unfold vsum_op at 1. rewrite vplus_vector. cbn [obnd].
  rewrite (dim_vector z e v1 Hv1) at 1. unfold vsum_op at 1. rewrite vplus_vector. cbn [obnd].
  unfold vcov_op at 1. cbn [Nat.ltb Nat.leb obnd]. unfold vcov_push at 2. cbn [obnd fst snd].
  rewrite (dim_vector z d s2 Hs2) at 1. unfold vsum_op at 1. rewrite vplus_vector. cbn [obnd].
  rewrite (dim_vector z e v2 Hv2) at 1. unfold vsum_op at 1. rewrite vplus_vector. cbn [obnd].
  unfold vcov_op at 1, vmean_result. cbn [Nat.ltb Nat.leb]. rewrite !vdivs_vector.
  rewrite (dim_vector z e v2 Hv2) at 1. rewrite vzip_vector. cbn [obnd].
  rewrite (dim_vector z d s2 Hs2) at 1. rewrite vzip_vector. cbn [obnd].
  unfold vcov_init. rewrite !vdivs_vector, !outer_vector, !mscale_matrix, mplus_dims by auto. cbn [obnd].
  rewrite fold_cov_UB. reflexivity.
Qed.

(** Mixed covariances *)
Lemma vscov_fold d (s0 : nat -> T) v0 h : WDim d h ->
  fold_left (vscov_push K) h (Ok (0, vector d s0, v0, vscov_init K (vector d s0) v0))
  = Ok (length h, vector d (fun j => sum_run K (s0 j) (col j (map fst h))), sum_run K v0 (map snd h),
        vector d (fun j => cs_cov K (cov_set_run K (s0 j) v0 (wcol j h)))).
Proof.
  induction h as [|[s v] h IH] using rev_ind; intros H.
  - cbn. unfold vscov_init. now rewrite vdivs_vector, vmuls_vector.
  - apply WDim_snoc in H as [H Hs]. rewrite fold_left_app, IH by auto. cbn [fold_left].
    unfold vscov_push. cbn [obnd fst snd]. rewrite vsum_op_col by auto. cbn [obnd].
    unfold vmean_result. rewrite !vdivs_vector. unfold vscov_op.
    assert (E : forall j, cov_set_run K (s0 j) v0 (wcol j (h ++ [(s, v)]))
      = cov_set_push K (cov_set_run K (s0 j) v0 (wcol j h)) (nth j s z, v)).
    { intros j. unfold wcolumn, cov_set_run. now rewrite map_app, fold_left_app. }
    assert (EC : forall j, cs_count K (cov_set_run K (s0 j) v0 (wcol j h)) = length h).
    { intros j. rewrite cov_count. apply map_length. }
    assert (E1 : forall j, map fst (wcol j h) = col j (map fst h)).
    { intros j. unfold wcolumn, column. now rewrite !map_map. }
    assert (E2 : forall j, map snd (wcol j h) = map snd h).
    { intros j. unfold wcolumn. now rewrite !map_map. }
    assert (ES : sum_run K v0 (map snd (h ++ [(s, v)])) = add K (sum_run K v0 (map snd h)) v).
    { unfold sum_run. now rewrite map_app, fold_left_app. }
    rewrite ES, app_length, Nat.add_1_r, !map_app. cbn [map fst snd]. destruct (Nat.ltb 1 (S (length h))) eqn:Hc.
    + rewrite (dim_vector z d s Hs) at 1. rewrite vzip_vector. cbn [obnd].
      rewrite vmuls_vector, smulv_vector, !vdivs_vector, vzip_vector. cbn [obnd]. f_equal. f_equal.
      apply vector_ext. intros j _. rewrite E. cbn [cov_set_push cs_cov]. unfold covariance_op. rewrite EC, Hc.
      rewrite cov_sum, cov_sumv, E1, E2, !col_snoc. unfold mean_result, sum_run. rewrite !fold_left_app. reflexivity.
    + cbn [obnd]. f_equal. f_equal.
      apply vector_ext. intros j _. rewrite E. cbn [cov_set_push cs_cov]. unfold covariance_op. rewrite EC, Hc. reflexivity.
Qed.
Lemma vscov_run_spec d (s0 : nat -> T) v0 h : WDim d h ->
  vscov_run K (vector d s0) v0 h = Ok (vector d (fun j => cs_cov K (cov_set_run K (s0 j) v0 (vscolumn z j h)))).
Proof. intros H. unfold vscov_run. now rewrite vscov_fold. Qed.

Definition SDim d (h : list (T * list T)) := AllDim d (map snd h).
Lemma svcov_fold d s0 (v0 : nat -> T) h : SDim d h ->
  fold_left (svcov_push K) h (Ok (0, s0, vector d v0, svcov_init K s0 (vector d v0)))
  = Ok (length h, sum_run K s0 (map fst h), vector d (fun j => sum_run K (v0 j) (col j (map snd h))),
        vector d (fun j => cs_cov K (cov_set_run K s0 (v0 j) (svcolumn z j h)))).
Proof.
  induction h as [|[s v] h IH] using rev_ind; intros H.
  - cbn. unfold svcov_init. now rewrite vdivs_vector, smulv_vector.
  - unfold SDim in H. rewrite map_app in H. apply AllDim_snoc in H as [H Hv]. cbn [snd] in Hv.
    rewrite fold_left_app, IH by auto. cbn [fold_left].
    unfold svcov_push. cbn [obnd fst snd]. rewrite vsum_op_col by auto. cbn [obnd].
    unfold vmean_result. rewrite !vdivs_vector. unfold svcov_op.
    assert (E : forall j, cov_set_run K s0 (v0 j) (svcolumn z j (h ++ [(s, v)]))
      = cov_set_push K (cov_set_run K s0 (v0 j) (svcolumn z j h)) (s, nth j v z)).
    { intros j. unfold svcolumn, cov_set_run. now rewrite map_app, fold_left_app. }
    assert (EC : forall j, cs_count K (cov_set_run K s0 (v0 j) (svcolumn z j h)) = length h).
    { intros j. rewrite cov_count. apply map_length. }
    assert (E1 : forall j, map snd (svcolumn z j h) = col j (map snd h)).
    { intros j. unfold svcolumn, column. now rewrite !map_map. }
    assert (E2 : forall j, map fst (svcolumn z j h) = map fst h).
    { intros j. unfold svcolumn. now rewrite !map_map. }
    assert (ES : sum_run K s0 (map fst (h ++ [(s, v)])) = add K (sum_run K s0 (map fst h)) s).
    { unfold sum_run. now rewrite map_app, fold_left_app. }
    rewrite ES, app_length, Nat.add_1_r, !map_app. cbn [map fst snd]. destruct (Nat.ltb 1 (S (length h))) eqn:Hc.
    + rewrite (dim_vector z d v Hv) at 1. rewrite vzip_vector. cbn [obnd].
      rewrite !vmuls_vector, !vdivs_vector, vzip_vector. cbn [obnd]. f_equal. f_equal.
      apply vector_ext. intros j _. rewrite E. cbn [cov_set_push cs_cov]. unfold covariance_op. rewrite EC, Hc.
      rewrite cov_sum, cov_sumv, E1, E2, !col_snoc. unfold mean_result, sum_run. rewrite !fold_left_app. reflexivity.
    + cbn [obnd]. f_equal. f_equal.
      apply vector_ext. intros j _. rewrite E. cbn [cov_set_push cs_cov]. unfold covariance_op. rewrite EC, Hc. reflexivity.
Qed.
Lemma svcov_run_spec d s0 (v0 : nat -> T) h : SDim d h ->
  svcov_run K s0 (vector d v0) h = Ok (vector d (fun j => cs_cov K (cov_set_run K s0 (v0 j) (svcolumn z j h)))).
Proof. intros H. unfold svcov_run. now rewrite svcov_fold. Qed.
End Ops.

Section Laws.
Variable K : Num.
Hypothesis HK : FieldLaws K.
Local Notation T := (car K).
Local Notation col := (column (zero K)).

Lemma vpow_spec (x : list T) n : 1 <= n -> vpow K x n = Ok (map (fun a => power K a n) x).
Proof. intros Hn. apply vpow_fuel_map. intros a. exact (npow_spec K HK a n Hn). Qed.
End Laws.
