(** Statistics of complex samples. *)
From Coq Require Import List Arith ZArith Bool Lia Field.
From Verif Require Import Num NumFacts SpecStats SpecComplex ModelBasic ModelRolling ModelNumeric ModelComplex
  ProofBasic ProofBasic2 ProofBasic3 ProofNumeric.
Import ListNotations.
Open Scope nat_scope.

(** ** Part by part, in any arithmetic *)
Section Parts.
Variable K : Num.
Local Notation T := (car K).
Local Notation C := (T * T)%type.

Lemma csum_parts (s0 : C) xs :
  csum_run K s0 xs = (sum_run K (fst s0) (real_parts xs), sum_run K (snd s0) (imaginary_parts xs)).
Proof.
  unfold csum_run, sum_run, sum_init, real_parts, imaginary_parts. revert s0.
  induction xs as [|x xs IH]; intros s0; [destruct s0; reflexivity|]. cbn [map fold_left]. now rewrite IH.
Qed.
Lemma ckahan_parts (s0 : C) xs :
  ckahan_run K s0 xs
  = ((fst (kahan_run K (fst s0) (real_parts xs)), fst (kahan_run K (snd s0) (imaginary_parts xs))),
     (snd (kahan_run K (fst s0) (real_parts xs)), snd (kahan_run K (snd s0) (imaginary_parts xs)))).
Proof.
  unfold ckahan_run, kahan_run, kahan_init, real_parts, imaginary_parts.
  assert (H : forall a b : T * T, fold_left (ckahan_op K) xs ((fst a, fst b), (snd a, snd b))
    = ((fst (fold_left (kahan_op K) (map fst xs) a), fst (fold_left (kahan_op K) (map snd xs) b)),
       (snd (fold_left (kahan_op K) (map fst xs) a), snd (fold_left (kahan_op K) (map snd xs) b)))).
  { induction xs as [|x xs IH]; intros a b; [reflexivity|]. cbn [map fold_left].
    rewrite <- IH. f_equal. destruct a as [s c], b as [s' c']. reflexivity. }
  specialize (H (fst s0, zero K) (snd s0, zero K)). cbn [fst snd] in H. rewrite <- H. destruct s0; reflexivity.
Qed.
Lemma mean_set_count (s0 : T) xs : ms_count K (mean_set_run K s0 xs) = length xs /\ ms_sum K (mean_set_run K s0 xs) = sum_run K s0 xs.
Proof.
  unfold mean_set_run, sum_run. induction xs as [|x xs [IH1 IH2]] using rev_ind; [split; reflexivity|].
  rewrite !fold_left_app, app_length. cbn [fold_left]. unfold mean_set_push at 1 3. cbn [ms_count ms_sum]. rewrite IH1, IH2.
  cbn [length]. split; [lia|reflexivity].
Qed.
Lemma cmean_parts (s0 : C) xs :
  cmean_run K s0 xs = (mean_set_mean K (mean_set_run K (fst s0) (real_parts xs)),
                       mean_set_mean K (mean_set_run K (snd s0) (imaginary_parts xs))).
Proof.
  unfold cmean_run, mean_set_mean, mean_result. rewrite csum_parts.
  destruct (mean_set_count (fst s0) (real_parts xs)) as [-> ->], (mean_set_count (snd s0) (imaginary_parts xs)) as [-> ->].
  unfold real_parts, imaginary_parts. rewrite !map_length. reflexivity.
Qed.
Lemma cvar_mean_parts (s0 : C) xs :
  fst (fst (cvar_run K s0 xs)) = length xs
  /\ im_count K (imean_set_run K (fst s0) (real_parts xs)) = length xs
  /\ im_count K (imean_set_run K (snd s0) (imaginary_parts xs)) = length xs
  /\ cvar_mean K (cvar_run K s0 xs) = (im_mean K (imean_set_run K (fst s0) (real_parts xs)),
                                      im_mean K (imean_set_run K (snd s0) (imaginary_parts xs))).
Proof.
  unfold cvar_mean, cvar_run, imean_set_run, real_parts, imaginary_parts.
  induction xs as [|x xs (I0 & I1 & I2 & I3)] using rev_ind; [repeat split; reflexivity|].
  rewrite !map_app, !fold_left_app, app_length. cbn [map fold_left length].
  destruct (fold_left (cvar_push K) xs _) as [[n m] v] eqn:E. cbn [fst snd] in *.
  set (r := fold_left (imean_set_push K) (map fst xs) _) in *. set (i := fold_left (imean_set_push K) (map snd xs) _) in *.
  unfold cvar_push, imean_set_push. cbn [im_count im_mean fst snd]. rewrite I0, I1, I2, I3.
  repeat split; lia.
Qed.
Lemma weight_sum_real (f : C -> T) (h : list (C * T)) :
  cweight_sum K h = wm_W K (wmean_set_run K (zero K) (zero K) (map (fun p => (f (fst p), snd p)) h)).
Proof.
  unfold cweight_sum, wmean_set_run. induction h as [|p h IH] using rev_ind; [reflexivity|].
  rewrite map_app, !fold_left_app. cbn [map fold_left]. unfold wmean_set_push at 1. cbn [wm_W fst snd]. now rewrite <- IH.
Qed.
Lemma cweighted_sum_parts (s0 : C) h :
  cweighted_sum_run K s0 h = (wm_sum K (wmean_set_run K (fst s0) (zero K) (weighted_real_parts h)),
                              wm_sum K (wmean_set_run K (snd s0) (zero K) (weighted_imaginary_parts h))).
Proof.
  unfold cweighted_sum_run, wmean_set_run, weighted_real_parts, weighted_imaginary_parts.
  induction h as [|p h IH] using rev_ind; [reflexivity|].
  rewrite !map_app, !fold_left_app. cbn [map fold_left]. rewrite IH. reflexivity.
Qed.
Lemma wm_W_start (s s' : T) h : wm_W K (wmean_set_run K s (zero K) h) = wm_W K (wmean_set_run K s' (zero K) h).
Proof.
  unfold wmean_set_run. induction h as [|p h IH] using rev_ind; [reflexivity|].
  rewrite !fold_left_app. cbn [fold_left]. unfold wmean_set_push at 1 3. cbn [wm_W]. now rewrite IH.
Qed.
Lemma cweighted_mean_parts (s0 : C) h :
  cweighted_mean_run K s0 h = (wmean_set_mean K (wmean_set_run K (fst s0) (zero K) (weighted_real_parts h)),
                               wmean_set_mean K (wmean_set_run K (snd s0) (zero K) (weighted_imaginary_parts h))).
Proof.
  unfold cweighted_mean_run, wmean_set_mean, weighted_mean_result. rewrite cweighted_sum_parts.
  rewrite (wm_W_start (fst s0) (zero K) (weighted_real_parts h)), (wm_W_start (snd s0) (zero K) (weighted_imaginary_parts h)).
  unfold weighted_real_parts, weighted_imaginary_parts. rewrite <- (weight_sum_real fst h), <- (weight_sum_real snd h). reflexivity.
Qed.
Lemma cwvar_mean_parts (s0 : C) h :
  let s := cwvar_run K s0 h in
  let r := wvar_set_run K (fst s0) (zero K) (weighted_real_parts h) in
  let i := wvar_set_run K (snd s0) (zero K) (weighted_imaginary_parts h) in
  fst (fst (fst s)) = length h /\ wv_count K r = length h /\ wv_count K i = length h
  /\ wv_W K r = snd (fst (fst s)) /\ wv_W K i = snd (fst (fst s)) /\ snd (fst s) = (wv_mean K r, wv_mean K i).
Proof.
  cbv zeta. unfold cwvar_run, wvar_set_run, weighted_real_parts, weighted_imaginary_parts.
  induction h as [|[x w] h (I0 & I1 & I2 & I3 & I4 & I5)] using rev_ind; [repeat split; reflexivity|].
  rewrite !map_app, !fold_left_app, app_length. cbn [map fold_left length].
  destruct (fold_left (cwvar_push K) h _) as [[[n W] m] v] eqn:E. cbn [fst snd] in *.
  set (r := fold_left (wvar_set_push K) (map (fun p => (fst (fst p), snd p)) h) _) in *.
  set (i := fold_left (wvar_set_push K) (map (fun p => (snd (fst p), snd p)) h) _) in *.
  unfold cwvar_push, wvar_set_push. cbn [wv_count wv_W wv_mean fst snd]. rewrite I0, I1, I2, I3, I4, I5.
  repeat split; lia.
Qed.

Lemma cb_push_map {A B} (f : A -> B) cap buf x : cb_push cap (map f buf) (f x) = map f (cb_push cap buf x).
Proof.
  unfold cb_push. rewrite map_length. destruct (length buf =? cap); [|now rewrite map_app].
  destruct buf; cbn [map]; now rewrite ?map_app.
Qed.
Lemma crolling_parts N M (s0 : C) xs r i :
  roll_run K N M (fst s0) (real_parts xs) = Some r -> roll_run K N M (snd s0) (imaginary_parts xs) = Some i ->
  exists buf, crolling_run K N s0 xs = Some (buf, (ro_sum K r, ro_sum K i))
    /\ ro_buf K r = map fst buf /\ ro_buf K i = map snd buf.
Proof.
  unfold roll_run, crolling_run, real_parts, imaginary_parts. revert r i.
  induction xs as [|x xs IH] using rev_ind; intros r i.
  - cbn [map fold_left]. intros [= <-] [= <-]. exists []. destruct s0; repeat split; reflexivity.
  - rewrite !map_app, !fold_left_app. cbn [map fold_left].
    destruct (fold_left (roll_push K N M) (map fst xs) _) as [r'|]; [|discriminate].
    destruct (fold_left (roll_push K N M) (map snd xs) _) as [i'|]; [|discriminate].
    intros Hr Hi. destruct (IH r' i' eq_refl eq_refl) as (buf & -> & Br & Bi). clear IH.
    unfold roll_push in Hr, Hi. rewrite Br in Hr. rewrite Bi in Hi.
    unfold rwp1_op in Hr, Hi. rewrite cb_push_map in Hr, Hi. fold (rwp1_op N buf x) in Hr, Hi.
    unfold crolling_push.
    set (b := rwp1_op N buf x) in *.
    assert (Er : exists sr, rolling_sum_op K N (map fst b) (ro_sum K r') (fst x) = Some sr
                 /\ ro_sum K r = sr /\ ro_buf K r = map fst b).
    { destruct (rolling_sum_op K N (map fst b) (ro_sum K r') (fst x)) as [sr|]; [|discriminate Hr]. exists sr. split; [reflexivity|].
      destruct (rolling_moment_op K M N (map fst b) _ _); [|discriminate Hr].
      destruct (rolling_moment_op K 2 N (map fst b) _ _); [|discriminate Hr].
      destruct (immediate_rolling_mean_op K N (map fst b) _ _); [|discriminate Hr].
      destruct (rolling_variance_op K N (map fst b) _ _ _); [|discriminate Hr].
      injection Hr as <-. split; reflexivity. }
    assert (Ei : exists si, rolling_sum_op K N (map snd b) (ro_sum K i') (snd x) = Some si
                 /\ ro_sum K i = si /\ ro_buf K i = map snd b).
    { destruct (rolling_sum_op K N (map snd b) (ro_sum K i') (snd x)) as [si|]; [|discriminate Hi]. exists si. split; [reflexivity|].
      destruct (rolling_moment_op K M N (map snd b) _ _); [|discriminate Hi].
      destruct (rolling_moment_op K 2 N (map snd b) _ _); [|discriminate Hi].
      destruct (immediate_rolling_mean_op K N (map snd b) _ _); [|discriminate Hi].
      destruct (rolling_variance_op K N (map snd b) _ _ _); [|discriminate Hi].
      injection Hi as <-. split; reflexivity. }
    destruct Er as (sr & Sr & -> & ->), Ei as (si & Si & -> & ->).
    unfold rolling_sum_op, rwp1_full, cb_full in Sr, Si. rewrite map_length in Sr, Si. unfold rwp1_full, cb_full.
    destruct (Nat.eqb (length b) (N + 1)).
    + destruct b as [|f b]; [discriminate Sr|]. cbn [map] in Sr, Si. injection Sr as <-. injection Si as <-.
      exists (f :: b). repeat split; reflexivity.
    + injection Sr as <-. injection Si as <-. exists b. repeat split; reflexivity.
Qed.
Lemma rolling_count_map {A B} (f : A -> B) N buf : rolling_count_result N (map f buf) = rolling_count_result N buf.
Proof. unfold rolling_count_result, rwp1_full, cb_full. now rewrite ?map_length. Qed.
Lemma crolling_parts_all N M (s0 : C) xs r i :
  roll_run K N M (fst s0) (real_parts xs) = Some r -> roll_run K N M (snd s0) (imaginary_parts xs) = Some i ->
  exists s, crolling_run K N s0 xs = Some s /\ snd s = (ro_sum K r, ro_sum K i)
    /\ crolling_mean K N s = (ro_lazy_mean K N r, ro_lazy_mean K N i).
Proof.
  intros Hr Hi. destruct (crolling_parts N M s0 xs r i Hr Hi) as (buf & E & Br & Bi).
  eexists. split; [exact E|]. split; [reflexivity|].
  unfold crolling_mean, ro_lazy_mean, lazy_rolling_mean_result, ro_count. rewrite Br, Bi, !rolling_count_map. reflexivity.
Qed.
End Parts.

(** ** In exact arithmetic *)
Section Laws.
Variable K : Num.
Hypothesis HO : OrderedLaws K.
Local Notation T := (car K).
Local Notation C := (T * T)%type.
Let HK := ord_field K HO.
Let CK := complex_field K HO.
Add Field Kf : (fl_field K HK).

Lemma cmuls_mul c u : cmuls K c u = cmul K c (u, zero K).
Proof. unfold cmuls, cmul. cbn [fst snd]. f_equal; ring. Qed.
Lemma cdivs_div c u : u <> zero K -> cdivs K c u = cdiv K c (u, zero K).
Proof.
  intros Hu. unfold cdivs, cdiv, cinv, cmul, cnorm. cbn [fst snd].
  f_equal; field; auto.
Qed.
Lemma cdivs_one c : cdivs K c (one K) = cdiv K c (one K, zero K).
Proof. apply cdivs_div. exact (F_1_neq_0 (fl_field K HK)). Qed.
Lemma ofnat_nz n : n <> 0 -> ofnat K n <> zero K.
Proof. destruct n; [congruence|]. intros _. apply (fl_char0 K HK). Qed.

Definition same_var (s : nat * C * C) (t : var_set (ComplexN K)) : Prop :=
  fst (fst s) = vs_count (ComplexN K) t /\ snd (fst s) = vs_mean (ComplexN K) t /\ snd s = vs_var (ComplexN K) t.
Lemma cvar_push_eq s t x : same_var s t -> same_var (cvar_push K s x) (var_set_push (ComplexN K) t x).
Proof.
  destruct s as [[n m] v]. intros (I1 & I2 & I3). cbn [fst snd] in *. subst n m v.
  unfold cvar_push, var_set_push, same_var. cbn [fst snd vs_count vs_mean vs_var].
  assert (E : cimm_mean_op K (vs_mean (ComplexN K) t) (S (vs_count (ComplexN K) t)) x
    = imm_mean_op (ComplexN K) (vs_mean (ComplexN K) t) (S (vs_count (ComplexN K) t)) x).
  { unfold cimm_mean_op, imm_mean_op. rewrite !(cof_nat K HO), cmuls_mul, cdivs_div by (apply (fl_char0 K HK)). reflexivity. }
  rewrite E. repeat split. unfold cvariance_op, variance_op.
  destruct (Nat.ltb_spec 1 (S (vs_count (ComplexN K) t))) as [Hc|Hc]; [|reflexivity].
  rewrite !(cof_nat K HO), cmuls_mul, (cdivs_div _ (ofnat K (S _))) by (apply (fl_char0 K HK)).
  rewrite cdivs_div by (apply ofnat_nz; lia). reflexivity.
Qed.
Lemma cvar_run_eq s0 xs : same_var (cvar_run K s0 xs) (var_set_run (ComplexN K) s0 xs).
Proof.
  unfold cvar_run, var_set_run.
  assert (H : same_var (0, cdivs K s0 (one K), cdivs K s0 (one K)) (var_set_init (ComplexN K) s0))
    by (rewrite cdivs_one; repeat split; reflexivity).
  revert H. generalize (0, cdivs K s0 (one K), cdivs K s0 (one K)), (var_set_init (ComplexN K) s0).
  induction xs as [|x xs IH]; intros s t H; [exact H|]. cbn [fold_left]. apply IH. now apply cvar_push_eq.
Qed.
Lemma cmoment_run_eq N s0 xs : xs <> [] -> cmoment_run K N s0 xs = moment_run (ComplexN K) N s0 xs.
Proof.
  intros Hne. unfold cmoment_run, moment_run, mom_set_run.
  match goal with |- match fold_left ?f _ _ with _ => _ end = _ => set (g := f) end.
  assert (H : forall xs, match fold_left g xs (Some s0) with
              | Some s => exists t, fold_left (mom_set_push (ComplexN K) [N]) xs (Some (mom_set_init (ComplexN K) [N] s0)) = Some t
                   /\ mo_sums (ComplexN K) t = [s] /\ mo_count (ComplexN K) t = length xs
              | None => fold_left (mom_set_push (ComplexN K) [N]) xs (Some (mom_set_init (ComplexN K) [N] s0)) = None end).
  { clear. intros xs. induction xs as [|x xs IH] using rev_ind.
    - cbn [fold_left]. eexists. repeat split; reflexivity.
    - rewrite !fold_left_app, app_length. cbn [fold_left length]. destruct (fold_left g xs (Some s0)) as [s|].
      + destruct IH as (t & -> & Es & Ec). unfold g at 1. unfold mom_set_push. rewrite Es. unfold moment_ops, moment_op.
        destruct (npow (ComplexN K) x N) as [p|]; [|reflexivity].
        eexists. split; [reflexivity|]. cbn [mo_sums mo_count]. split; [reflexivity|lia].
      + rewrite IH. reflexivity. }
  specialize (H xs). destruct (fold_left g xs (Some s0)) as [s|].
  - destruct H as (t & -> & Es & Ec). unfold mom_set_moment. rewrite Es, Ec. cbn [nth_error]. unfold moment_result.
    rewrite (cof_nat K HO), cdivs_div; [reflexivity|]. apply ofnat_nz. destruct xs; [congruence|discriminate].
  - now rewrite H.
Qed.
Lemma complex_power_eq z n : complex_power K z n = power (ComplexN K) z n.
Proof. induction n as [|n IH]; [reflexivity|]. cbn [complex_power power]. rewrite IH. unfold ComplexN at 1. cbn [mul]. reflexivity. Qed.

Lemma complex_average {A} (f : A -> C) l : l <> [] ->
  average (ComplexN K) f l = (average K (fun a => fst (f a)) l, average K (fun a => snd (f a)) l).
Proof.
  intros Hne. unfold average. rewrite complex_total, (cof_nat K HO).
  change (div (ComplexN K)) with (cdiv K). rewrite <- cdivs_div; [reflexivity|]. apply ofnat_nz. destruct l; [congruence|discriminate].
Qed.
Lemma complex_moment N xs : 1 <= N -> xs <> [] ->
  cmoment_run K N (zero K, zero K) xs
  = Some (average K (fun z => fst (complex_power K z N)) xs, average K (fun z => snd (complex_power K z N)) xs).
Proof.
  intros HN Hne. rewrite (cmoment_run_eq N _ xs Hne). change (zero K, zero K) with (zero (ComplexN K)).
  rewrite (moment_run_spec (ComplexN K) CK N xs HN). f_equal. unfold Moment.
  rewrite (complex_average _ xs Hne). f_equal; apply (f_equal (fun t => div K t _)); apply total_ext; intros z _; now rewrite complex_power_eq.
Qed.
Lemma average_map {A B} (f : B -> T) (g : A -> B) l : average K f (map g l) = average K (fun a => f (g a)) l.
Proof. unfold average. now rewrite total_map, map_length. Qed.
Lemma average_sub {A} (f g : A -> T) l : l <> [] ->
  average K (fun a => sub K (f a) (g a)) l = sub K (average K f l) (average K g l).
Proof.
  intros Hne. unfold average. replace (total K (fun a => sub K (f a) (g a)) l) with (sub K (total K f l) (total K g l)).
  - field. apply ofnat_nz. destruct l; [congruence|discriminate].
  - clear - HK. induction l as [|a l IH]; rewrite ?total_nil, ?total_cons; [|rewrite <- IH]; ring.
Qed.
Lemma average_add {A} (f g : A -> T) l : l <> [] ->
  average K (fun a => add K (f a) (g a)) l = add K (average K f l) (average K g l).
Proof.
  intros Hne. unfold average. replace (total K (fun a => add K (f a) (g a)) l) with (add K (total K f l) (total K g l)).
  - field. apply ofnat_nz. destruct l; [congruence|discriminate].
  - clear - HK. induction l as [|a l IH]; rewrite ?total_nil, ?total_cons; [|rewrite <- IH]; ring.
Qed.
Lemma average_ext {A} (f g : A -> T) l : (forall a, f a = g a) -> average K f l = average K g l.
Proof. intros H. unfold average. apply (f_equal (fun t => div K t _)). apply total_ext. intros a _. apply H. Qed.

Definition two_covariance (xs : list C) : T := add K (Covariance K xs) (Covariance K xs).
Lemma complex_Variance (xs : list C) : xs <> [] ->
  Variance (ComplexN K) xs
  = (sub K (Variance K (real_parts xs)) (Variance K (imaginary_parts xs)), two_covariance xs).
Proof.
  intros Hne. unfold Variance, CentralMoment. rewrite (complex_mean K HO xs Hne), (complex_average _ xs Hne). f_equal.
  - unfold real_parts, imaginary_parts. rewrite !average_map, <- (average_sub _ _ xs Hne).
    apply average_ext. intros z. cbn [power]. unfold ComplexN. cbn [mul sub one]. unfold cmul, csub. cbn [fst snd]. ring.
  - unfold two_covariance, Covariance. rewrite <- (average_add _ _ xs Hne). apply average_ext. intros z. cbn [power].
    unfold ComplexN. cbn [mul sub one]. unfold cmul, csub. cbn [fst snd]. ring.
Qed.
Lemma cvar_spec (xs : list C) : xs <> [] ->
  cvar_variance K (cvar_run K (zero K, zero K) xs)
  = (sub K (Variance K (real_parts xs)) (Variance K (imaginary_parts xs)), two_covariance xs).
Proof.
  intros Hne. unfold cvar_variance. rewrite (proj2 (proj2 (cvar_run_eq (zero K, zero K) xs))).
  change (zero K, zero K) with (zero (ComplexN K)). rewrite (var_run_spec (ComplexN K) CK xs Hne). now apply complex_Variance.
Qed.
Lemma cmean_run_eq xs : xs <> [] -> cmean_run K (zero K, zero K) xs = Mean (ComplexN K) xs.
Proof.
  intros Hne. rewrite (cmean_parts K). cbn [fst snd]. rewrite !(mean_set_spec K HK). now rewrite (complex_mean K HO xs Hne).
Qed.
Lemma clazy_variance_spec (xs : list C) : xs <> [] ->
  clazy_variance_run K (zero K, zero K) xs
  = Some (sub K (Variance K (real_parts xs)) (Variance K (imaginary_parts xs)), two_covariance xs).
Proof.
  intros Hne. unfold clazy_variance_run. rewrite (cmoment_run_eq 2 _ xs Hne), (cmean_run_eq xs Hne).
  change (zero K, zero K) with (zero (ComplexN K)).
  rewrite (moment_run_spec (ComplexN K) CK 2 xs) by lia. f_equal.
  rewrite <- (complex_Variance xs Hne), (avg_sub_raw2 (ComplexN K) CK xs Hne). reflexivity.
Qed.

(** *** Weighted *)
Definition emb (p : C * T) : C * C := (fst p, (snd p, zero K)).
Definition same_wvar (s : nat * T * C * C) (t : wvar_set (ComplexN K)) : Prop :=
  let '(n, W, m, v) := s in
  n = wv_count (ComplexN K) t /\ (W, zero K) = wv_W (ComplexN K) t /\ m = wv_mean (ComplexN K) t /\ v = wv_var (ComplexN K) t.
Lemma csub_real a b : (sub K a b, zero K) = csub K (a, zero K) (b, zero K).
Proof. unfold csub. cbn [fst snd]. f_equal. ring. Qed.
Lemma cwvar_push_eq n W m v t (p : C * T) : same_wvar (n, W, m, v) t ->
  add K W (snd p) <> zero K -> (n <> 0 -> W <> zero K) ->
  same_wvar (cwvar_push K (n, W, m, v) p) (wvar_set_push (ComplexN K) t (emb p)).
Proof.
  intros (I1 & I2 & I3 & I4) HW HW'. subst n m v. destruct p as [x w]. cbn [snd] in *.
  unfold cwvar_push, wvar_set_push, same_wvar, emb. cbn [fst snd wv_count wv_W wv_mean wv_var].
  assert (EW : (add K W w, zero K) = sum_op (ComplexN K) (wv_W (ComplexN K) t) (w, zero K)).
  { unfold sum_op. rewrite <- I2. unfold ComplexN, cadd. cbn [add fst snd]. f_equal. ring. }
  split; [reflexivity|]. split; [exact EW|]. rewrite <- EW.
  assert (E : cimm_weighted_mean_op K (wv_mean (ComplexN K) t) (add K W w) x w
    = imm_weighted_mean_op (ComplexN K) (wv_mean (ComplexN K) t) (add K W w, zero K) x (w, zero K)).
  { unfold cimm_weighted_mean_op, imm_weighted_mean_op. rewrite !cmuls_mul, cdivs_div, csub_real by exact HW. reflexivity. }
  rewrite E. split; [reflexivity|]. unfold cweighted_variance_op, weighted_variance_op.
  destruct (Nat.ltb_spec 1 (S (wv_count (ComplexN K) t))) as [Hc|Hc]; [|reflexivity].
  assert (HW2 : sub K (add K W w) w <> zero K).
  { replace (sub K (add K W w) w) with W by ring. apply HW'. lia. }
  rewrite !cmuls_mul, (cdivs_div _ (add K W w)), (cdivs_div _ (sub K (add K W w) w)), csub_real by assumption. reflexivity.
Qed.
Lemma cwvar_W_run s0 h :
  exists m v, cwvar_run K s0 h = (length h, total K snd h, m, v).
Proof.
  unfold cwvar_run. induction h as [|p h (m & v & IH)] using rev_ind.
  - eexists _, _. reflexivity.
  - rewrite fold_left_app, IH, app_length, (total_app K HK). cbn [fold_left length]. unfold cwvar_push.
    rewrite total_cons, total_nil. replace (length h + 1) with (S (length h)) by lia.
    replace (add K (snd p) (zero K)) with (snd p) by ring. eexists _, _. reflexivity.
Qed.
Lemma prefix_app {A} (h : list (A * T)) p : PrefixWeightsNonzero K (h ++ [p]) ->
  PrefixWeightsNonzero K h /\ add K (total K snd h) (snd p) <> zero K /\ (length h <> 0 -> total K snd h <> zero K).
Proof.
  intros H. split; [|split].
  - intros a b E Ha. apply (H a (b ++ [p])); [now rewrite E, <- app_assoc|exact Ha].
  - assert (Hn : h ++ [p] <> []) by (intros E; apply app_eq_nil in E; destruct E; discriminate).
    pose proof (H (h ++ [p]) [] (eq_sym (app_nil_r _)) Hn) as H1.
    unfold TotalWeight in H1. rewrite (total_app K HK), total_cons, total_nil in H1.
    intros E. apply H1. transitivity (add K (total K snd h) (snd p)); [ring|exact E].
  - intros Hl. apply (H h [p] eq_refl). intros ->. now apply Hl.
Qed.
Lemma cwvar_run_eq s0 h : PrefixWeightsNonzero K h ->
  same_wvar (cwvar_run K s0 h) (wvar_set_run (ComplexN K) s0 (zero K, zero K) (map emb h)).
Proof.
  induction h as [|p h IH] using rev_ind; intros Hw.
  - cbn [map]. unfold cwvar_run, wvar_set_run. cbn [fold_left]. unfold same_wvar, wvar_set_init.
    cbn [wv_count wv_W wv_mean wv_var]. unfold imm_weighted_mean_init, weighted_variance_init.
    rewrite cmuls_mul, !cdivs_one. repeat split; reflexivity.
  - destruct (prefix_app h p Hw) as (H1 & H2 & H3). specialize (IH H1).
    destruct (cwvar_W_run s0 h) as (m & v & E). rewrite E in IH.
    assert (E1 : cwvar_run K s0 (h ++ [p]) = cwvar_push K (length h, total K snd h, m, v) p).
    { unfold cwvar_run in *. rewrite fold_left_app, E. reflexivity. }
    assert (E2 : wvar_set_run (ComplexN K) s0 (zero K, zero K) (map emb (h ++ [p]))
      = wvar_set_push (ComplexN K) (wvar_set_run (ComplexN K) s0 (zero K, zero K) (map emb h)) (emb p)).
    { rewrite map_app. unfold wvar_set_run. rewrite fold_left_app. reflexivity. }
    rewrite E1, E2. now apply cwvar_push_eq.
Qed.
Lemma emb_total {A} (h : list (A * T)) :
  total (ComplexN K) snd (map (fun p : A * T => (fst p, (snd p, zero K))) h) = (total K snd h, zero K).
Proof.
  rewrite total_map, complex_total. cbn [fst snd]. f_equal.
  clear - HK. induction h as [|a h IH]; [reflexivity|]. rewrite total_cons, IH. ring.
Qed.
Lemma emb_prefix (h : list (C * T)) : PrefixWeightsNonzero K h -> PrefixWeightsNonzero (ComplexN K) (map emb h).
Proof.
  intros H p q E Hp. apply map_eq_app in E. destruct E as (a & b & -> & <- & <-).
  unfold TotalWeight, emb. rewrite emb_total. intros E. injection E as E.
  refine (H a b eq_refl _ E). intros ->. now apply Hp.
Qed.
Lemma complex_waverage (f : C -> C) (h : list (C * T)) : TotalWeight K h <> zero K ->
  waverage (ComplexN K) f (map emb h)
  = (div K (total K (fun p => mul K (snd p) (fst (f (fst p)))) h) (TotalWeight K h),
     div K (total K (fun p => mul K (snd p) (snd (f (fst p)))) h) (TotalWeight K h)).
Proof.
  intros HW. unfold waverage, TotalWeight, emb in *. rewrite emb_total, total_map, complex_total.
  change (div (ComplexN K)) with (cdiv K). rewrite <- cdivs_div by exact HW. unfold cdivs. cbn [fst snd].
  f_equal; apply (f_equal (fun t => div K t _)); apply total_ext; intros p _; unfold ComplexN, cmul; cbn [mul fst snd]; ring.
Qed.
Lemma parts_waverage (f : T -> T) (g : C -> T) (h : list (C * T)) :
  waverage K f (map (fun p => (g (fst p), snd p)) h)
  = div K (total K (fun p => mul K (snd p) (f (g (fst p)))) h) (TotalWeight K h).
Proof. unfold waverage, TotalWeight. rewrite !total_map. reflexivity. Qed.
Lemma complex_WMean (h : list (C * T)) : TotalWeight K h <> zero K ->
  WMean (ComplexN K) (map emb h) = (WMean K (weighted_real_parts h), WMean K (weighted_imaginary_parts h)).
Proof.
  intros HW. unfold WMean, weighted_real_parts, weighted_imaginary_parts.
  rewrite (complex_waverage _ h HW), (parts_waverage _ fst h), (parts_waverage _ snd h). reflexivity.
Qed.
Lemma total_lin {A} (f g : A -> T) l : sub K (total K f l) (total K g l) = total K (fun a => sub K (f a) (g a)) l
  /\ add K (total K f l) (total K g l) = total K (fun a => add K (f a) (g a)) l.
Proof.
  clear - HK. induction l as [|a l [IH1 IH2]]; [split; rewrite !total_nil; ring|]. rewrite !total_cons, <- IH1, <- IH2. split; ring.
Qed.
Lemma Rdiv_sub a b c : c <> zero K -> div K (sub K a b) c = sub K (div K a c) (div K b c).
Proof. intros Hc. field. exact Hc. Qed.
Lemma Rdiv_add a b c : c <> zero K -> div K (add K a b) c = add K (div K a c) (div K b c).
Proof. intros Hc. field. exact Hc. Qed.
Lemma complex_WVariance (h : list (C * T)) : TotalWeight K h <> zero K ->
  WVariance (ComplexN K) (map emb h)
  = (sub K (WVariance K (weighted_real_parts h)) (WVariance K (weighted_imaginary_parts h)),
     add K (WCovariance K h) (WCovariance K h)).
Proof.
  intros HW. unfold WVariance, WCentralMoment. rewrite (complex_WMean h HW), (complex_waverage _ h HW).
  assert (M1 : WMean K (weighted_real_parts h) = waverage K fst h).
  { unfold WMean, weighted_real_parts. now rewrite (parts_waverage _ fst h). }
  assert (M2 : WMean K (weighted_imaginary_parts h) = waverage K snd h).
  { unfold WMean, weighted_imaginary_parts. now rewrite (parts_waverage _ snd h). }
  rewrite M1, M2. unfold weighted_real_parts, weighted_imaginary_parts.
  rewrite (parts_waverage _ fst h), (parts_waverage _ snd h). f_equal.
  - rewrite <- (Rdiv_sub (total K _ h) (total K _ h) _ HW), (proj1 (total_lin _ _ h)).
    apply (f_equal (fun t => div K t _)), total_ext. intros p _. cbn [power]. unfold ComplexN. cbn [mul sub one]. unfold cmul, csub. cbn [fst snd]. ring.
  - assert (EC : WCovariance K h = div K (total K (fun p => mul K (snd p) (mul K (sub K (fst (fst p)) (waverage K fst h))
        (sub K (snd (fst p)) (waverage K snd h)))) h) (TotalWeight K h)) by reflexivity.
    rewrite EC. rewrite <- (Rdiv_add (total K _ h) (total K _ h) _ HW), (proj2 (total_lin _ _ h)).
    apply (f_equal (fun t => div K t _)), total_ext. intros p _. cbn [power]. unfold ComplexN. cbn [mul sub one]. unfold cmul, csub. cbn [fst snd]. ring.
Qed.
Lemma cwvar_spec (h : list (C * T)) : h <> [] -> PrefixWeightsNonzero K h ->
  snd (cwvar_run K (zero K, zero K) h)
  = (sub K (WVariance K (weighted_real_parts h)) (WVariance K (weighted_imaginary_parts h)),
     add K (WCovariance K h) (WCovariance K h)).
Proof.
  intros Hne Hw. pose proof (cwvar_run_eq (zero K, zero K) h Hw) as E.
  destruct (cwvar_run K (zero K, zero K) h) as [[[n W] m] v]. cbn [snd]. destruct E as (_ & _ & _ & ->).
  assert (Hne' : map emb h <> []) by (destruct h; [congruence|discriminate]).
  assert (HN : 1 <= 1) by lia.
  pose proof (weighted_all (ComplexN K) CK (map emb h) (fun x => x) 1 Hne' HN (emb_prefix h Hw)) as (_ & _ & _ & _ & E & _).
  change (zero (ComplexN K)) with (zero K, zero K) in E. rewrite E. apply complex_WVariance.
  exact (Hw h [] (eq_sym (app_nil_r _)) Hne).
Qed.
End Laws.

Lemma parts_all (K : Num) (s0 : car K * car K) (xs : list (car K * car K)) :
  csum_run K s0 xs = (sum_run K (fst s0) (real_parts xs), sum_run K (snd s0) (imaginary_parts xs))
  /\ fst (ckahan_run K s0 xs)
     = (fst (kahan_run K (fst s0) (real_parts xs)), fst (kahan_run K (snd s0) (imaginary_parts xs)))
  /\ cmean_run K s0 xs
     = (mean_set_mean K (mean_set_run K (fst s0) (real_parts xs)),
        mean_set_mean K (mean_set_run K (snd s0) (imaginary_parts xs)))
  /\ cvar_mean K (cvar_run K s0 xs)
     = (im_mean K (imean_set_run K (fst s0) (real_parts xs)), im_mean K (imean_set_run K (snd s0) (imaginary_parts xs))).
Proof.
  split; [apply csum_parts|]. split; [now rewrite ckahan_parts|]. split; [apply cmean_parts|apply cvar_mean_parts].
Qed.
Lemma weighted_parts_all (K : Num) (s0 : car K * car K) (h : list (car K * car K * car K)) :
  let W := wmean_set_run K (fst s0) (zero K) (weighted_real_parts h) in
  let W' := wmean_set_run K (snd s0) (zero K) (weighted_imaginary_parts h) in
  cweighted_sum_run K s0 h = (wm_sum K W, wm_sum K W')
  /\ cweighted_mean_run K s0 h = (wmean_set_mean K W, wmean_set_mean K W')
  /\ snd (fst (cwvar_run K s0 h))
     = (wv_mean K (wvar_set_run K (fst s0) (zero K) (weighted_real_parts h)),
        wv_mean K (wvar_set_run K (snd s0) (zero K) (weighted_imaginary_parts h))).
Proof.
  cbv zeta. split; [apply cweighted_sum_parts|]. split; [apply cweighted_mean_parts|apply cwvar_mean_parts].
Qed.
Lemma variance_all (K : Num) (HO : OrderedLaws K) (xs : list (car K * car K)) : xs <> [] ->
  let v := (sub K (Variance K (real_parts xs)) (Variance K (imaginary_parts xs)),
            add K (Covariance K xs) (Covariance K xs)) in
  cvar_variance K (cvar_run K (zero K, zero K) xs) = v /\ clazy_variance_run K (zero K, zero K) xs = Some v.
Proof. intros H. exact (conj (cvar_spec K HO xs H) (clazy_variance_spec K HO xs H)). Qed.
