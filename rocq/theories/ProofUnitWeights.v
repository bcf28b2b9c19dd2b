(** Weights of one: numbers of which little is assumed, so that rounded ones are included. *)
From Coq Require Import List Arith Lia Bool.
From Verif Require Import Num ModelBasic SpecStats ModelMinMax ModelRolling ModelDensity ModelTail SpecUnitWeights.
Import ListNotations.

Section Units.
Context (K : Num).
Local Notation T := (car K).
Local Notation "0" := (zero K) : num_scope.
Local Notation "1" := (one K) : num_scope.
Local Notation "x + y" := (add K x y) : num_scope.
Local Notation "x - y" := (sub K x y) : num_scope.
Local Notation "x * y" := (mul K x y) : num_scope.
Local Notation "x / y" := (div K x y) : num_scope.
Local Notation "# n" := (ofnat K n) (at level 2) : num_scope.
Local Open Scope num_scope.
Context (one_r : forall x, x * 1 = x) (one_l : forall x, 1 * x = x).
Context (N : nat) (before : forall n, (S n <= N)%nat -> #(S n) - 1 = #n).
Local Notation units := (unit_weights K).

Lemma units_snoc {A} (xs : list A) x : units (xs ++ [x]) = units xs ++ [(x, 1)].
Proof. unfold unit_weights. rewrite map_app. reflexivity. Qed.

(** Sums and means. *)
Lemma unit_wmean_set s0 xs : wmean_set_run K s0 0 (units xs) = {| wm_W := #(length xs); wm_sum := sum_run K s0 xs |}.
Proof.
  induction xs as [|x xs IH] using rev_ind.
  - unfold wmean_set_run, wmean_set_init, weighted_sum_init. cbn. rewrite one_r. reflexivity.
  - rewrite units_snoc. unfold wmean_set_run in *. rewrite fold_left_app, IH, app_length, Nat.add_1_r. unfold sum_run. rewrite fold_left_app.
    cbn [fold_left wmean_set_push wm_W wm_sum fst snd]. unfold wmean_set_push, weighted_sum_op. cbn [wm_W wm_sum fst snd]. rewrite one_r. reflexivity.
Qed.
Lemma mean_set_is s0 xs : mean_set_run K s0 xs = {| ms_count := length xs; ms_sum := sum_run K s0 xs |}.
Proof.
  induction xs as [|x xs IH] using rev_ind; [reflexivity |]. unfold mean_set_run, sum_run in *. rewrite !fold_left_app, IH, app_length, Nat.add_1_r. reflexivity.
Qed.
Lemma unit_mean s0 xs : wmean_set_mean K (wmean_set_run K s0 0 (units xs)) = mean_set_mean K (mean_set_run K s0 xs).
Proof. rewrite unit_wmean_set, mean_set_is. reflexivity. Qed.
Lemma unit_kahan s0 xs : weighted_kahan_run K s0 (units xs) = kahan_run K s0 xs.
Proof.
  induction xs as [|x xs IH] using rev_ind; [unfold weighted_kahan_run, kahan_run, weighted_kahan_init, kahan_init; cbn; now rewrite one_r |].
  rewrite units_snoc. unfold weighted_kahan_run, kahan_run in *. rewrite !fold_left_app, IH. cbn [fold_left fst snd].
  destruct (fold_left _ _ _) as [s c]. unfold weighted_kahan_op, kahan_op. rewrite one_r. reflexivity.
Qed.

(** The immediate mean and the variance. *)
Lemma unit_wvar_set s0 xs : (length xs <= N)%nat ->
  wvar_set_run K s0 0 (units xs) = {| wv_count := length xs; wv_W := #(length xs); wv_mean := vs_mean K (var_set_run K s0 xs); wv_var := vs_var K (var_set_run K s0 xs) |} /\
  vs_count K (var_set_run K s0 xs) = length xs.
Proof.
  induction xs as [|x xs IH] using rev_ind; intros L.
  - split; [| reflexivity]. unfold wvar_set_run, wvar_set_init, imm_weighted_mean_init. cbn. rewrite one_r. reflexivity.
  - rewrite app_length, Nat.add_1_r in L. destruct IH as [E C]; [cbn in L; lia |].
    rewrite units_snoc. unfold wvar_set_run, var_set_run in *. rewrite !fold_left_app, E, app_length, Nat.add_1_r. cbn [fold_left length].
    set (s := fold_left _ xs _) in *. unfold wvar_set_push, var_set_push. cbn [wv_count wv_W wv_mean wv_var vs_count vs_mean vs_var]. rewrite C.
    assert (M : imm_weighted_mean_op K (vs_mean K s) (sum_op K #(length xs) 1) x 1 = imm_mean_op K (vs_mean K s) (S (length xs)) x).
    { unfold imm_weighted_mean_op, imm_mean_op, sum_op. change (#(length xs) + 1) with (#(S (length xs))). rewrite before by exact L. rewrite one_r.
      replace (S (length xs) - 1)%nat with (length xs) by lia. reflexivity. }
    rewrite M. split; [| reflexivity]. f_equal.
    unfold weighted_variance_op, variance_op, sum_op. change (#(length xs) + 1) with (#(S (length xs))). rewrite before by exact L. rewrite !one_r.
    replace (S (length xs) - 1)%nat with (length xs) by lia. reflexivity.
Qed.
Lemma imean_is s0 xs : im_mean K (imean_set_run K s0 xs) = vs_mean K (var_set_run K s0 xs) /\ im_count K (imean_set_run K s0 xs) = vs_count K (var_set_run K s0 xs).
Proof.
  induction xs as [|x xs [I J]] using rev_ind; [split; reflexivity |]. unfold imean_set_run, var_set_run in *. rewrite !fold_left_app. cbn [fold_left].
  set (s := fold_left (imean_set_push K) xs _) in *. set (t := fold_left (var_set_push K) xs _) in *.
  unfold imean_set_push, var_set_push. cbn [im_mean im_count vs_mean vs_count]. rewrite I, J. split; reflexivity.
Qed.

(** Moments of any order. *)
Lemma unit_moment_ops x : forall Ns sums, weighted_moment_ops K Ns sums x 1 = moment_ops K Ns sums x.
Proof.
  induction Ns as [|n Ns IH]; intros [|s sums]; try reflexivity. cbn [weighted_moment_ops moment_ops]. rewrite IH.
  unfold weighted_moment_op, moment_op. destruct (npow K x n); [rewrite one_l |]; reflexivity.
Qed.
Definition widen (o : option (mom_set K)) : option (wmom_set K) :=
  match o with Some s => Some {| wo_W := #(mo_count K s); wo_sum := mo_sum K s; wo_sums := mo_sums K s |} | None => None end.
Lemma unit_wmom_set Ns s0 xs : wmom_set_run K Ns s0 0 (units xs) = widen (mom_set_run K Ns s0 xs).
Proof.
  induction xs as [|x xs IH] using rev_ind.
  - cbn. unfold wmom_set_init, weighted_sum_init, weighted_moment_init. rewrite one_r. reflexivity.
  - rewrite units_snoc. unfold wmom_set_run, mom_set_run in *. rewrite !fold_left_app, IH. cbn [fold_left]. destruct (fold_left (mom_set_push K Ns) xs _) as [s|]; [| reflexivity].
    cbn [widen]. unfold wmom_set_push, mom_set_push. cbn [wo_sums wo_W wo_sum fst snd]. rewrite unit_moment_ops. destruct (moment_ops K Ns (mo_sums K s) x); [| reflexivity].
    cbn [widen mo_count mo_sum mo_sums]. unfold weighted_sum_op, sum_op. rewrite one_r. reflexivity.
Qed.
Lemma unit_moment n s0 xs : weighted_moment_run K n s0 (units xs) = moment_run K n s0 xs.
Proof. unfold weighted_moment_run, moment_run. rewrite unit_wmom_set. destruct (mom_set_run K [n] s0 xs); reflexivity. Qed.
Lemma unit_lazy_variance s0 xs : lazy_weighted_variance_run K s0 (units xs) = lazy_variance_run K s0 xs.
Proof. unfold lazy_weighted_variance_run, lazy_variance_run. rewrite unit_wmom_set. destruct (mom_set_run K [2%nat] s0 xs); reflexivity. Qed.
Lemma unit_skewness sqrt s0 xs : weighted_skewness_run K sqrt s0 (units xs) = skewness_run K sqrt s0 xs.
Proof. unfold weighted_skewness_run, skewness_run. rewrite unit_wmom_set. destruct (mom_set_run K [2%nat; 3%nat] s0 xs); reflexivity. Qed.
Lemma unit_kurtosis s0 xs : weighted_kurtosis_run K s0 (units xs) = kurtosis_run K s0 xs.
Proof. unfold weighted_kurtosis_run, kurtosis_run. rewrite unit_wmom_set. destruct (mom_set_run K [2%nat; 3%nat; 4%nat] s0 xs); reflexivity. Qed.

(** The covariance. *)
Lemma unit_wcov_set s0 v0 (h : list (T * T)) : (length h <= N)%nat ->
  wcov_set_run K s0 v0 0 (units h) = (let s := cov_set_run K s0 v0 h in {| wc_count := length h; wc_W := #(length h); wc_sum := cs_sum K s; wc_sumv := cs_sumv K s; wc_cov := cs_cov K s |}) /\
  cs_count K (cov_set_run K s0 v0 h) = length h.
Proof.
  induction h as [|[x v] h IH] using rev_ind; intros L.
  - split; [| reflexivity]. unfold wcov_set_run, wcov_set_init, weighted_sum_init, weighted_covariance_init. cbn. rewrite !one_r. reflexivity.
  - rewrite app_length, Nat.add_1_r in L. destruct IH as [E C]; [lia |].
    rewrite units_snoc. unfold wcov_set_run, cov_set_run in *. rewrite !fold_left_app, E, app_length, Nat.add_1_r. cbn [fold_left length].
    set (s := fold_left _ h _) in *. cbv zeta. unfold wcov_set_push, cov_set_push. cbn [wc_count wc_W wc_sum wc_sumv wc_cov cs_count cs_sum cs_sumv cs_cov fst snd]. rewrite C.
    unfold weighted_sum_op, sum_op, weighted_covariance_op, covariance_op, weighted_mean_result, mean_result. change (#(length h) + 1) with (#(S (length h))). rewrite !one_r, before by exact L.
    replace (S (length h) - 1)%nat with (length h) by lia. split; reflexivity.
Qed.

(** Histograms: what the two sets hold at any moment. *)
Section Histograms.
Context (lo hi : T) (c b : nat).
Definition unit_dens (xs : list T) (s : dens K T) : dens K (T * T) :=
  {| de_count := de_count K T s; de_min := de_min K T s; de_max := de_max K T s; de_wsum := #(de_count K T s);
     de_cache := units xs ++ repeat (0, 0) (c - length xs); de_bins := de_bins K T s; de_pos := de_pos K T s;
     de_hist := de_hist K T s; de_dirty := de_dirty K T s |}.
Inductive paired (s : dens K T) (s' : dens K (T * T)) : Prop :=
  Paired : forall xs, length xs = Nat.min (de_count K T s) c -> de_cache K T s = xs ++ repeat 0 (c - length xs) -> s' = unit_dens xs s -> paired s s'.
Lemma set_next {B} (l : list B) a x r n : n = length l -> set_nth n x (l ++ a :: r) = l ++ x :: r.
Proof. intros ->. induction l as [|y l IH]; [reflexivity | cbn; now rewrite IH]. Qed.
Lemma unit_bin_add pos bins x : bin_add K (T * T) fst snd b pos bins (x, 1) = bin_add K T (fun x => x) (fun _ => 1) b pos bins x.
Proof. reflexivity. Qed.
Lemma unit_bin_add_all pos : forall xs o,
  fold_left (fun o e => match o with Ok bb => bin_add K (T * T) fst snd b pos bb e | o => o end) (units xs) o =
  fold_left (fun o e => match o with Ok bb => bin_add K T (fun x => x) (fun _ => 1) b pos bb e | o => o end) xs o.
Proof. induction xs as [|x xs IH]; intros o; [reflexivity |]. exact (IH _). Qed.

Lemma paired_push s s' x : paired s s' ->
  alike paired (dens_push K T (fun x => x) (fun _ => 1) lo hi c b s x) (dens_push K (T * T) fst snd lo hi c b s' (x, 1)).
Proof.
  intros [xs HL HC ->]. unfold dens_push, dens_operate, unit_dens. cbn [de_count de_min de_max de_wsum de_cache de_bins de_pos de_hist de_dirty fst snd].
  set (n := de_count K T s) in *. rewrite Nat.sub_succ, Nat.sub_0_r. change (#n + 1) with (#(S n)).
  set (mn := min_assign _ _ _). set (mx := max_assign _ _ _).
  set (cache := if Nat.leb (S n) c then set_nth n x (de_cache K T s) else de_cache K T s).
  set (cache' := if Nat.leb (S n) c then set_nth n (x, 1) (units xs ++ repeat (0, 0) (c - length xs)) else units xs ++ repeat (0, 0) (c - length xs)).
  assert (Q : exists ys, length ys = Nat.min (S n) c /\ cache = ys ++ repeat 0 (c - length ys) /\ cache' = units ys ++ repeat (0, 0) (c - length ys)).
  { unfold cache, cache'. destruct (Nat.leb_spec (S n) c) as [L|L].
    - exists (xs ++ [x]). rewrite app_length, Nat.add_1_r, units_snoc. rewrite HC. assert (E : length xs = n) by lia. rewrite E.
      replace (c - n)%nat with (S (c - S n)) by lia. cbn [repeat]. rewrite !set_next by (unfold unit_weights; rewrite ?map_length; lia). rewrite <- !app_assoc. repeat split; lia.
    - exists xs. rewrite HC. repeat split; lia. }
  destruct Q as (ys & YL & YC & YC').
  assert (B : (if Nat.eqb (S n) c then bin_add_all K (T * T) fst snd b (if Nat.eqb (S n) c then bin_positions K b mn mx else de_pos K T s) (de_bins K T s) cache'
      else if Nat.ltb c (S n) then bin_add K (T * T) fst snd b (if Nat.eqb (S n) c then bin_positions K b mn mx else de_pos K T s) (de_bins K T s) (x, 1) else Ok (de_bins K T s)) =
     (if Nat.eqb (S n) c then bin_add_all K T (fun x => x) (fun _ => 1) b (if Nat.eqb (S n) c then bin_positions K b mn mx else de_pos K T s) (de_bins K T s) cache
      else if Nat.ltb c (S n) then bin_add K T (fun x => x) (fun _ => 1) b (if Nat.eqb (S n) c then bin_positions K b mn mx else de_pos K T s) (de_bins K T s) x else Ok (de_bins K T s))).
  { destruct (Nat.eqb_spec (S n) c) as [E|_]; [| destruct (Nat.ltb c (S n)); reflexivity].
    rewrite YC, YC'. replace (c - length ys)%nat with O by lia. cbn [repeat]. rewrite !app_nil_r. apply unit_bin_add_all. }
  rewrite B. match goal with |- alike _ (match ?o with _ => _ end) _ => destruct o as [bins| |] end; cbn [alike]; try exact I.
  exists ys; [exact YL | exact YC |]. unfold unit_dens. cbn [de_count de_min de_max de_wsum de_cache de_bins de_pos de_hist de_dirty]. rewrite YC'. reflexivity.
Qed.
Lemma paired_extract s s' : paired s s' ->
  paired (dens_extract K T (fun n _ => #n) s) (dens_extract K (T * T) (fun _ w => w) s').
Proof.
  intros [xs HL HC ->]. unfold dens_extract. unfold unit_dens at 1. cbn [de_dirty]. destruct (de_dirty K T s) eqn:D.
  - exists xs; cbn [de_count de_cache]; [exact HL | exact HC | reflexivity].
  - exists xs; [exact HL | exact HC | reflexivity].
Qed.
Lemma paired_init s0 : paired (dens_init K T lo hi c b s0 0) (dens_init K (T * T) lo hi c b s0 (0, 0)).
Proof. exists []; [reflexivity | |]; unfold unit_dens; cbn [length]; rewrite Nat.sub_0_r; reflexivity. Qed.

Lemma unit_density s0 ops : alike paired (density_run K lo hi c b s0 ops) (weighted_density_run K lo hi c b s0 (map (unit_op K) ops)).
Proof.
  unfold density_run, weighted_density_run, dens_run. induction ops as [|o ops IH] using rev_ind; [exact (paired_init s0) |].
  rewrite map_app, !fold_left_app. cbn [map fold_left].
  destruct (fold_left _ ops _) as [s| |], (fold_left _ (map (unit_op K) ops) _) as [s'| |]; try contradiction IH; try exact I.
  destruct o as [x|]; cbn [unit_op dens_step]; [apply paired_push | apply paired_extract]; exact IH.
Qed.
Lemma paired_result s s' : paired s s' -> weighted_density_result K s' = density_result K s.
Proof. intros P. destruct (paired_extract _ _ P) as [ys _ _ E]. unfold weighted_density_result, density_result, dens_result. rewrite E. reflexivity. Qed.
Definition mpaired (s : dens K T * dmed K * list T) (s' : dens K (T * T) * dmed K * list T) : Prop :=
  paired (fst (fst s)) (fst (fst s')) /\ snd (fst s) = snd (fst s') /\ snd s = snd s'.
Lemma unit_density_median s0 ops : alike mpaired (density_median_run K lo hi c b s0 ops) (weighted_density_median_run K lo hi c b s0 (map (unit_mop K) ops)).
Proof.
  unfold density_median_run, weighted_density_median_run, dmed_run. induction ops as [|o ops IH] using rev_ind; [split; [exact (paired_init s0) | split; reflexivity] |].
  rewrite map_app, !fold_left_app. cbn [map fold_left].
  destruct (fold_left _ ops _) as [[[d m] out]| |], (fold_left _ (map (unit_mop K) ops) _) as [[[d' m'] out']| |]; try contradiction IH; try exact I.
  destruct IH as (P & Em & Eo). cbn in P, Em, Eo. subst m' out'. destruct o as [x|]; cbn [unit_mop dmed_step].
  - assert (Q := paired_push _ _ x P). destruct (dens_push K T _ _ _ _ _ _ _ _), (dens_push K (T * T) _ _ _ _ _ _ _ _); try contradiction Q; try exact I.
    split; [exact Q | split; reflexivity].
  - assert (Q : paired (if dm_dirty K m then dens_extract K T (fun n _ => #n) d else d) (if dm_dirty K m then dens_extract K (T * T) (fun _ w => w) d' else d')).
    { destruct (dm_dirty K m); [apply paired_extract |]; exact P. }
    set (e := if dm_dirty K m then dens_extract K T _ d else d) in *. set (e' := if dm_dirty K m then dens_extract K (T * T) _ d' else d') in *.
    assert (E : de_count K (T * T) e' = de_count K T e /\ de_hist K (T * T) e' = de_hist K T e) by (destruct Q as [ys _ _ ->]; split; reflexivity).
    destruct E as [-> ->]. destruct (dmed_result K m (de_count K T e) (de_hist K T e)) as [[m' r]| |]; try exact I. split; [exact Q | split; reflexivity].
Qed.
End Histograms.

(** Tails. *)
Lemma unit_loop thr n : forall k a, (forall m, (m <= a + k)%nat -> ltb K #m thr = Nat.ltb m n) -> (a <= n)%nat ->
  weight_loop K thr #a a (repeat 1 k) = if Nat.leb n (a + k) then Some (n, #n) else None.
Proof.
  induction k as [|k IH]; intros a HT L; cbn [repeat weight_loop]; rewrite HT by lia.
  - destruct (Nat.ltb_spec a n), (Nat.leb_spec n (a + 0)); try lia; [reflexivity |]. now replace a with n by lia.
  - destruct (Nat.ltb_spec a n) as [H|H].
    + change (#a + 1) with (#(S a)). rewrite IH by (try lia; intros m Hm; apply HT; lia). replace (S a + k)%nat with (a + S k)%nat by lia. reflexivity.
    + replace a with n by lia. destruct (Nat.leb_spec n (n + S k)); [reflexivity | lia].
Qed.
Lemma unit_inner : forall (xs : list T) k acc, (length xs <= k)%nat -> inner_product K xs (repeat 1 k) acc = fold_left (add K) xs acc.
Proof.
  induction xs as [|x xs IH]; intros [|k] acc L; cbn in L; try reflexivity; try lia. cbn [inner_product repeat fold_left]. rewrite one_r. apply IH. lia.
Qed.
Lemma unit_tail ceil lr cnt tl p : (forall m, (m <= length tl)%nat -> ltb K #m (#cnt * tail_level K lr p) = Nat.ltb m (tail_n K ceil lr cnt p)) ->
  let n := tail_n K ceil lr cnt p in let ws := repeat 1 (length tl) in
  non_coherent_weighted_tail_mean_result K lr #cnt tl ws p = non_coherent_tail_mean_result K ceil lr cnt tl p /\
  (n <> length tl -> weighted_tail_quantile_result K lr #cnt tl ws p = tail_quantile_result K ceil lr cnt tl p) /\
  (n = length tl -> tl <> [] -> tail_quantile_result K ceil lr cnt tl p = NotANumber /\
     exists v, nth_error tl (length tl - 1) = Some v /\ weighted_tail_quantile_result K lr #cnt tl ws p = Ok v).
Proof.
  intros HT n ws. assert (L := unit_loop _ _ (length tl) 0 HT (Nat.le_0_l _)). fold n in L. fold ws in L. cbn [Nat.add ofnat] in L.
  unfold non_coherent_weighted_tail_mean_result, non_coherent_tail_mean_result, weighted_tail_quantile_result, tail_quantile_result.
  fold n. rewrite L. clear L. split; [| split; [| intros E Ht; split]].
  - destruct (Nat.leb_spec n (length tl)) as [H|_]; [| reflexivity]. destruct n as [|m]; [reflexivity |]. f_equal. f_equal.
    unfold ws. apply unit_inner. rewrite firstn_length. lia.
  - intros NE. destruct (Nat.leb_spec n (length tl)), (Nat.ltb_spec n (length tl)); try lia; try reflexivity.
  - destruct (Nat.ltb_spec n (length tl)); [lia | reflexivity].
  - destruct (nth_error tl (length tl - 1)) as [v|] eqn:V.
    + exists v. split; [reflexivity |]. rewrite E, Nat.leb_refl. assert (Hl : length tl <> O) by (intros Hl; apply Ht; now apply length_zero_iff_nil).
      destruct (length tl) as [|k]; [congruence |]. rewrite Nat.sub_succ, Nat.sub_0_r in V. now rewrite V.
    + apply nth_error_None in V. destruct tl; [congruence | cbn in V; lia].
Qed.
End Units.

(** The tail itself does not look at the weights. *)
Definition bare {A V} (o : tail_op A V) : tail_op A V := match o with TPush x _ => TPush x [] | TExtract => TExtract end.
Definition same_tail {A V} (s s' : tail_state A V) : Prop :=
  tl_sorted s = tl_sorted s' /\ tl_indices s = tl_indices s' /\ tl_samples s = tl_samples s'.
Lemma same_tail_run {A V} (H : HeapOps) (pred : A -> A -> bool) (ops : list (tail_op A V)) : forall o o', alike same_tail o o' ->
  alike same_tail (fold_left (tail_step H pred) ops o) (fold_left (tail_step H pred) (map bare ops) o').
Proof.
  induction ops as [|op ops IH]; intros o o' R; [exact R |]. cbn [fold_left map]. apply IH. destruct o as [s| |], o' as [s'| |]; try contradiction R; try exact I.
  destruct R as (R1 & R2 & R3). destruct op as [x vs|]; cbn [bare tail_step].
  - unfold tail_push. rewrite R2, R3. destruct (Nat.ltb _ _); [repeat split |]. destruct (tl_indices s') eqn:EI; [exact I |]. destruct (nth_error _ _); [| exact I].
    destruct (pred x a); [| split; [exact R1 | split; [congruence | exact R3]]]. destruct (rev _); [exact I |]. repeat split.
  - unfold tail_sort. rewrite R1. destruct (tl_sorted s') eqn:D; cbn [alike]; [split; [congruence | split; assumption] |]. unfold same_tail. cbn [tl_sorted tl_indices tl_samples]. rewrite R2, R3. repeat split.
Qed.
Lemma same_tail_result {A V} (H : HeapOps) (pred : A -> A -> bool) (s s' : tail_state A V) : same_tail s s' -> tail_result H pred s = tail_result H pred s'.
Proof. intros (R1 & R2 & R3). unfold tail_result, tail_sort. rewrite R1. destruct (tl_sorted s'); cbn [tl_indices tl_samples]; rewrite R2, R3; reflexivity. Qed.
