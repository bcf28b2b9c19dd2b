(** Proofs about the basic accumulators over an arbitrary field of characteristic 0. *)
From Coq Require Import List Arith NArith Bool Lia Field Permutation.
From Verif Require Import Num SpecStats ModelBasic.
Import ListNotations.

(** ** Count *)
Lemma count_run_from {A} (xs : list A) c :
  fold_left (fun c _ => count_op c) xs (N.modulo c size_t_mod)
  = N.modulo (c + N.of_nat (length xs)) size_t_mod.
Proof.
  assert (Hm : size_t_mod <> 0%N) by (unfold size_t_mod; discriminate).
  revert c; induction xs as [|x xs IH]; intros c; cbn [fold_left length].
  - f_equal. lia.
  - unfold count_op at 2. rewrite N.add_mod_idemp_l by exact Hm.
    rewrite IH. f_equal. lia.
Qed.

Lemma count_run_spec {A} (xs : list A) :
  count_run xs = N.modulo (N.of_nat (length xs)) size_t_mod.
Proof.
  unfold count_run, count_init.
  change (0%N) with (N.modulo 0 size_t_mod) at 1. rewrite count_run_from. f_equal.
Qed.

Section Field.
Variable K : Num.
Hypothesis HK : FieldLaws K.
Local Notation T := (car K).
Local Notation "0" := (zero K) : num_scope.
Local Notation "1" := (one K) : num_scope.
Local Notation "x + y" := (add K x y) : num_scope.
Local Notation "x - y" := (sub K x y) : num_scope.
Local Notation "x * y" := (mul K x y) : num_scope.
Local Notation "x / y" := (div K x y) : num_scope.
Local Notation "- x" := (opp K x) : num_scope.
Local Notation "# n" := (ofnat K n) (at level 2) : num_scope.
Local Open Scope num_scope.

Add Field Kfield : (fl_field K HK).

Lemma ofnat_S_neq0 n : #(S n) <> 0.
Proof. apply (fl_char0 K HK). Qed.

Lemma one_neq0 : 1 <> 0.
Proof.
  intro H. apply (ofnat_S_neq0 O). cbn [ofnat]. rewrite H. ring.
Qed.

Lemma ofnat_add m n : #(m + n)%nat = #m + #n.
Proof. induction m as [|m IH]; cbn [ofnat Nat.add]; [ring | rewrite IH; ring]. Qed.

Lemma ofnat_mul m n : #(m * n)%nat = #m * #n.
Proof.
  induction m as [|m IH]; cbn [ofnat Nat.mul]; [ring|].
  rewrite ofnat_add, IH. ring.
Qed.

Lemma ofnat_1 : #1%nat = 1.
Proof. cbn [ofnat]. ring. Qed.

Lemma ofnat_pred n : #(S n - 1) = #n.
Proof. f_equal. lia. Qed.

(** ** Sums *)
Lemma total_nil {A} (f : A -> T) : total K f [] = 0.
Proof. reflexivity. Qed.
Lemma total_cons {A} (f : A -> T) x l : total K f (x :: l) = f x + total K f l.
Proof. reflexivity. Qed.
Lemma total_app {A} (f : A -> T) l1 l2 : total K f (l1 ++ l2) = total K f l1 + total K f l2.
Proof.
  induction l1 as [|x l1 IH]; cbn [app].
  - rewrite total_nil. ring.
  - rewrite !total_cons, IH. ring.
Qed.
Lemma total_one {A} (f : A -> T) x : total K f [x] = f x.
Proof. rewrite total_cons, total_nil. ring. Qed.
Lemma total_snoc {A} (f : A -> T) l x : total K f (l ++ [x]) = total K f l + f x.
Proof. rewrite total_app, total_one. reflexivity. Qed.
Lemma total_ext {A} (f g : A -> T) l :
  (forall x, In x l -> f x = g x) -> total K f l = total K g l.
Proof.
  induction l as [|x l IH]; intros H; [reflexivity|].
  rewrite !total_cons, IH, (H x); auto with datatypes.
Qed.
Lemma total_map {A B} (f : B -> T) (g : A -> B) l :
  total K f (map g l) = total K (fun x => f (g x)) l.
Proof. induction l as [|x l IH]; cbn [map]; rewrite ?total_cons, ?IH; reflexivity. Qed.
Lemma total_add {A} (f g : A -> T) l :
  total K (fun x => f x + g x) l = total K f l + total K g l.
Proof.
  induction l as [|x l IH]; rewrite ?total_nil, ?total_cons; [ring|]. rewrite IH. ring.
Qed.
Lemma total_sub {A} (f g : A -> T) l :
  total K (fun x => f x - g x) l = total K f l - total K g l.
Proof.
  induction l as [|x l IH]; rewrite ?total_nil, ?total_cons; [ring|]. rewrite IH. ring.
Qed.
Lemma total_scale {A} (c : T) (f : A -> T) l :
  total K (fun x => c * f x) l = c * total K f l.
Proof.
  induction l as [|x l IH]; rewrite ?total_nil, ?total_cons; [ring|]. rewrite IH. ring.
Qed.
Lemma total_scale_r {A} (c : T) (f : A -> T) l :
  total K (fun x => f x * c) l = total K f l * c.
Proof.
  induction l as [|x l IH]; rewrite ?total_nil, ?total_cons; [ring|]. rewrite IH. ring.
Qed.
Lemma total_const {A} (c : T) (l : list A) : total K (fun _ => c) l = #(length l) * c.
Proof.
  induction l as [|x l IH]; rewrite ?total_nil, ?total_cons; cbn [length ofnat]; [ring|].
  rewrite IH. ring.
Qed.
Lemma total_perm {A} (f : A -> T) l1 l2 :
  Permutation l1 l2 -> total K f l1 = total K f l2.
Proof.
  induction 1 as [| x l1 l2 _ IH | x y l | l1 l2 l3 _ IH1 _ IH2]; rewrite ?total_cons.
  - reflexivity.
  - rewrite IH. reflexivity.
  - ring.
  - congruence.
Qed.

(** ** Power *)
Lemma power_add x m n : power K x (m + n) = power K x m * power K x n.
Proof. induction m as [|m IH]; cbn [power Nat.add]; [ring | rewrite IH; ring]. Qed.

Lemma npow_fuel_spec fuel x n :
  (1 <= n)%nat -> (n <= fuel)%nat -> npow_fuel K fuel x n = Some (power K x n).
Proof.
  revert n; induction fuel as [|f IH]; intros n Hn Hf; [lia|].
  cbn [npow_fuel]. destruct (Nat.eqb_spec n 1) as [->|Hn1].
  - cbn [power]. f_equal. ring.
  - assert (Hdm := Nat.div_mod n 2 ltac:(lia)).
    assert (Hmod := Nat.mod_upper_bound n 2 ltac:(lia)).
    set (h := Nat.div n 2) in *. set (r := Nat.modulo n 2) in *.
    rewrite IH by lia.
    destruct (Nat.eqb_spec r 0) as [Hr|Hr].
    + replace n with (h + h)%nat by lia. rewrite power_add. reflexivity.
    + replace n with (S (h + h))%nat by lia. cbn [power]. rewrite power_add. f_equal. ring.
Qed.

Lemma npow_spec x n : (1 <= n)%nat -> npow K x n = Some (power K x n).
Proof. intros Hn. apply npow_fuel_spec; lia. Qed.

(** ** Sum *)
Lemma sum_run_spec s0 xs : sum_run K s0 xs = s0 + total K (fun x => x) xs.
Proof.
  unfold sum_run, sum_init, sum_op. revert s0.
  induction xs as [|x xs IH]; intros s0; cbn [fold_left]; rewrite ?total_nil, ?total_cons.
  - ring.
  - rewrite IH. ring.
Qed.

Lemma kahan_run_spec s0 xs : kahan_run K s0 xs = (s0 + total K (fun x => x) xs, 0).
Proof.
  unfold kahan_run, kahan_init. revert s0.
  induction xs as [|x xs IH]; intros s0; cbn [fold_left]; rewrite ?total_nil, ?total_cons.
  - f_equal. ring.
  - unfold kahan_op at 2.
    replace (s0 + (x - 0) - s0 - (x - 0)) with 0 by ring.
    rewrite IH. f_equal. ring.
Qed.

Lemma weighted_kahan_run_spec s0 h :
  weighted_kahan_run K s0 h = (s0 + total K (fun p => fst p * snd p) h, 0).
Proof.
  unfold weighted_kahan_run, weighted_kahan_init.
  replace (s0 * 1) with s0 by ring. revert s0.
  induction h as [|[x w] h IH]; intros s0; cbn [fold_left]; rewrite ?total_nil, ?total_cons.
  - f_equal. ring.
  - unfold weighted_kahan_op at 2. cbn [fst snd].
    replace (s0 + (x * w - 0) - s0 - (x * w - 0)) with 0 by ring.
    rewrite IH. f_equal. ring.
Qed.

(** ** Mean *)
Lemma mean_set_run_spec s0 xs :
  mean_set_run K s0 xs = {| ms_count := length xs; ms_sum := s0 + total K (fun x => x) xs |}.
Proof.
  induction xs as [|x xs IH] using rev_ind.
  - cbn. unfold mean_set_init, sum_init. f_equal. ring.
  - unfold mean_set_run in *. rewrite fold_left_app, IH. cbn [fold_left].
    unfold mean_set_push, sum_op; cbn [ms_count ms_sum].
    rewrite app_length, total_snoc. cbn [length]. f_equal; [lia | ring].
Qed.

Lemma mean_set_spec xs : mean_set_mean K (mean_set_run K 0 xs) = Mean K xs.
Proof.
  rewrite mean_set_run_spec. unfold mean_set_mean, mean_result; cbn [ms_sum ms_count].
  unfold Mean, average. f_equal. ring.
Qed.

Lemma imean_run_count s0 xs : im_count K (imean_set_run K s0 xs) = length xs.
Proof.
  induction xs as [|x xs IH] using rev_ind; [reflexivity|].
  unfold imean_set_run in *. rewrite fold_left_app, app_length. cbn [fold_left].
  set (s := fold_left (imean_set_push K) xs (imean_set_init K s0)) in *.
  unfold imean_set_push; cbn [im_count length]. rewrite IH. lia.
Qed.

Lemma imm_mean_op_inv mean n S x :
  mean * #n = S -> imm_mean_op K mean (Datatypes.S n) x * #(Datatypes.S n) = S + x.
Proof.
  intros H. unfold imm_mean_op. rewrite ofnat_pred. rewrite H.
  field. apply ofnat_S_neq0.
Qed.

Lemma imean_run_inv s0 xs :
  im_mean K (imean_set_run K s0 xs) * #(length xs) = total K (fun x => x) xs.
Proof.
  induction xs as [|x xs IH] using rev_ind.
  - cbn [length ofnat]. rewrite total_nil. ring.
  - pose proof (imean_run_count s0 xs) as Hc.
    unfold imean_set_run in *. rewrite fold_left_app. cbn [fold_left].
    set (s := fold_left (imean_set_push K) xs (imean_set_init K s0)) in *.
    unfold imean_set_push; cbn [im_mean]. rewrite Hc.
    rewrite app_length, total_snoc. cbn [length]. rewrite Nat.add_1_r.
    apply imm_mean_op_inv. exact IH.
Qed.

Lemma eq_div_of_mul a b n : n <> 0 -> a * n = b -> a = b / n.
Proof. intros Hn <-. field. exact Hn. Qed.

Lemma length_neq0 {A} (l : list A) : l <> [] -> #(length l) <> 0.
Proof. destruct l as [|x l]; [congruence|]. intros _. apply ofnat_S_neq0. Qed.

Lemma imean_run_spec s0 xs : xs <> [] -> im_mean K (imean_set_run K s0 xs) = Mean K xs.
Proof.
  intros Hne. unfold Mean, average. apply eq_div_of_mul; [apply length_neq0; auto|].
  apply imean_run_inv.
Qed.

(** ** Deviations in terms of raw sums *)
Lemma dev2_raw (xs : list T) c :
  total K (fun x => power K (x - c) 2) xs
  = total K (fun x => x * x) xs - (1 + 1) * c * total K (fun x => x) xs + #(length xs) * (c * c).
Proof.
  induction xs as [|x xs IH]; rewrite ?total_nil, ?total_cons; cbn [length ofnat].
  - ring.
  - rewrite IH. cbn [power]. ring.
Qed.

Lemma devxy_raw (h : list (T * T)) a b :
  total K (fun p => (fst p - a) * (snd p - b)) h
  = total K (fun p => fst p * snd p) h - a * total K snd h - b * total K fst h
    + #(length h) * (a * b).
Proof.
  induction h as [|[x y] h IH]; rewrite ?total_nil, ?total_cons; cbn [length ofnat fst snd].
  - ring.
  - rewrite IH. ring.
Qed.

(** Sum of squared deviations from the mean. *)
Definition SS (xs : list T) : T := total K (fun x => power K (x - Mean K xs) 2) xs.

Lemma SS_raw xs : xs <> [] ->
  SS xs = total K (fun x => x * x) xs - total K (fun x => x) xs * total K (fun x => x) xs / #(length xs).
Proof.
  intros Hne. unfold SS. rewrite dev2_raw. unfold Mean, average.
  assert (Hn := length_neq0 xs Hne).
  generalize dependent #(length xs). intros n Hn.
  generalize (total K (fun x => x * x) xs) (total K (fun x => x) xs). intros q s.
  field. exact Hn.
Qed.

Lemma Variance_SS xs : Variance K xs = SS xs / #(length xs).
Proof. reflexivity. Qed.

Lemma var_run_counts s0 xs :
  vs_count K (var_set_run K s0 xs) = length xs
  /\ vs_mean K (var_set_run K s0 xs) = im_mean K (imean_set_run K s0 xs).
Proof.
  induction xs as [|x xs [IHc IHm]] using rev_ind; [split; reflexivity|].
  pose proof (imean_run_count s0 xs) as Hc.
  unfold var_set_run, imean_set_run in *. rewrite !fold_left_app, app_length. cbn [fold_left].
  set (s := fold_left (imean_set_push K) xs (imean_set_init K s0)) in *.
  set (sv := fold_left (var_set_push K) xs (var_set_init K s0)) in *.
  unfold var_set_push, imean_set_push; cbn [vs_count vs_mean im_mean length].
  rewrite IHc, IHm, Hc. split; [lia | reflexivity].
Qed.

(** The immediate variance, constructed with an arbitrary initial sample [s0]:
    n * var = SS + s0.  (With the default s0 = 0 the bias vanishes.) *)
Lemma var_run_inv s0 xs : xs <> [] ->
  vs_var K (var_set_run K s0 xs) * #(length xs) = SS xs + s0.
Proof.
  induction xs as [|x xs IH] using rev_ind; intros Hne; [congruence|]. clear Hne.
  destruct (var_run_counts s0 xs) as [Hc Hm].
  destruct xs as [|y ys].
  - (* first sample *)
    cbn [var_set_run app fold_left]. unfold var_set_push, var_set_init, variance_op, variance_init.
    cbn [vs_var vs_count vs_mean length]. change (Nat.ltb 1 1) with false. cbn iota.
    rewrite SS_raw by discriminate. cbn [length].
    rewrite !total_one, ofnat_1. field. apply one_neq0.
  - set (xs := y :: ys) in *.
    assert (Hxs : xs <> []) by (unfold xs; discriminate).
    specialize (IH Hxs).
    unfold var_set_run in *. rewrite fold_left_app. cbn [fold_left].
    set (s := fold_left (var_set_push K) xs (var_set_init K s0)) in *.
    unfold var_set_push; cbn [vs_var]. rewrite Hc.
    assert (Hmean : imm_mean_op K (vs_mean K s) (S (length xs)) x * #(S (length xs))
                    = total K (fun x => x) (xs ++ [x])).
    { rewrite total_snoc. apply imm_mean_op_inv. rewrite Hm. apply imean_run_inv. }
    set (m := imm_mean_op K (vs_mean K s) (S (length xs)) x) in *.
    unfold variance_op.
    replace (Nat.ltb 1 (S (length xs))) with true by reflexivity.
    rewrite ofnat_pred.
    assert (Hn1 : #(length xs) <> 0) by (apply length_neq0; exact Hxs).
    assert (Hn2 : #(S (length xs)) <> 0) by apply ofnat_S_neq0.
    rewrite SS_raw in * by (try exact Hxs; destruct xs; discriminate).
    rewrite app_length, !total_snoc in *. cbn [length]. rewrite Nat.add_1_r.
    cbn [ofnat] in *. set (n := #(length xs)) in *.
    set (q := total K (fun x => x * x) xs) in *.
    set (sm := total K (fun x => x) xs) in *.
    apply eq_div_of_mul in Hmean; [|exact Hn2]. rewrite Hmean.
    transitivity (vs_var K s * n + (x - (sm + x) / (n + 1)) * (x - (sm + x) / (n + 1)) * (n + 1) / n).
    { field. split; assumption. }
    rewrite IH. field. split; assumption.
Qed.

Lemma var_run_general s0 xs : xs <> [] ->
  vs_var K (var_set_run K s0 xs) = Variance K xs + s0 / #(length xs).
Proof.
  intros Hne. assert (Hn := length_neq0 xs Hne).
  rewrite Variance_SS. transitivity ((SS xs + s0) / #(length xs)).
  - apply eq_div_of_mul; [exact Hn | apply var_run_inv; exact Hne].
  - field. exact Hn.
Qed.

Lemma var_run_spec xs : xs <> [] -> vs_var K (var_set_run K 0 xs) = Variance K xs.
Proof.
  intros Hne. rewrite var_run_general by exact Hne. field. apply length_neq0; exact Hne.
Qed.

(** ** Moments *)
Lemma moment_ops_spec Ns sums x :
  Forall (fun N => 1 <= N)%nat Ns -> length sums = length Ns ->
  moment_ops K Ns sums x = Some (map (fun p => snd p + power K x (fst p)) (combine Ns sums)).
Proof.
  revert sums; induction Ns as [|N Ns IH]; intros [|s sums] HN Hl; cbn [length] in Hl; try discriminate.
  - reflexivity.
  - inversion HN as [|? ? HN1 HN2]; subst. cbn [moment_ops].
    unfold moment_op at 1. rewrite npow_spec by assumption.
    rewrite IH by (auto; congruence). reflexivity.
Qed.

Lemma combine_map_id {A B} (f : A -> B) l : combine l (map f l) = map (fun x => (x, f x)) l.
Proof. induction l as [|x l IH]; cbn; [reflexivity | rewrite IH; reflexivity]. Qed.

Lemma mom_set_run_spec Ns s0 xs :
  Forall (fun N => 1 <= N)%nat Ns ->
  mom_set_run K Ns s0 xs =
  Some {| mo_count := length xs; mo_sum := s0 + total K (fun x => x) xs;
          mo_sums := map (fun N => s0 + total K (fun x => power K x N) xs) Ns |}.
Proof.
  intros HN. induction xs as [|x xs IH] using rev_ind.
  - cbn [mom_set_run fold_left]. unfold mom_set_init, sum_init, moment_init. f_equal.
    rewrite total_nil. f_equal; [ring|]. apply map_ext. intros N. rewrite total_nil. ring.
  - unfold mom_set_run in *. rewrite fold_left_app, IH. cbn [fold_left mom_set_push mo_sums mo_count mo_sum].
    rewrite moment_ops_spec; [|assumption|rewrite map_length; reflexivity].
    f_equal. unfold sum_op. rewrite app_length, total_snoc. cbn [length].
    f_equal; [lia | ring |].
    rewrite combine_map_id, map_map. apply map_ext. intros N. cbn [fst snd]. rewrite total_snoc. ring.
Qed.

Lemma mom_set_moment_spec Ns xs s i N :
  Forall (fun N => 1 <= N)%nat Ns -> nth_error Ns i = Some N ->
  mom_set_run K Ns 0 xs = Some s ->
  mom_set_moment K s i = Some (Moment K N xs).
Proof.
  intros HN Hi Hs. rewrite mom_set_run_spec in Hs by exact HN. injection Hs as <-.
  unfold mom_set_moment; cbn [mo_sums mo_count].
  rewrite nth_error_map, Hi. cbn [option_map]. unfold moment_result, Moment, average.
  f_equal. f_equal. ring.
Qed.

Lemma mom_set_mean_spec Ns xs s :
  Forall (fun N => 1 <= N)%nat Ns ->
  mom_set_run K Ns 0 xs = Some s ->
  mom_set_mean K s = Mean K xs.
Proof.
  intros HN Hs. rewrite mom_set_run_spec in Hs by exact HN. injection Hs as <-.
  unfold mom_set_mean, mean_result, Mean, average; cbn [mo_sum mo_count]. f_equal. ring.
Qed.

Lemma avg_sub_raw2 xs : xs <> [] ->
  Variance K xs = Moment K 2 xs - Mean K xs * Mean K xs.
Proof.
  intros Hne. rewrite Variance_SS, SS_raw by exact Hne.
  unfold Moment, Mean, average.
  assert (Hn := length_neq0 xs Hne).
  replace (total K (fun x => power K x 2) xs) with (total K (fun x => x * x) xs)
    by (apply total_ext; intros; cbn [power]; ring).
  field. exact Hn.
Qed.

Lemma central3_raw xs : xs <> [] ->
  CentralMoment K 3 xs = Moment K 3 xs - #3 * Moment K 2 xs * Mean K xs
                         + #2 * Mean K xs * Mean K xs * Mean K xs.
Proof.
  intros Hne. unfold CentralMoment, average at 1.
  set (m := Mean K xs).
  assert (Hn := length_neq0 xs Hne).
  assert (Hraw : total K (fun x => power K (x - m) 3) xs
    = total K (fun x => power K x 3) xs - #3 * m * total K (fun x => power K x 2) xs
      + #3 * m * m * total K (fun x => x) xs - #(length xs) * (m * m * m)).
  { generalize m. clear - HK. intros m. induction xs as [|x xs IH]; rewrite ?total_nil, ?total_cons; cbn [length ofnat] in *.
    - ring.
    - rewrite IH. cbn [power]. ring. }
  assert (Hm : total K (fun x => x) xs = m * #(length xs)).
  { unfold m, Mean, average. field. exact Hn. }
  rewrite Hraw, Hm. unfold Moment, average. cbn [ofnat].
  field. exact Hn.
Qed.

Lemma central4_raw xs : xs <> [] ->
  CentralMoment K 4 xs = Moment K 4 xs - #4 * Moment K 3 xs * Mean K xs
                         + #6 * Moment K 2 xs * Mean K xs * Mean K xs
                         - #3 * Mean K xs * Mean K xs * Mean K xs * Mean K xs.
Proof.
  intros Hne. unfold CentralMoment, average at 1.
  set (m := Mean K xs).
  assert (Hn := length_neq0 xs Hne).
  assert (Hraw : total K (fun x => power K (x - m) 4) xs
    = total K (fun x => power K x 4) xs - #4 * m * total K (fun x => power K x 3) xs
      + #6 * m * m * total K (fun x => power K x 2) xs
      - #4 * m * m * m * total K (fun x => x) xs + #(length xs) * (m * m * m * m)).
  { generalize m. clear - HK. intros m. induction xs as [|x xs IH]; rewrite ?total_nil, ?total_cons; cbn [length ofnat] in *.
    - ring.
    - rewrite IH. cbn [power]. ring. }
  assert (Hm : total K (fun x => x) xs = m * #(length xs)).
  { unfold m, Mean, average. field. exact Hn. }
  rewrite Hraw, Hm. unfold Moment, average. cbn [ofnat].
  field. exact Hn.
Qed.

(** ** Covariance *)
Definition SXY (h : list (T * T)) : T :=
  total K (fun p => (fst p - Mean K (map fst h)) * (snd p - Mean K (map snd h))) h.

Lemma Mean_fst (h : list (T * T)) : Mean K (map fst h) = total K fst h / #(length h).
Proof. unfold Mean, average. rewrite total_map, map_length. reflexivity. Qed.
Lemma Mean_snd (h : list (T * T)) : Mean K (map snd h) = total K snd h / #(length h).
Proof. unfold Mean, average. rewrite total_map, map_length. reflexivity. Qed.

Lemma SXY_raw h : h <> [] ->
  SXY h = total K (fun p => fst p * snd p) h - total K fst h * total K snd h / #(length h).
Proof.
  intros Hne. unfold SXY. rewrite devxy_raw, Mean_fst, Mean_snd.
  assert (Hn := length_neq0 h Hne). field. exact Hn.
Qed.

Lemma cov_run_sums h :
  let s := cov_set_run K 0 0 h in
  cs_count K s = length h /\ cs_sum K s = total K fst h /\ cs_sumv K s = total K snd h.
Proof.
  induction h as [|xv h IH] using rev_ind.
  - cbn. repeat split; reflexivity.
  - unfold cov_set_run in *. rewrite fold_left_app, app_length, !total_snoc. cbn [fold_left].
    cbv zeta in *. destruct IH as (IH1 & IH2 & IH3).
    set (s := fold_left (cov_set_push K) h (cov_set_init K 0 0)) in *.
    unfold cov_set_push; cbn [cs_count cs_sum cs_sumv length].
    rewrite IH1, IH2, IH3. unfold sum_op. repeat split. lia.
Qed.

Lemma cov_run_inv h : h <> [] ->
  cs_cov K (cov_set_run K 0 0 h) * #(length h) = SXY h.
Proof.
  induction h as [|[x y] h IH] using rev_ind; intros Hne; [congruence|]. clear Hne.
  destruct (cov_run_sums h) as (Hc & Hs & Hv).
  destruct h as [|p h'].
  - cbn [cov_set_run app fold_left]. unfold cov_set_push, cov_set_init, covariance_op, covariance_init.
    cbn [cs_cov cs_count length]. change (Nat.ltb 1 1) with false. cbn iota.
    rewrite SXY_raw by discriminate. cbn [length]. rewrite !total_one, ofnat_1. cbn [fst snd].
    field. apply one_neq0.
  - set (hh := p :: h') in *.
    assert (Hxs : hh <> []) by (unfold hh; discriminate).
    specialize (IH Hxs).
    unfold cov_set_run in *. rewrite fold_left_app. cbn [fold_left].
    set (s := fold_left (cov_set_push K) hh (cov_set_init K 0 0)) in *.
    unfold cov_set_push; cbn [cs_cov fst snd]. rewrite Hc, Hs, Hv.
    unfold covariance_op, mean_result, sum_op.
    replace (Nat.ltb 1 (S (length hh))) with true by reflexivity.
    rewrite ofnat_pred.
    assert (Hn1 : #(length hh) <> 0) by (apply length_neq0; exact Hxs).
    assert (Hn2 : #(S (length hh)) <> 0) by apply ofnat_S_neq0.
    rewrite SXY_raw in * by (try exact Hxs; destruct hh; discriminate).
    rewrite app_length, !total_snoc in *. cbn [length fst snd]. rewrite Nat.add_1_r.
    cbn [ofnat] in *. set (n := #(length hh)) in *.
    set (q := total K (fun p => fst p * snd p) hh) in *.
    set (a := total K fst hh) in *. set (b := total K snd hh) in *.
    transitivity (cs_cov K s * n
       + ((b + y) / (n + 1) - y) * ((a + x) / (n + 1) - x) * (n + 1) / n).
    { field. split; assumption. }
    rewrite IH. field. split; assumption.
Qed.

Lemma cov_run_spec h : h <> [] -> cs_cov K (cov_set_run K 0 0 h) = Covariance K h.
Proof.
  intros Hne. unfold Covariance, average. apply eq_div_of_mul; [apply length_neq0; exact Hne|].
  apply cov_run_inv. exact Hne.
Qed.

(** ** Weighted statistics *)
Lemma PWN_app {A} (l : list (A * T)) x :
  PrefixWeightsNonzero K (l ++ [x]) -> PrefixWeightsNonzero K l.
Proof.
  intros H p q -> Hp. apply (H p (q ++ [x])); [rewrite app_assoc; reflexivity | exact Hp].
Qed.
Lemma PWN_self {A} (l : list (A * T)) :
  PrefixWeightsNonzero K l -> l <> [] -> TotalWeight K l <> 0.
Proof. intros H Hne. apply (H l []); [rewrite app_nil_r; reflexivity | exact Hne]. Qed.

Lemma wmean_set_run_spec s0 w0 h :
  wmean_set_run K s0 w0 h =
  {| wm_W := w0 + TotalWeight K h; wm_sum := s0 + total K (fun p => snd p * fst p) h |}.
Proof.
  induction h as [|[x w] h IH] using rev_ind.
  - unfold wmean_set_run, wmean_set_init, sum_init, weighted_sum_init, TotalWeight. cbn [fold_left]. rewrite !total_nil. f_equal; ring.
  - unfold wmean_set_run in *. rewrite fold_left_app, IH. cbn [fold_left].
    unfold wmean_set_push, sum_op, weighted_sum_op, TotalWeight; cbn [wm_W wm_sum fst snd].
    rewrite !total_snoc. cbn [fst snd]. f_equal; ring.
Qed.

Lemma wmean_set_spec h : wmean_set_mean K (wmean_set_run K 0 0 h) = WMean K h.
Proof.
  rewrite wmean_set_run_spec. unfold wmean_set_mean, weighted_mean_result, WMean, waverage.
  cbn [wm_W wm_sum]. f_equal; ring.
Qed.

Lemma wvar_run_counts s0 h :
  wv_count K (wvar_set_run K s0 0 h) = length h
  /\ wv_W K (wvar_set_run K s0 0 h) = TotalWeight K h.
Proof.
  induction h as [|[x w] h [IHc IHW]] using rev_ind; [split; reflexivity|].
  unfold wvar_set_run in *. rewrite fold_left_app, app_length. cbn [fold_left].
  unfold TotalWeight in *. rewrite total_snoc.
  set (s := fold_left (wvar_set_push K) h (wvar_set_init K s0 0)) in *.
  unfold wvar_set_push; cbn [wv_count wv_W length snd]. rewrite IHc, IHW. unfold sum_op.
  split; [lia | reflexivity].
Qed.

Lemma wvar_run_mean s0 h : PrefixWeightsNonzero K h ->
  wv_mean K (wvar_set_run K s0 0 h) * TotalWeight K h = total K (fun p => snd p * fst p) h.
Proof.
  induction h as [|[x w] h IH] using rev_ind; intros HW.
  - unfold TotalWeight. rewrite !total_nil. ring.
  - destruct (wvar_run_counts s0 h) as [Hc HWs].
    specialize (IH (PWN_app _ _ HW)).
    assert (HW1 := PWN_self _ HW ltac:(destruct h; discriminate)).
    unfold wvar_set_run in *. rewrite fold_left_app. cbn [fold_left].
    set (s := fold_left (wvar_set_push K) h (wvar_set_init K s0 0)) in *.
    unfold wvar_set_push; cbn [wv_mean]. rewrite HWs.
    unfold imm_weighted_mean_op, sum_op, TotalWeight in *. rewrite !total_snoc in *. cbn [fst snd] in *.
    set (W := total K snd h) in *. set (S := total K (fun p => snd p * fst p) h) in *.
    transitivity (wv_mean K s * W + x * w).
    { field. exact HW1. }
    rewrite IH. ring.
Qed.

(** Weighted sums of squares / products of deviations, raw form. *)
Lemma wdev2_raw (h : list (T * T)) c :
  total K (fun p => snd p * power K (fst p - c) 2) h
  = total K (fun p => snd p * (fst p * fst p)) h - (1 + 1) * c * total K (fun p => snd p * fst p) h
    + TotalWeight K h * (c * c).
Proof.
  unfold TotalWeight. induction h as [|[x w] h IH]; rewrite ?total_nil, ?total_cons.
  - ring.
  - rewrite IH. cbn [power fst snd]. ring.
Qed.

Definition WSS (h : list (T * T)) : T := total K (fun p => snd p * power K (fst p - WMean K h) 2) h.

Lemma WSS_raw h : TotalWeight K h <> 0 ->
  WSS h = total K (fun p => snd p * (fst p * fst p)) h
          - total K (fun p => snd p * fst p) h * total K (fun p => snd p * fst p) h / TotalWeight K h.
Proof.
  intros HW. unfold WSS. rewrite wdev2_raw. unfold WMean, waverage. field. exact HW.
Qed.

Lemma WVariance_WSS h : WVariance K h = WSS h / TotalWeight K h.
Proof. reflexivity. Qed.

Lemma wvar_run_inv s0 h : h <> [] -> PrefixWeightsNonzero K h ->
  exists c, wv_var K (wvar_set_run K s0 0 h) * TotalWeight K h = WSS h + c * s0
            /\ (s0 = 0 -> c * s0 = 0).
Proof.
  induction h as [|[x w] h IH] using rev_ind; intros Hne HW; [congruence|]. clear Hne.
  destruct (wvar_run_counts s0 h) as [Hc HWs].
  assert (HW1 := PWN_self _ HW ltac:(destruct h; discriminate)).
  destruct h as [|p h'].
  - exists w. split; [|intros ->; ring].
    cbn [wvar_set_run app fold_left]. unfold wvar_set_push, wvar_set_init, weighted_variance_op, weighted_variance_init.
    cbn [wv_var wv_count length]. change (Nat.ltb 1 1) with false. cbn iota.
    rewrite WSS_raw by exact HW1. unfold TotalWeight in *. cbn [app] in *. rewrite !total_one in *. cbn [fst snd] in *.
    field. repeat split; try assumption; apply one_neq0.
  - set (hh := p :: h') in *.
    assert (Hxs : hh <> []) by (unfold hh; discriminate).
    assert (HWh := PWN_app _ _ HW).
    specialize (IH Hxs HWh). destruct IH as (c & IH & Hc0). exists c. split; [|exact Hc0].
    assert (HW0 := PWN_self _ HWh Hxs).
    pose proof (wvar_run_mean s0 (hh ++ [(x, w)]) HW) as Hmean.
    unfold wvar_set_run in *. rewrite fold_left_app in *. cbn [fold_left] in *.
    set (s := fold_left (wvar_set_push K) hh (wvar_set_init K s0 0)) in *.
    unfold wvar_set_push in *; cbn [wv_var wv_mean] in *. rewrite Hc.
    set (m := imm_weighted_mean_op _ _ _ _ _) in *.
    unfold weighted_variance_op.
    replace (Nat.ltb 1 (S (length hh))) with true by reflexivity.
    apply eq_div_of_mul in Hmean; [|exact HW1]. rewrite Hmean. rewrite HWs.
    rewrite WSS_raw in * by assumption.
    unfold TotalWeight, sum_op in *. rewrite !total_snoc in *. cbn [fst snd] in *.
    set (W := total K snd hh) in *.
    set (q := total K (fun p => snd p * (fst p * fst p)) hh) in *.
    set (sm := total K (fun p => snd p * fst p) hh) in *.
    transitivity (wv_var K s * W
       + (x - (sm + w * x) / (W + w)) * (x - (sm + w * x) / (W + w)) * w * (W + w) / W).
    { field. repeat split; try assumption; replace (W + w - w) with W by ring; assumption. }
    rewrite IH. field. split; assumption.
Qed.

Lemma wvar_run_spec h : h <> [] -> PrefixWeightsNonzero K h ->
  wv_var K (wvar_set_run K 0 0 h) = WVariance K h.
Proof.
  intros Hne HW. rewrite WVariance_WSS. apply eq_div_of_mul; [apply PWN_self; assumption|].
  destruct (wvar_run_inv 0 h Hne HW) as (c & H & Hc). rewrite H, (Hc eq_refl). ring.
Qed.

Lemma wvar_run_mean_spec s0 h : h <> [] -> PrefixWeightsNonzero K h ->
  wv_mean K (wvar_set_run K s0 0 h) = WMean K h.
Proof.
  intros Hne HW. unfold WMean, waverage. apply eq_div_of_mul; [apply PWN_self; assumption|].
  apply wvar_run_mean. exact HW.
Qed.

Lemma weighted_moment_ops_spec Ns sums x w :
  Forall (fun N => 1 <= N)%nat Ns -> length sums = length Ns ->
  weighted_moment_ops K Ns sums x w
  = Some (map (fun p => snd p + w * power K x (fst p)) (combine Ns sums)).
Proof.
  revert sums; induction Ns as [|N Ns IH]; intros [|s sums] HN Hl; cbn [length] in Hl; try discriminate.
  - reflexivity.
  - inversion HN as [|? ? HN1 HN2]; subst. cbn [weighted_moment_ops].
    unfold weighted_moment_op at 1. rewrite npow_spec by assumption.
    rewrite IH by (auto; congruence). reflexivity.
Qed.

Lemma wmom_set_run_spec Ns s0 h :
  Forall (fun N => 1 <= N)%nat Ns ->
  wmom_set_run K Ns s0 0 h =
  Some {| wo_W := TotalWeight K h; wo_sum := s0 + total K (fun p => snd p * fst p) h;
          wo_sums := map (fun N => s0 + total K (fun p => snd p * power K (fst p) N) h) Ns |}.
Proof.
  intros HN. induction h as [|[x w] h IH] using rev_ind.
  - cbn [wmom_set_run fold_left]. unfold wmom_set_init, sum_init, weighted_moment_init, weighted_sum_init. f_equal.
    unfold TotalWeight. rewrite !total_nil. f_equal; [ring|]. apply map_ext. intros N. rewrite total_nil. ring.
  - unfold wmom_set_run in *. rewrite fold_left_app, IH. cbn [fold_left wmom_set_push wo_sums wo_W wo_sum].
    rewrite weighted_moment_ops_spec; [|assumption|rewrite map_length; reflexivity].
    f_equal. unfold sum_op, weighted_sum_op, TotalWeight. rewrite !total_snoc. cbn [fst snd].
    f_equal; [ring |].
    rewrite combine_map_id, map_map. apply map_ext. intros N. cbn [fst snd]. rewrite total_snoc. cbn [fst snd]. ring.
Qed.

Lemma wmom_set_moment_spec Ns h s i N :
  Forall (fun N => 1 <= N)%nat Ns -> nth_error Ns i = Some N ->
  wmom_set_run K Ns 0 0 h = Some s ->
  wmom_set_moment K s i = Some (WMoment K N h).
Proof.
  intros HN Hi Hs. rewrite wmom_set_run_spec in Hs by exact HN. injection Hs as <-.
  unfold wmom_set_moment; cbn [wo_sums wo_W].
  rewrite nth_error_map, Hi. cbn [option_map]. unfold weighted_moment_result, WMoment, waverage.
  f_equal. f_equal. ring.
Qed.

Lemma wmom_set_mean_spec Ns h s :
  Forall (fun N => 1 <= N)%nat Ns ->
  wmom_set_run K Ns 0 0 h = Some s ->
  wmom_set_mean K s = WMean K h.
Proof.
  intros HN Hs. rewrite wmom_set_run_spec in Hs by exact HN. injection Hs as <-.
  unfold wmom_set_mean, weighted_mean_result, WMean, waverage; cbn [wo_sum wo_W]. f_equal. ring.
Qed.

Lemma WVariance_raw h : TotalWeight K h <> 0 ->
  WVariance K h = WMoment K 2 h - WMean K h * WMean K h.
Proof.
  intros HW. rewrite WVariance_WSS, WSS_raw by exact HW.
  unfold WMoment, WMean, waverage.
  replace (total K (fun p => snd p * power K (fst p) 2) h) with (total K (fun p => snd p * (fst p * fst p)) h)
    by (apply total_ext; intros; cbn [power]; ring).
  field. exact HW.
Qed.

Lemma wcentral3_raw h : TotalWeight K h <> 0 ->
  WCentralMoment K 3 h = WMoment K 3 h - #3 * WMoment K 2 h * WMean K h
                         + #2 * WMean K h * WMean K h * WMean K h.
Proof.
  intros HW. unfold WCentralMoment, waverage at 1.
  set (m := WMean K h).
  assert (Hraw : total K (fun p => snd p * power K (fst p - m) 3) h
    = total K (fun p => snd p * power K (fst p) 3) h - #3 * m * total K (fun p => snd p * power K (fst p) 2) h
      + #3 * m * m * total K (fun p => snd p * fst p) h - TotalWeight K h * (m * m * m)).
  { generalize m. clear - HK. intros m. unfold TotalWeight. induction h as [|[x w] h IH]; rewrite ?total_nil, ?total_cons; cbn [ofnat] in *.
    - ring.
    - rewrite IH. cbn [power fst snd]. ring. }
  assert (Hm : total K (fun p => snd p * fst p) h = m * TotalWeight K h).
  { unfold m, WMean, waverage. field. exact HW. }
  rewrite Hraw, Hm. unfold WMoment, waverage. cbn [ofnat].
  field. exact HW.
Qed.

Lemma wcentral4_raw h : TotalWeight K h <> 0 ->
  WCentralMoment K 4 h = WMoment K 4 h - #4 * WMoment K 3 h * WMean K h
                         + #6 * WMoment K 2 h * WMean K h * WMean K h
                         - #3 * WMean K h * WMean K h * WMean K h * WMean K h.
Proof.
  intros HW. unfold WCentralMoment, waverage at 1.
  set (m := WMean K h).
  assert (Hraw : total K (fun p => snd p * power K (fst p - m) 4) h
    = total K (fun p => snd p * power K (fst p) 4) h - #4 * m * total K (fun p => snd p * power K (fst p) 3) h
      + #6 * m * m * total K (fun p => snd p * power K (fst p) 2) h
      - #4 * m * m * m * total K (fun p => snd p * fst p) h + TotalWeight K h * (m * m * m * m)).
  { generalize m. clear - HK. intros m. unfold TotalWeight. induction h as [|[x w] h IH]; rewrite ?total_nil, ?total_cons; cbn [ofnat] in *.
    - ring.
    - rewrite IH. cbn [power fst snd]. ring. }
  assert (Hm : total K (fun p => snd p * fst p) h = m * TotalWeight K h).
  { unfold m, WMean, waverage. field. exact HW. }
  rewrite Hraw, Hm. unfold WMoment, waverage. cbn [ofnat].
  field. exact HW.
Qed.

(** ** Weighted covariance *)
Definition WSXY (h : list (T * T * T)) : T :=
  total K (fun p => snd p * ((fst (fst p) - waverage K fst h) * (snd (fst p) - waverage K snd h))) h.

Lemma WSXY_raw h : TotalWeight K h <> 0 ->
  WSXY h = total K (fun p => snd p * (fst (fst p) * snd (fst p))) h
           - total K (fun p => snd p * fst (fst p)) h * total K (fun p => snd p * snd (fst p)) h / TotalWeight K h.
Proof.
  intros HW. unfold WSXY.
  set (a := waverage K fst h). set (b := waverage K snd h).
  assert (Hraw : total K (fun p => snd p * ((fst (fst p) - a) * (snd (fst p) - b))) h
    = total K (fun p => snd p * (fst (fst p) * snd (fst p))) h
      - a * total K (fun p => snd p * snd (fst p)) h - b * total K (fun p => snd p * fst (fst p)) h
      + TotalWeight K h * (a * b)).
  { generalize a b. clear - HK. intros a b. unfold TotalWeight. induction h as [|[[x y] w] h IH]; rewrite ?total_nil, ?total_cons.
    - ring.
    - rewrite IH. cbn [fst snd]. ring. }
  rewrite Hraw. unfold a, b, waverage. field. exact HW.
Qed.

Lemma wcov_run_sums h :
  let s := wcov_set_run K 0 0 0 h in
  wc_count K s = length h /\ wc_W K s = TotalWeight K h
  /\ wc_sum K s = total K (fun p => snd p * fst (fst p)) h
  /\ wc_sumv K s = total K (fun p => snd p * snd (fst p)) h.
Proof.
  cbv zeta. induction h as [|[[x v] w] h IH] using rev_ind.
  - unfold wcov_set_run; cbn [fold_left]. unfold wcov_set_init; cbn [wc_count wc_W wc_sum wc_sumv]. unfold weighted_sum_init, sum_init, TotalWeight. rewrite !total_nil. repeat split; ring.
  - destruct IH as (IH1 & IH2 & IH3 & IH4).
    unfold wcov_set_run in *. rewrite fold_left_app, app_length. cbn [fold_left].
    unfold TotalWeight in *. rewrite !total_snoc.
    set (s := fold_left (wcov_set_push K) h (wcov_set_init K 0 0 0)) in *.
    unfold wcov_set_push; cbn [wc_count wc_sum wc_sumv wc_W length fst snd].
    rewrite IH1, IH2, IH3, IH4. unfold sum_op, weighted_sum_op. repeat split; try ring; lia.
Qed.

Lemma wcov_run_inv h : h <> [] -> PrefixWeightsNonzero K h ->
  wc_cov K (wcov_set_run K 0 0 0 h) * TotalWeight K h = WSXY h.
Proof.
  induction h as [|[[x y] w] h IH] using rev_ind; intros Hne HW; [congruence|]. clear Hne.
  destruct (wcov_run_sums h) as (Hc & HWs & Hs & Hv).
  assert (HW1 := PWN_self _ HW ltac:(destruct h; discriminate)).
  destruct h as [|p h'].
  - cbn [wcov_set_run app fold_left]. unfold wcov_set_push, wcov_set_init, weighted_covariance_op, weighted_covariance_init.
    cbn [wc_cov wc_count length]. change (Nat.ltb 1 1) with false. cbn iota.
    rewrite WSXY_raw by exact HW1. unfold TotalWeight in *. cbn [app] in *. rewrite !total_one in *. cbn [fst snd] in *.
    field. repeat split; try assumption; apply one_neq0.
  - set (hh := p :: h') in *.
    assert (Hxs : hh <> []) by (unfold hh; discriminate).
    assert (HWh := PWN_app _ _ HW).
    specialize (IH Hxs HWh).
    assert (HW0 := PWN_self _ HWh Hxs).
    unfold wcov_set_run in *. rewrite fold_left_app. cbn [fold_left].
    set (s := fold_left (wcov_set_push K) hh (wcov_set_init K 0 0 0)) in *.
    unfold wcov_set_push; cbn [wc_cov fst snd]. rewrite Hc, Hs, Hv, HWs.
    unfold weighted_covariance_op, weighted_mean_result, weighted_sum_op, sum_op.
    replace (Nat.ltb 1 (S (length hh))) with true by reflexivity.
    rewrite WSXY_raw in * by assumption.
    unfold TotalWeight in *. rewrite !total_snoc in *. cbn [fst snd] in *.
    set (W := total K snd hh) in *.
    set (q := total K (fun p => snd p * (fst (fst p) * snd (fst p))) hh) in *.
    set (a := total K (fun p => snd p * fst (fst p)) hh) in *.
    set (b := total K (fun p => snd p * snd (fst p)) hh) in *.
    transitivity (wc_cov K s * W
       + ((b + y * w) / (W + w) - y) * ((a + x * w) / (W + w) - x) * w * (W + w) / W).
    { field. repeat split; try assumption; replace (W + w - w) with W by ring; assumption. }
    rewrite IH. field. split; assumption.
Qed.

Lemma wcov_run_spec h : h <> [] -> PrefixWeightsNonzero K h ->
  wc_cov K (wcov_set_run K 0 0 0 h) = WCovariance K h.
Proof.
  intros Hne HW. unfold WCovariance, waverage at 1. apply eq_div_of_mul; [apply PWN_self; assumption|].
  apply wcov_run_inv; assumption.
Qed.

End Field.
