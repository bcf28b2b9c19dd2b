(** Inequalities between statistics, in any ordered field. *)
From Coq Require Import List Arith Bool Field Lia.
From Verif Require Import Num NumFacts SpecStats SpecRolling SpecTail SpecDensity SpecPSquare ModelBasic ModelRolling
  ProofBasic ProofBasic2 ProofBasic3 ProofRolling ProofOrder.
Import ListNotations.

Section Bounds.
Variable K : Num.
Hypothesis HO : OrderedLaws K.
Let HK : FieldLaws K := ord_field K HO.
Local Notation T := (car K).
Local Notation "0" := (zero K) : num_scope.
Local Notation "1" := (one K) : num_scope.
Local Notation "x + y" := (add K x y) : num_scope.
Local Notation "x - y" := (sub K x y) : num_scope.
Local Notation "x * y" := (mul K x y) : num_scope.
Local Notation "x / y" := (div K x y) : num_scope.
Local Notation "# n" := (ofnat K n) (at level 2) : num_scope.
Local Open Scope num_scope.
Add Field KfieldB : (fl_field K HK).
Local Infix "<" := (klt K) : num_scope.
Local Infix "<=" := (kle K) : num_scope.

Lemma ksq x : 0 <= x * x.
Proof. exact (sq_nonneg K HO x). Qed.
Lemma kdivle x y z : 0 < z -> x <= y -> x / z <= y / z.
Proof.
  intros Hz H. apply (ksub_nonneg K HO). replace (y / z - x / z) with ((y - x) / z).
  - apply (kdiv_nonneg K HO); auto. now apply (ksub_nonneg K HO).
  - field. now apply (kpos_neq0 K HO).
Qed.
Lemma knonneg_or_neg x : x <= 0 -> 0 <= x -> x = 0.
Proof. intros. now apply (kle_antisym K HO). Qed.
Lemma ksq_le0 b : b * b <= 0 -> b = 0.
Proof.
  intros H. assert (E : b * b = 0) by (apply (kle_antisym K HO); [exact H|apply ksq]).
  destruct (klt_cases K HO 0 b) as [C|[C|C]]; auto.
  - exfalso. apply (klt_irrefl K HO 0). rewrite <- E at 2. now apply (kmul_pos K HO).
  - exfalso. apply (klt_irrefl K HO 0). rewrite <- E at 2. replace (b * b) with ((0 - b) * (0 - b)) by ring.
    apply (kmul_pos K HO); now apply (ksub_pos K HO).
Qed.
Lemma knonneg_cancel c x : 0 < c -> 0 <= x * c -> 0 <= x.
Proof.
  intros Hc H. replace x with (x * c / c) by (field; now apply (kpos_neq0 K HO)). now apply (kdiv_nonneg K HO).
Qed.

(** A nonnegative form: sums with nonnegative weights. *)
Section Weighted.
Context {A : Type}.
Variable w : A -> T.
Definition wsum (f : A -> T) (l : list A) : T := total K (fun x => w x * f x) l.
Definition Nonneg (l : list A) : Prop := forall x, In x l -> 0 <= w x.
Lemma Nonneg_cons x l : Nonneg (x :: l) -> 0 <= w x /\ Nonneg l.
Proof. intros H. split; [apply H; now left|]. intros y Hy. apply H. now right. Qed.
Lemma wsum_nonneg f l : Nonneg l -> (forall x, In x l -> 0 <= f x) -> 0 <= wsum f l.
Proof.
  unfold wsum. induction l as [|x l IH]; intros HN Hf; [apply (kle_refl K HO)|].
  apply Nonneg_cons in HN as [Hx HN]. rewrite total_cons. replace 0 with (0 + 0) by ring.
  apply (kadd_le2 K HO); [apply (kmul_nonneg K HO); auto; apply Hf; now left|].
  apply IH; auto. intros y Hy. apply Hf. now right.
Qed.
Lemma wsum_ext f g l : (forall x, In x l -> f x = g x) -> wsum f l = wsum g l.
Proof. intros H. apply total_ext. intros x Hx. now rewrite H. Qed.
Lemma wsum_add f g l : wsum (fun x => f x + g x) l = wsum f l + wsum g l.
Proof. unfold wsum. rewrite <- (total_add K HK). apply total_ext. intros. ring. Qed.
Lemma wsum_sub f g l : wsum (fun x => f x - g x) l = wsum f l - wsum g l.
Proof. unfold wsum. rewrite <- (total_sub K HK). apply total_ext. intros. ring. Qed.
Lemma wsum_scale c f l : wsum (fun x => c * f x) l = c * wsum f l.
Proof. unfold wsum. rewrite <- (total_scale K HK). apply total_ext. intros. ring. Qed.
Lemma wsum_const c l : wsum (fun _ => c) l = c * total K w l.
Proof. unfold wsum. rewrite <- (total_scale K HK). apply total_ext. intros. ring. Qed.

(** Cauchy-Schwarz *)
Lemma cs_step a b c f g : 0 <= a -> 0 <= c -> b * b <= a * c -> 0 <= f * f * c + g * g * a - (1 + 1) * (f * g * b).
Proof.
  intros Ha Hc Hb. destruct (klt_cases K HO 0 c) as [C|[C|C]].
  - apply (knonneg_cancel c); auto.
    replace ((f * f * c + g * g * a - (1 + 1) * (f * g * b)) * c) with ((f * c - g * b) * (f * c - g * b) + g * g * (a * c - b * b)) by ring.
    replace 0 with (0 + 0) by ring. apply (kadd_le2 K HO); [apply ksq|]. apply (kmul_nonneg K HO); [apply ksq|].
    now apply (ksub_nonneg K HO).
  - assert (b = 0). { apply ksq_le0. rewrite <- C in Hb. replace (a * 0) with 0 in Hb by ring. exact Hb. }
    subst b. rewrite <- C. replace (f * f * 0 + g * g * a - (1 + 1) * (f * g * 0)) with (g * g * a) by ring.
    apply (kmul_nonneg K HO); [apply ksq|exact Ha].
  - exfalso. apply (knot_lt K) in Hc. contradiction.
Qed.
Lemma cauchy_schwarz f g l : Nonneg l ->
  wsum (fun x => f x * g x) l * wsum (fun x => f x * g x) l <= wsum (fun x => f x * f x) l * wsum (fun x => g x * g x) l.
Proof.
  unfold wsum. induction l as [|x l IH]; intros HN.
  - cbn. apply (kle_refl K HO).
  - apply Nonneg_cons in HN as [Hx HN]. specialize (IH HN). rewrite !total_cons.
    assert (Ha : 0 <= total K (fun x => w x * (f x * f x)) l) by (apply (wsum_nonneg (fun x => f x * f x)); auto; intros; apply ksq).
    assert (Hc : 0 <= total K (fun x => w x * (g x * g x)) l) by (apply (wsum_nonneg (fun x => g x * g x)); auto; intros; apply ksq).
    pose proof (cs_step _ _ _ (f x) (g x) Ha Hc IH) as S. revert Ha Hc IH S.
    generalize (total K (fun x => w x * (f x * f x)) l) (total K (fun x => w x * (f x * g x)) l) (total K (fun x => w x * (g x * g x)) l).
    intros a b c Ha Hc IH S. apply (ksub_nonneg K HO).
    replace ((w x * (f x * f x) + a) * (w x * (g x * g x) + c) - (w x * (f x * g x) + b) * (w x * (f x * g x) + b))
      with ((a * c - b * b) + w x * (f x * f x * c + g x * g x * a - (1 + 1) * (f x * g x * b))) by ring.
    replace 0 with (0 + 0) by ring. apply (kadd_le2 K HO); [now apply (ksub_nonneg K HO)|]. now apply (kmul_nonneg K HO).
Qed.

(** The mean form, for a positive total weight. *)
Variable l : list A.
Hypothesis HN : Nonneg l.
Hypothesis HW : 0 < total K w l.
Definition E (f : A -> T) : T := wsum f l / total K w l.
Let HW0 : total K w l <> 0.
Proof. now apply (kpos_neq0 K HO). Qed.
Lemma E_ext f g : (forall x, In x l -> f x = g x) -> E f = E g.
Proof. intros H. unfold E. now rewrite (wsum_ext f g). Qed.
Lemma E_add f g : E (fun x => f x + g x) = E f + E g.
Proof. unfold E. rewrite wsum_add. field. exact HW0. Qed.
Lemma E_sub f g : E (fun x => f x - g x) = E f - E g.
Proof. unfold E. rewrite wsum_sub. field. exact HW0. Qed.
Lemma E_scale c f : E (fun x => c * f x) = c * E f.
Proof. unfold E. rewrite wsum_scale. field. exact HW0. Qed.
Lemma E_const c : E (fun _ => c) = c.
Proof. unfold E. rewrite wsum_const. field. exact HW0. Qed.
Lemma E_nonneg f : (forall x, In x l -> 0 <= f x) -> 0 <= E f.
Proof. intros H. unfold E. apply (kdiv_nonneg K HO); auto. now apply wsum_nonneg. Qed.
Lemma E_le f g : (forall x, In x l -> f x <= g x) -> E f <= E g.
Proof.
  intros H. apply (ksub_nonneg K HO). rewrite <- E_sub. apply E_nonneg. intros x Hx. now apply (ksub_nonneg K HO), H.
Qed.
Lemma E_cs f g : E (fun x => f x * g x) * E (fun x => f x * g x) <= E (fun x => f x * f x) * E (fun x => g x * g x).
Proof.
  unfold E. replace (wsum (fun x => f x * g x) l / total K w l * (wsum (fun x => f x * g x) l / total K w l))
    with (wsum (fun x => f x * g x) l * wsum (fun x => f x * g x) l / (total K w l * total K w l)) by (field; exact HW0).
  replace (wsum (fun x => f x * f x) l / total K w l * (wsum (fun x => g x * g x) l / total K w l))
    with (wsum (fun x => f x * f x) l * wsum (fun x => g x * g x) l / (total K w l * total K w l)) by (field; exact HW0).
  apply kdivle; [now apply (kmul_pos K HO)|]. now apply cauchy_schwarz.
Qed.

Variable X : A -> T.
Let m := E X.
Definition dev (x : A) : T := X x - m.
Let var := E (fun x => dev x * dev x).
Lemma E_mean_bounds lo hi : (forall x, In x l -> lo <= X x) -> (forall x, In x l -> X x <= hi) -> lo <= m /\ m <= hi.
Proof. intros H1 H2. split; [rewrite <- (E_const lo)|rewrite <- (E_const hi)]; apply E_le; auto. Qed.
Lemma E_var_nonneg : 0 <= var.
Proof. apply E_nonneg. intros. apply ksq. Qed.
Lemma E_dev0 : E dev = 0.
Proof. unfold dev. rewrite (E_sub X (fun _ => m)), E_const. unfold m. ring. Qed.
Lemma E_var_raw : var = E (fun x => X x * X x) - m * m.
Proof.
  unfold var, dev. rewrite (E_ext _ (fun x => X x * X x - (((1 + 1) * m) * X x - m * m))) by (intros; ring).
  rewrite E_sub, (E_sub (fun x => (1 + 1) * m * X x) (fun _ => m * m)), E_scale, E_const. fold m. ring.
Qed.
Lemma E_bhatia_davis lo hi : (forall x, In x l -> lo <= X x) -> (forall x, In x l -> X x <= hi) ->
  var <= (hi - m) * (m - lo).
Proof.
  intros H1 H2. apply (ksub_nonneg K HO).
  assert (H : 0 <= E (fun x => (hi - X x) * (X x - lo))).
  { apply E_nonneg. intros x Hx. apply (kmul_nonneg K HO); apply (ksub_nonneg K HO); auto. }
  rewrite (E_ext _ (fun x => ((hi + lo) * X x - hi * lo) - X x * X x)) in H by (intros; ring).
  rewrite E_sub, (E_sub (fun x => (hi + lo) * X x) (fun _ => hi * lo)), E_scale, E_const in H. fold m in H.
  rewrite E_var_raw. replace ((hi - m) * (m - lo) - (E (fun x => X x * X x) - m * m))
    with ((hi + lo) * m - hi * lo - E (fun x => X x * X x)) by ring. exact H.
Qed.
Lemma E_kurtosis : E (fun x => dev x * dev x * dev x) * E (fun x => dev x * dev x * dev x)
  <= (E (fun x => dev x * dev x * (dev x * dev x)) - var * var) * var.
Proof.
  pose proof (E_cs (fun x => dev x * dev x - var) dev) as H. cbv beta in H.
  rewrite (E_ext (fun x => (dev x * dev x - var) * dev x) (fun x => dev x * dev x * dev x - var * dev x)) in H by (intros; ring).
  rewrite E_sub, E_scale, E_dev0 in H. replace (E (fun x => dev x * dev x * dev x) - var * 0) with (E (fun x => dev x * dev x * dev x)) in H by ring.
  rewrite (E_ext (fun x => (dev x * dev x - var) * (dev x * dev x - var))
     (fun x => dev x * dev x * (dev x * dev x) - (((1 + 1) * var) * (dev x * dev x) - var * var))) in H by (intros; ring).
  rewrite E_sub, (E_sub (fun x => (1 + 1) * var * (dev x * dev x)) (fun _ => var * var)), E_scale, E_const in H. fold var in H.
  replace (E (fun x => dev x * dev x * (dev x * dev x)) - ((1 + 1) * var * var - var * var))
    with (E (fun x => dev x * dev x * (dev x * dev x)) - var * var) in H by ring. exact H.
Qed.
(** The variance vanishes exactly when every sample of positive weight is the mean. *)
Lemma wsum_zero f : (forall x, In x l -> 0 <= f x) -> wsum f l = 0 -> forall x, In x l -> 0 < w x -> f x = 0.
Proof.
  clear HW HW0 m var X. unfold wsum. revert HN. induction l as [|y k IH]; intros HN Hf H x Hx Hw; [destruct Hx|].
  apply Nonneg_cons in HN as [Hy HN']. rewrite total_cons in H.
  assert (Hfy : 0 <= f y) by (apply Hf; now left).
  assert (Hf' : forall z, In z k -> 0 <= f z) by (intros z Hz; apply Hf; now right).
  assert (A1 : 0 <= w y * f y) by now apply (kmul_nonneg K HO).
  assert (A2 : 0 <= total K (fun x => w x * f x) k) by (apply (wsum_nonneg f k); auto).
  assert (B1 : w y * f y = 0).
  { apply (kle_antisym K HO); auto. rewrite <- H. replace (w y * f y) with (w y * f y + 0) at 1 by ring.
    apply (kadd_le2 K HO); [apply (kle_refl K HO)|exact A2]. }
  assert (B2 : total K (fun x => w x * f x) k = 0). { rewrite B1 in H. rewrite <- H. ring. }
  destruct Hx as [<-|Hx]; [|now apply IH].
  destruct (klt_cases K HO 0 (f y)) as [C|[C|C]]; auto.
  - exfalso. apply (klt_irrefl K HO 0). rewrite <- B1 at 2. now apply (kmul_pos K HO).
  - exfalso. apply (knot_lt K) in Hfy. contradiction.
Qed.
Lemma E_var_zero : var = 0 <-> forall x, In x l -> 0 < w x -> X x = m.
Proof.
  split; intros H.
  - intros x Hx Hw. assert (HS : wsum (fun x => dev x * dev x) l = 0).
    { unfold var, E in H. replace (wsum (fun x => dev x * dev x) l) with (wsum (fun x => dev x * dev x) l / total K w l * total K w l) by (field; exact HW0).
      rewrite H. ring. }
    pose proof (wsum_zero (fun x => dev x * dev x) (fun x _ => ksq (dev x)) HS x Hx Hw) as D. cbv beta in D.
    assert (D0 : dev x = 0). { apply ksq_le0. rewrite D. apply (kle_refl K HO). }
    unfold dev in D0. replace (X x) with (X x - m + m) by ring. rewrite D0. ring.
  - unfold var, E. assert (HS : wsum (fun x => dev x * dev x) l = 0).
    { unfold wsum. rewrite <- (total_scale_r K HK 0 w l : total K (fun x => w x * 0) l = total K w l * 0) || idtac.
      transitivity (total K (fun _ : A => 0) l).
      - apply total_ext. intros x Hx. destruct (klt_cases K HO 0 (w x)) as [C|[C|C]].
        + unfold dev. rewrite (H x Hx C). ring.
        + rewrite <- C. ring.
        + exfalso. specialize (HN x Hx). apply (knot_lt K) in HN. contradiction.
      - rewrite (total_const K HK). ring. }
    rewrite HS. field. exact HW0.
Qed.
End Weighted.

(** ** Unweighted histories *)
Lemma average_E {A} (f : A -> T) (l : list A) : l <> [] -> average K f l = E (fun _ => 1) l f.
Proof.
  intros H. unfold average, E, wsum. rewrite (total_const K HK). rewrite (total_ext K (fun x => 1 * f x) f) by (intros; ring).
  field. now apply (length_neq0 K HK).
Qed.
Lemma ones_nonneg {A} (l : list A) : Nonneg (fun _ => 1) l.
Proof. intros x _. apply (klt_le K HO), (kone_pos K HO). Qed.
Lemma ones_pos {A} (l : list A) : l <> [] -> 0 < total K (fun _ => 1) l.
Proof.
  intros H. rewrite (total_const K HK). destruct l as [|x l]; [congruence|].
  replace (#(length (x :: l)) * 1) with (#(length (x :: l))) by ring. apply (kofnat_pos K HO).
Qed.
Lemma power2 x : power K x 2 = x * x.
Proof. cbn. ring. Qed.
Lemma power3 x : power K x 3 = x * x * x.
Proof. cbn. ring. Qed.
Lemma power4 x : power K x 4 = x * x * (x * x).
Proof. cbn. ring. Qed.
Lemma Mean_E xs : xs <> [] -> Mean K xs = E (fun _ => 1) xs (fun x => x).
Proof. apply average_E. Qed.
Lemma Central_E k xs : xs <> [] -> CentralMoment K k xs = E (fun _ => 1) xs (fun x => power K (dev (fun _ => 1) xs (fun x => x) x) k).
Proof. intros H. unfold CentralMoment. rewrite average_E by auto. unfold dev. now rewrite Mean_E. Qed.
Lemma Variance_E xs : xs <> [] -> Variance K xs = E (fun _ => 1) xs (fun x => dev (fun _ => 1) xs (fun x => x) x * dev (fun _ => 1) xs (fun x => x) x).
Proof. intros H. unfold Variance. rewrite Central_E by auto. apply E_ext. intros x _. apply power2. Qed.
Lemma IsMin_ne xs lo : IsMin K xs lo -> xs <> [].
Proof. intros [H _] ->. destruct H. Qed.
Lemma Mean_between xs lo hi : IsMin K xs lo -> IsMax K xs hi -> Between K lo (Mean K xs) hi.
Proof.
  intros Hlo Hhi. assert (N := IsMin_ne _ _ Hlo). rewrite Mean_E by auto.
  destruct (E_mean_bounds (fun _ => 1) xs (ones_nonneg xs) (ones_pos xs N) (fun x => x) lo hi) as [A B].
  - apply Hlo.
  - apply Hhi.
  - split; assumption.
Qed.
Lemma Variance_bounds xs lo hi : IsMin K xs lo -> IsMax K xs hi ->
  0 <= Variance K xs /\ Variance K xs <= (hi - Mean K xs) * (Mean K xs - lo)
  /\ (Variance K xs = 0 <-> forall x, In x xs -> x = Mean K xs).
Proof.
  intros Hlo Hhi. assert (N := IsMin_ne _ _ Hlo). rewrite Variance_E, Mean_E by auto. split; [|split].
  - apply E_var_nonneg; [apply ones_nonneg|now apply ones_pos].
  - apply E_bhatia_davis; [apply ones_nonneg|now apply ones_pos|apply Hlo|apply Hhi].
  - rewrite (E_var_zero (fun _ => 1) xs (ones_nonneg xs) (ones_pos xs N) (fun x => x)).
    split; intros H x Hx; [apply H; auto; apply (kone_pos K HO)|intros _; now apply H].
Qed.
Lemma Variance_nonneg xs : xs <> [] -> 0 <= Variance K xs.
Proof. intros N. rewrite Variance_E by auto. apply E_var_nonneg; [apply ones_nonneg|now apply ones_pos]. Qed.

Lemma bounds_unweighted (s0 : T) (xs : list T) (lo hi : T) : IsMin K xs lo -> IsMax K xs hi ->
  let m := mean_set_mean K (mean_set_run K 0 xs) in
  let v := vs_var K (var_set_run K 0 xs) in
  Between K lo m hi /\ im_mean K (imean_set_run K s0 xs) = m
  /\ ltb K v 0 = false /\ ltb K ((hi - m) * (m - lo)) v = false /\ (v = 0 <-> forall x, In x xs -> x = m)
  /\ lazy_variance_run K 0 xs = Some v.
Proof.
  intros Hlo Hhi. assert (N := IsMin_ne _ _ Hlo). cbv zeta.
  rewrite (mean_set_spec K HK), (imean_run_spec K HK), (var_run_spec K HK), (lazy_variance_run_spec K HK) by auto.
  split; [now apply Mean_between|]. split; auto. destruct (Variance_bounds xs lo hi Hlo Hhi) as (A & B & C). repeat split; auto; apply C.
Qed.
Lemma bounds_covariance (h : list (T * T)) : h <> [] ->
  let c := cs_cov K (cov_set_run K 0 0 h) in
  ltb K (vs_var K (var_set_run K 0 (map fst h)) * vs_var K (var_set_run K 0 (map snd h))) (c * c) = false.
Proof.
  intros N. cbv zeta. assert (N1 : map fst h <> []) by (destruct h; [congruence|discriminate]).
  assert (N2 : map snd h <> []) by (destruct h; [congruence|discriminate]).
  rewrite (cov_run_spec K HK), !(var_run_spec K HK) by auto.
  pose proof (E_cs (fun _ => 1) h (ones_nonneg h) (ones_pos h N) (fun p => fst p - Mean K (map fst h)) (fun p => snd p - Mean K (map snd h))) as H.
  cbv beta in H. rewrite <- !average_E in H by auto.
  assert (V1 : Variance K (map fst h) = average K (fun p => (fst p - Mean K (map fst h)) * (fst p - Mean K (map fst h))) h).
  { unfold Variance, CentralMoment, average. rewrite total_map, map_length. f_equal. apply total_ext. intros. apply power2. }
  assert (V2 : Variance K (map snd h) = average K (fun p => (snd p - Mean K (map snd h)) * (snd p - Mean K (map snd h))) h).
  { unfold Variance, CentralMoment, average. rewrite total_map, map_length. f_equal. apply total_ext. intros. apply power2. }
  rewrite V1, V2. exact H.
Qed.

(** skewness squared against kurtosis, from the central moments *)
Lemma shape_bound (v s m3 m4 : T) : 0 < v -> s * s = v -> m3 * m3 <= (m4 - v * v) * v ->
  m3 / (v * s) * (m3 / (v * s)) - #2 <= m4 / (v * v) - #3.
Proof.
  intros Hv Hs H. assert (Hv0 : v <> 0) by now apply (kpos_neq0 K HO).
  assert (Hs0 : s <> 0). { intros ->. apply Hv0. rewrite <- Hs. ring. }
  assert (E1 : m3 / (v * s) * (m3 / (v * s)) = m3 * m3 / (v * v * v)).
  { rewrite <- Hs. field. exact Hs0. }
  rewrite E1. apply (ksub_nonneg K HO).
  replace (m4 / (v * v) - #3 - (m3 * m3 / (v * v * v) - #2)) with (((m4 - v * v) * v - m3 * m3) / (v * v * v)).
  - apply (kdiv_nonneg K HO); [now apply (ksub_nonneg K HO)|]. repeat apply (kmul_pos K HO); auto.
  - cbn [ofnat]. field. exact Hv0.
Qed.
Lemma bounds_shape (sqrt : T -> T) (xs : list T) : (forall v, 0 < v -> sqrt v * sqrt v = v) -> xs <> [] ->
  vs_var K (var_set_run K 0 xs) <> 0 ->
  exists g k, skewness_run K sqrt 0 xs = Some g /\ kurtosis_run K 0 xs = Some k /\ ltb K k (g * g - #2) = false.
Proof.
  intros Hsq N. rewrite (var_run_spec K HK) by auto. intros Hv. do 2 eexists.
  split; [apply (skewness_run_spec K HK); auto|]. split; [apply (kurtosis_run_spec K HK); auto|].
  assert (HV : 0 < Variance K xs).
  { destruct (klt_cases K HO 0 (Variance K xs)) as [C|[C|C]]; auto; [congruence|].
    exfalso. pose proof (Variance_nonneg xs N) as P. apply (knot_lt K) in P. contradiction. }
  apply shape_bound; auto. rewrite !Central_E, Variance_E by auto.
  pose proof (E_kurtosis (fun _ => 1) xs (ones_nonneg xs) (ones_pos xs N) (fun x => x)) as H.
  rewrite (E_ext (fun _ => 1) xs (fun x => power K (dev (fun _ => 1) xs (fun x => x) x) 3) _ (fun x _ => power3 _)).
  rewrite (E_ext (fun _ => 1) xs (fun x => power K (dev (fun _ => 1) xs (fun x => x) x) 4) _ (fun x _ => power4 _)).
  exact H.
Qed.

(** ** Weighted histories *)
Lemma PWN_map {A B} (g : A -> B) (h : list (A * T)) : PrefixWeightsNonzero K h -> PrefixWeightsNonzero K (map (fun p => (g (fst p), snd p)) h).
Proof.
  intros H p q E Hp. apply map_eq_app in E. destruct E as (p0 & q0 & -> & <- & _).
  unfold TotalWeight. rewrite (total_map K). cbn [snd]. apply (H p0 q0 eq_refl). intros ->. apply Hp. reflexivity.
Qed.
Definition NonnegWeights {A} (h : list (A * T)) : Prop := Forall (fun p => 0 <= snd p) h.
Lemma nnw {A} (h : list (A * T)) : NonnegWeights h -> Nonneg snd h.
Proof. intros H x Hx. unfold NonnegWeights in H. rewrite Forall_forall in H. now apply H. Qed.
Lemma total_pos {A} (h : list (A * T)) : h <> [] -> NonnegWeights h -> PrefixWeightsNonzero K h -> 0 < total K snd h.
Proof.
  intros N H P. pose proof (PWN_self K h P N) as Q. unfold TotalWeight in Q.
  assert (L : 0 <= total K snd h).
  { pose proof (wsum_nonneg snd (fun _ => 1) h (nnw h H) (fun _ _ => klt_le K HO _ _ (kone_pos K HO))) as L.
    unfold wsum in L. rewrite (total_ext K _ snd) in L; [exact L|]. intros. ring. }
  destruct (klt_cases K HO 0 (total K snd h)) as [C|[C|C]]; auto; [congruence|]. exfalso. apply (knot_lt K) in L. contradiction.
Qed.
Lemma WMean_E h : WMean K h = E snd h fst.
Proof. reflexivity. Qed.
Lemma WCentral_E k h : WCentralMoment K k h = E snd h (fun p => power K (dev snd h fst p) k).
Proof. reflexivity. Qed.
Lemma WVariance_E h : WVariance K h = E snd h (fun p => dev snd h fst p * dev snd h fst p).
Proof. unfold WVariance. rewrite WCentral_E. apply E_ext. intros x _. apply power2. Qed.
Lemma bounds_weighted (sqrt : T -> T) (h : list (T * T)) (lo hi : T) :
  h <> [] -> NonnegWeights h -> PrefixWeightsNonzero K h -> IsMin K (map fst h) lo -> IsMax K (map fst h) hi ->
  let m := wmean_set_mean K (wmean_set_run K 0 0 h) in
  let v := wv_var K (wvar_set_run K 0 0 h) in
  Between K lo m hi /\ wv_mean K (wvar_set_run K 0 0 h) = m
  /\ ltb K v 0 = false /\ ltb K ((hi - m) * (m - lo)) v = false
  /\ (v = 0 <-> forall p, In p h -> 0 < snd p -> fst p = m)
  /\ lazy_weighted_variance_run K 0 h = Some v
  /\ ((forall a, 0 < a -> sqrt a * sqrt a = a) -> v <> 0 ->
      exists g k, weighted_skewness_run K sqrt 0 h = Some g /\ weighted_kurtosis_run K 0 h = Some k /\ ltb K k (g * g - #2) = false).
Proof.
  intros N HN HP Hlo Hhi. pose proof (total_pos h N HN HP) as HW. apply nnw in HN. cbv zeta.
  assert (HW0 : TotalWeight K h <> 0) by (exact (PWN_self K h HP N)).
  rewrite (wmean_set_spec K HK), (wvar_run_mean_spec K HK), (wvar_run_spec K HK), (lazy_weighted_variance_run_spec K HK) by auto.
  assert (Blo : forall p, In p h -> lo <= fst p) by (intros p Hp; apply Hlo, in_map, Hp).
  assert (Bhi : forall p, In p h -> fst p <= hi) by (intros p Hp; apply Hhi, in_map, Hp).
  assert (HV : 0 <= WVariance K h) by (rewrite WVariance_E; apply E_var_nonneg; auto).
  split; [exact (E_mean_bounds snd h HN HW fst lo hi Blo Bhi)|]. split; auto. split; [exact HV|].
  split; [rewrite WVariance_E; exact (E_bhatia_davis snd h HN HW fst lo hi Blo Bhi)|].
  split; [rewrite WVariance_E; exact (E_var_zero snd h HN HW fst)|]. split; auto.
  intros Hsq Hv. do 2 eexists. split; [apply (weighted_skewness_run_spec K HK); auto|]. split; [apply (weighted_kurtosis_run_spec K HK); auto|].
  assert (HV' : 0 < WVariance K h).
  { destruct (klt_cases K HO 0 (WVariance K h)) as [C|[C|C]]; auto; [congruence|]. exfalso. apply (knot_lt K) in HV. contradiction. }
  apply shape_bound; auto. rewrite !WCentral_E, WVariance_E.
  pose proof (E_kurtosis snd h HN HW fst) as H.
  rewrite (E_ext snd h (fun x => power K (dev snd h fst x) 3) _ (fun x _ => power3 _)).
  rewrite (E_ext snd h (fun x => power K (dev snd h fst x) 4) _ (fun x _ => power4 _)).
  exact H.
Qed.
Lemma bounds_weighted_covariance (h : list (T * T * T)) : h <> [] -> NonnegWeights h -> PrefixWeightsNonzero K h ->
  let c := wc_cov K (wcov_set_run K 0 0 0 h) in
  let hs := map (fun p => (fst (fst p), snd p)) h in
  let hv := map (fun p => (snd (fst p), snd p)) h in
  ltb K (wv_var K (wvar_set_run K 0 0 hs) * wv_var K (wvar_set_run K 0 0 hv)) (c * c) = false.
Proof.
  intros N HN HP. cbv zeta.
  pose proof (total_pos h N HN HP) as HW. apply nnw in HN.
  assert (P1 : PrefixWeightsNonzero K (map (fun p => (fst (fst p), snd p)) h)) by (apply (PWN_map fst); exact HP).
  assert (P2 : PrefixWeightsNonzero K (map (fun p => (snd (fst p), snd p)) h)) by (apply (PWN_map snd); exact HP).
  assert (N1 : map (fun p => (fst (fst p), snd p)) h <> []) by (destruct h; [congruence|discriminate]).
  assert (N2 : map (fun p => (snd (fst p), snd p)) h <> []) by (destruct h; [congruence|discriminate]).
  rewrite (wcov_run_spec K HK), !(wvar_run_spec K HK) by auto.
  pose proof (E_cs snd h HN HW (fun p => fst (fst p) - waverage K fst h) (fun p => snd (fst p) - waverage K snd h)) as H.
  cbv beta in H.
  assert (V1 : WVariance K (map (fun p => (fst (fst p), snd p)) h)
     = E snd h (fun p => (fst (fst p) - waverage K fst h) * (fst (fst p) - waverage K fst h))).
  { unfold WVariance, WCentralMoment, WMean, waverage, TotalWeight, E, wsum. rewrite !total_map. cbn [fst snd].
    f_equal. apply total_ext. intros. rewrite power2. reflexivity. }
  assert (V2 : WVariance K (map (fun p => (snd (fst p), snd p)) h)
     = E snd h (fun p => (snd (fst p) - waverage K snd h) * (snd (fst p) - waverage K snd h))).
  { unfold WVariance, WCentralMoment, WMean, waverage, TotalWeight, E, wsum. rewrite !total_map. cbn [fst snd].
    f_equal. apply total_ext. intros. rewrite power2. reflexivity. }
  rewrite V1, V2. exact H.
Qed.

(** ** The rolling window *)
Lemma bounds_rolling (N M : nat) (xs : list T) (s : roll K) (lo hi : T) :
  (1 <= M)%nat -> (1 <= N)%nat -> roll_run K N M 0 xs = Some s -> IsMin K (LastN N xs) lo -> IsMax K (LastN N xs) hi ->
  Between K lo (ro_mean K s) hi /\ Between K lo (ro_lazy_mean K N s) hi
  /\ ltb K (ro_variance K N s) 0 = false /\ ltb K (ro_lazy_variance K N s) 0 = false.
Proof.
  intros HM HN Hr Hlo Hhi. assert (Nx : xs <> []). { intros ->. destruct Hlo as [H _]. unfold LastN in H. rewrite skipn_nil in H. destruct H. }
  destruct (roll_means_spec K HO N M xs s HM HN Nx Hr) as (E1 & E2 & _).
  destruct (roll_variance_spec K HO N M xs s HM Hr) as (E3 & E4 & _). cbv zeta in E3, E4.
  rewrite E1, E2, E3, E4. split; [now apply Mean_between|]. split; [now apply Mean_between|].
  assert (HV : ltb K (if Nat.ltb (Nat.min (length xs) N) 2 then 0 else SampleVariance K (LastN N xs)) 0 = false).
  { destruct (Nat.ltb_spec (Nat.min (length xs) N) 2) as [C|C]; [apply (kle_refl K HO)|].
    unfold SampleVariance. apply (kdiv_nonneg K HO).
    - pose proof (wsum_nonneg (fun _ : T => 1) (fun x => power K (x - Mean K (LastN N xs)) 2) (LastN N xs) (ones_nonneg _)) as L.
      unfold wsum in L. rewrite (total_ext K _ (fun x => power K (x - Mean K (LastN N xs)) 2)) in L by (intros; ring).
      apply L. intros x _. rewrite power2. apply ksq.
    - rewrite LastN_length. replace (Nat.min (length xs) N - 1)%nat with (S (Nat.min (length xs) N - 2)) by lia. apply (kofnat_pos K HO). }
  split; exact HV.
Qed.
End Bounds.

(** ** Witnesses over the rationals *)
From Coq Require Import QArith Qcanon.
Definition shape_sample : list Qc := [Q2Qc 1; Q2Qc 2; Q2Qc 2; Q2Qc 7].
Lemma shape_sample_values :
  this (mean_set_mean QcN (mean_set_run QcN (zero QcN) shape_sample)) = 3%Q
  /\ this (vs_var QcN (var_set_run QcN (zero QcN) shape_sample)) = (11 # 2)%Q
  /\ option_map this (kurtosis_run QcN (zero QcN) shape_sample) = Some (-89 # 121)%Q.
Proof. repeat split; vm_compute; reflexivity. Qed.
Definition negative_weights : list (Qc * Qc) := [(Q2Qc 0, Q2Qc 3); (Q2Qc 1, Q2Qc (-1))].
Lemma negative_weights_values :
  this (wmean_set_mean QcN (wmean_set_run QcN (zero QcN) (zero QcN) negative_weights)) = (-1 # 2)%Q
  /\ this (wv_var QcN (wvar_set_run QcN (zero QcN) (zero QcN) negative_weights)) = (-3 # 4)%Q.
Proof. split; vm_compute; reflexivity. Qed.
Lemma negative_weights_nonzero : PrefixWeightsNonzero QcN negative_weights.
Proof.
  intros p q E Hp. unfold negative_weights in E.
  destruct p as [|a [|b [|c p]]]; [congruence| | |]; cbn in E; try discriminate.
  - injection E as <- _. intros H. apply (f_equal this) in H. vm_compute in H. discriminate.
  - injection E as <- <- _. intros H. apply (f_equal this) in H. vm_compute in H. discriminate.
Qed.
