(** Histories that give the same weight to every value. *)
From Coq Require Import List Arith Bool Lia Field Permutation QArith Qcanon.
From Verif Require Import Num NumFacts ModelBasic ModelTail ModelDensity ModelPSquare SpecStats SpecTail SpecDensity SpecMeasure ProofBasic ProofBasic2 ProofBasic3 ProofOrder ProofTailTop ProofDensityTop ProofPSquareEx.
Import ListNotations.

Section Measure.
Variable K : Num.
Hypothesis HO : OrderedLaws K.
Let HK : FieldLaws K := ord_field K HO.
Local Notation T := (car K).
Local Notation "0" := (zero K) : num_scope.
Local Notation "1" := (one K) : num_scope.
Local Notation "x + y" := (add K x y) : num_scope.
Local Notation "x - y" := (sub K x y) : num_scope.
Local Notation "x * y" := (mul K x y) : num_scope.
Local Notation "- x" := (opp K x) : num_scope.
Local Open Scope num_scope.
Add Field KfieldM : (fl_field K HK).

Lemma same_eq x y : same K x y = true <-> x = y.
Proof.
  unfold same. rewrite andb_true_iff, !negb_true_iff. split; [intros [H1 H2]; exact (ord_total K HO x y H1 H2) | intros ->; split; apply (ord_irrefl K HO)].
Qed.
Lemma same_pair_eq p q : same_pair K p q = true <-> p = q.
Proof. unfold same_pair. rewrite andb_true_iff, !same_eq. destruct p, q; cbn. split; [intros [-> ->]; reflexivity | intros E; injection E; auto]. Qed.

Section Values.
Context {A : Type} (eq : A -> A -> bool) (eq_ok : forall x y, eq x y = true <-> x = y).
Lemma eq_refl' x : eq x x = true. Proof. now apply eq_ok. Qed.

Lemma total_split (f : A * T -> T) (p : A * T -> bool) l : total K f l = total K f (filter p l) + total K f (filter (fun e => negb (p e)) l).
Proof.
  induction l as [|e l IH]; [unfold total; cbn; ring |]. cbn [filter]. destruct (p e); cbn [negb]; rewrite !total_cons, IH; ring.
Qed.
Lemma filter_filter {B} (p q : B -> bool) l : filter p (filter q l) = filter (fun e => q e && p e) l.
Proof. induction l as [|e l IH]; [reflexivity |]. cbn [filter]. destruct (q e); cbn [filter andb]; [destruct (p e); [f_equal |] |]; exact IH. Qed.
Lemma filter_none {B} (p : B -> bool) l : (forall e, In e l -> p e = false) -> filter p l = [].
Proof. induction l as [|e l IH]; intros H; [reflexivity |]. cbn. rewrite H by (left; reflexivity). apply IH. intros x Hx. apply H. now right. Qed.

Lemma filter_short {B} (p : B -> bool) l : (length (filter p l) <= length l)%nat.
Proof. induction l as [|e l IH]; [reflexivity |]. cbn. destruct (p e); cbn; lia. Qed.
(** No weight anywhere: every weighted sum is zero. *)
Lemma no_weight (f : A -> T) : forall n l, (length l <= n)%nat -> (forall v, WeightAt K eq l v = 0) -> total K (fun e => snd e * f (fst e)) l = 0.
Proof.
  induction n as [|n IH]; intros [|[v w] l] L H; cbn [length] in L; try reflexivity; [lia |].
  set (l0 := (v, w) :: l) in *. rewrite (total_split _ (fun e => eq (fst e) v)).
  assert (E1 : total K (fun e => snd e * f (fst e)) (filter (fun e => eq (fst e) v) l0) = 0).
  { rewrite (total_ext K (fun e => snd e * f (fst e)) (fun e => snd e * f v)).
    - rewrite (total_scale_r K HK). specialize (H v). unfold WeightAt, TotalWeight in H. rewrite H. ring.
    - intros e He. apply filter_In in He as [_ He]. apply eq_ok in He. now rewrite He. }
  rewrite E1. rewrite IH; [ring | |].
  - unfold l0. cbn [filter fst]. rewrite eq_refl'. cbn [negb]. pose proof (filter_short (fun e => negb (eq (fst e) v)) l). lia.
  - intros u. destruct (eq v u) eqn:Q.
    + apply eq_ok in Q. subst u. unfold WeightAt. rewrite filter_filter, filter_none; [reflexivity |]. intros e _. destruct (eq (fst e) v); reflexivity.
    + rewrite <- (H u). unfold WeightAt. rewrite filter_filter. f_equal. apply filter_ext. intros e. destruct (eq (fst e) u) eqn:R; [| apply andb_false_r].
      apply eq_ok in R. rewrite R. destruct (eq u v) eqn:R'; [| reflexivity]. apply eq_ok in R'. subst. rewrite eq_refl' in Q. discriminate.
Qed.
Lemma total_opp (h : list (A * T)) (f : A -> T) : total K (fun e => snd e * f (fst e)) (map (fun e => (fst e, - snd e)) h) = - total K (fun e => snd e * f (fst e)) h.
Proof. rewrite total_map. cbn [fst snd]. induction h as [|e h IH]; [unfold total; cbn; ring |]. rewrite !total_cons, IH. ring. Qed.
Lemma weight_opp (h : list (A * T)) v : WeightAt K eq (map (fun e => (fst e, - snd e)) h) v = - WeightAt K eq h v.
Proof.
  unfold WeightAt, TotalWeight. induction h as [|e h IH]; [unfold total; cbn; ring |]. cbn [map filter fst]. destruct (eq (fst e) v); [rewrite !total_cons, IH; cbn [snd]; ring | exact IH].
Qed.
Lemma weight_app (h g : list (A * T)) v : WeightAt K eq (h ++ g) v = WeightAt K eq h v + WeightAt K eq g v.
Proof. unfold WeightAt, TotalWeight. rewrite filter_app. apply (total_app K HK). Qed.
Lemma same_integral h g : SameWeights K eq h g -> forall f, total K (fun e => snd e * f (fst e)) h = total K (fun e => snd e * f (fst e)) g.
Proof.
  intros H f. pose proof (no_weight f (length (h ++ map (fun e => (fst e, - snd e)) g)) _ (le_n _)) as Z.
  rewrite (total_app K HK), total_opp in Z. assert (Q : total K (fun e => snd e * f (fst e)) h + - total K (fun e => snd e * f (fst e)) g = 0).
  { apply Z. intros v. rewrite weight_app, weight_opp, (H v). ring. }
  transitivity (total K (fun e => snd e * f (fst e)) h + - total K (fun e => snd e * f (fst e)) g + total K (fun e => snd e * f (fst e)) g); [ring | rewrite Q; ring].
Qed.
Lemma same_total h g : SameWeights K eq h g -> TotalWeight K h = TotalWeight K g.
Proof.
  intros H. pose proof (same_integral h g H (fun _ => 1)) as E. unfold TotalWeight.
  transitivity (total K (fun e : A * T => snd e * 1) h); [apply total_ext; intros; ring |]. rewrite E. apply total_ext; intros; ring.
Qed.
Lemma same_filter h g (p : A -> bool) : SameWeights K eq h g -> TotalWeight K (filter (fun e => p (fst e)) h) = TotalWeight K (filter (fun e => p (fst e)) g).
Proof.
  intros H. pose proof (same_integral h g H (fun v => if p v then 1 else 0)) as E.
  assert (Q : forall l : list (A * T), TotalWeight K (filter (fun e => p (fst e)) l) = total K (fun e => snd e * (if p (fst e) then 1 else 0)) l).
  { unfold TotalWeight. induction l as [|e l IH]; [reflexivity |]. cbn [filter]. rewrite total_cons, <- IH. destruct (p (fst e)); rewrite ?total_cons; ring. }
  rewrite !Q. exact E.
Qed.
Lemma same_waverage h g f : SameWeights K eq h g -> waverage K f h = waverage K f g.
Proof. intros H. unfold waverage. rewrite (same_integral h g H f), (same_total h g H). reflexivity. Qed.
End Values.

Local Notation sw := (SameWeights K (same K)).
Lemma same_wmom Ns h g : sw h g -> Forall (fun N => 1 <= N)%nat Ns -> wmom_set_run K Ns 0 0 h = wmom_set_run K Ns 0 0 g.
Proof.
  intros H HN. rewrite !(wmom_set_run_spec K HK) by exact HN. rewrite (same_total _ same_eq h g H), (same_integral _ same_eq h g H (fun x => x)). do 2 f_equal.
  apply map_ext. intros N. f_equal. exact (same_integral _ same_eq h g H (fun x => power K x N)).
Qed.
Lemma same_lazy h g (sqrt : T -> T) N : sw h g -> (1 <= N)%nat ->
  wmean_set_run K 0 0 h = wmean_set_run K 0 0 g /\
  weighted_moment_run K N 0 h = weighted_moment_run K N 0 g /\
  lazy_weighted_variance_run K 0 h = lazy_weighted_variance_run K 0 g /\
  weighted_skewness_run K sqrt 0 h = weighted_skewness_run K sqrt 0 g /\
  weighted_kurtosis_run K 0 h = weighted_kurtosis_run K 0 g.
Proof.
  intros H HN. split.
  { rewrite !(wmean_set_run_spec K HK), (same_total _ same_eq h g H), (same_integral _ same_eq h g H (fun x => x)). reflexivity. }
  unfold weighted_moment_run, lazy_weighted_variance_run, weighted_skewness_run, weighted_kurtosis_run.
  rewrite (same_wmom [N] h g H), (same_wmom [2%nat] h g H), (same_wmom [2%nat; 3%nat] h g H), (same_wmom [2%nat; 3%nat; 4%nat] h g H) by (repeat constructor; lia).
  auto.
Qed.
Lemma same_immediate h g : sw h g -> h <> [] -> g <> [] -> PrefixWeightsNonzero K h -> PrefixWeightsNonzero K g ->
  wv_mean K (wvar_set_run K 0 0 h) = wv_mean K (wvar_set_run K 0 0 g) /\ wv_var K (wvar_set_run K 0 0 h) = wv_var K (wvar_set_run K 0 0 g).
Proof.
  intros H Nh Ng Ph Pg.
  destruct (weighted_all K HK h (fun x => x) 1 Nh (le_n 1) Ph) as (_ & _ & _ & E1 & E2 & _). destruct (weighted_all K HK g (fun x => x) 1 Ng (le_n 1) Pg) as (_ & _ & _ & F1 & F2 & _).
  rewrite E1, E2, F1, F2. unfold WVariance, WCentralMoment.
  assert (M : WMean K h = WMean K g) by exact (same_waverage _ same_eq h g (fun x => x) H).
  split; [exact M |]. rewrite M. exact (same_waverage _ same_eq h g _ H).
Qed.
Lemma same_covariance (h g : list (T * T * T)) : SameWeights K (same_pair K) h g -> h <> [] -> g <> [] -> PrefixWeightsNonzero K h -> PrefixWeightsNonzero K g ->
  wc_cov K (wcov_set_run K 0 0 0 h) = wc_cov K (wcov_set_run K 0 0 0 g).
Proof.
  intros H Nh Ng Ph Pg. rewrite (wcov_run_spec K HK h Nh Ph), (wcov_run_spec K HK g Ng Pg). unfold WCovariance.
  rewrite (same_waverage _ same_pair_eq h g fst H), (same_waverage _ same_pair_eq h g snd H). exact (same_waverage _ same_pair_eq h g _ H).
Qed.

(** Histograms. *)
Lemma min_unique xs m m' : IsMin K xs m -> IsMin K xs m' -> m = m'.
Proof. intros [I1 L1] [I2 L2]. apply (ord_total K HO); [apply L2, I1 | apply L1, I2]. Qed.
Lemma max_unique xs m m' : IsMax K xs m -> IsMax K xs m' -> m = m'.
Proof. intros [I1 L1] [I2 L2]. apply (ord_total K HO); [apply L1, I2 | apply L2, I1]. Qed.
Lemma same_histogram (lo hi : T) (c b : nat) (s0 : T) (ops ops' : list (dens_op (T * T))) : let es := dens_pushes ops in let es' := dens_pushes ops' in
  (1 <= c)%nat -> (1 <= b)%nat -> (c <= length es)%nat -> (c <= length es')%nat -> firstn c es = firstn c es' -> sw es es' ->
  Forall (fun x => ltb K x lo = false /\ ltb K hi x = false) (map fst es) -> Forall (fun x => ltb K x lo = false /\ ltb K hi x = false) (map fst es') ->
  exists s s', weighted_density_run K lo hi c b s0 ops = Ok s /\ weighted_density_run K lo hi c b s0 ops' = Ok s' /\
    weighted_density_result K s = weighted_density_result K s'.
Proof.
  intros es es' Hc Hb L1 L2 EF H B1 B2.
  destruct (wdensity_top K HO lo hi c b s0 ops Hc Hb L1 B1) as (s & m & M & R & Im & IM & E & _).
  destruct (wdensity_top K HO lo hi c b s0 ops' Hc Hb L2 B2) as (s' & m' & M' & R' & Im' & IM' & E' & _).
  exists s, s'. split; [exact R |]. split; [exact R' |]. rewrite E, E'. fold es es'. fold es in Im, IM. fold es' in Im', IM'. rewrite <- EF in Im', IM'.
  rewrite <- (min_unique _ _ _ Im Im'), <- (max_unique _ _ _ IM IM'). apply map_ext. intros i. rewrite (same_total _ same_eq es es' H). f_equal. f_equal.
  exact (same_filter _ same_eq es es' (fun x => InBin K m M b i x) H).
Qed.

(** The quantile. *)
Section Quantile.
Variable lr : side.
Local Notation before := (MoreExtreme K lr).
Lemma before_irrefl x : before x x = false.
Proof. unfold MoreExtreme. destruct lr; apply (ord_irrefl K HO). Qed.
Lemma before_total x y : before x y = false -> before y x = false -> x = y.
Proof. unfold MoreExtreme. destruct lr; intros H1 H2; apply (ord_total K HO); assumption. Qed.
(** From [x] not after [y] and [y] before [z]. *)
Lemma before_trans x y z : before y x = false -> before y z = true -> before x z = true.
Proof. unfold MoreExtreme. destruct lr; intros H1 H2; [exact (kle_lt_trans K HO x y z H1 H2) | exact (klt_le_trans K HO z y x H2 H1)]. Qed.
Lemma weight_nonneg {E} (wt : E -> T) l : Forall (fun e => ltb K (wt e) 0 = false) l -> kle K 0 (total K wt l).
Proof.
  induction 1 as [|e l He _ IH]; [apply kle_refl, HO |]. rewrite total_cons. replace 0 with (0 + 0) by ring. apply kadd_le2; [exact HO | exact He | exact IH].
Qed.
Lemma part_le (p : T * T -> bool) l : Forall (fun e => ltb K (snd e) 0 = false) l -> kle K (TotalWeight K (filter p l)) (TotalWeight K l).
Proof.
  intros F. unfold TotalWeight. rewrite (total_split snd p l). replace (total K snd (filter p l)) with (total K snd (filter p l) + 0) at 1 by ring.
  apply kadd_le2; [exact HO | apply kle_refl, HO |]. apply weight_nonneg. apply Forall_forall. intros e He. apply filter_In in He as [He _]. rewrite Forall_forall in F. now apply F.
Qed.
Lemma parts_le (p q : T * T -> bool) l : Forall (fun e => ltb K (snd e) 0 = false) l -> (forall e, In e l -> p e = true -> q e = true) ->
  kle K (TotalWeight K (filter p l)) (TotalWeight K (filter q l)).
Proof.
  intros F H. replace (filter p l) with (filter p (filter q l)).
  - apply part_le. apply Forall_forall. intros e He. apply filter_In in He as [He _]. rewrite Forall_forall in F. now apply F.
  - rewrite filter_filter. apply filter_ext_in. intros e He. specialize (H e He). destruct (p e); [rewrite H by reflexivity; reflexivity | apply andb_false_r].
Qed.
Lemma reaches h thr a v : Forall (fun e => ltb K (snd e) 0 = false) h ->
  ReachesAt K (fun x y : T * T => before (fst x) (fst y)) snd h thr a v ->
  klt K (TotalWeight K (filter (fun e => before (fst e) (fst v)) h)) thr /\ kle K thr (TotalWeight K (filter (fun e => negb (before (fst v) (fst e))) h)).
Proof.
  intros F ((b & P & Hb) & Ha & Hp & Ht).
  assert (F' : Forall (fun e => ltb K (snd e) 0 = false) (a ++ v :: b)) by (apply Forall_forall; intros e He; rewrite Forall_forall in F; apply F; eapply Permutation_in; [apply Permutation_sym, P | exact He]).
  assert (Fa : Forall (fun e => ltb K (snd e) 0 = false) a) by (apply Forall_app in F'; tauto).
  assert (G : forall q, TotalWeight K (filter q h) = TotalWeight K (filter q (a ++ v :: b))) by (intros q; apply (total_perm K HK); clear - P; induction P; cbn; repeat (try destruct (q _)); eauto using Permutation).
  rewrite !G. split.
  - rewrite filter_app. replace (filter _ (v :: b)) with (@nil (T * T)).
    + rewrite app_nil_r. eapply kle_lt_trans; [exact HO | apply part_le, Fa |]. apply (Hp a []). now rewrite app_nil_r.
    + symmetry. apply filter_none. intros e [<- | He]; [apply before_irrefl |]. apply (Hb v e); [apply in_or_app; right; now left | exact He].
  - apply (kle_trans K HO _ (TotalWeight K (a ++ [v]))); [apply leb_kle; exact Ht |].
    replace (a ++ v :: b) with ((a ++ [v]) ++ b) by (rewrite <- app_assoc; reflexivity). rewrite filter_app.
    assert (Q : filter (fun e => negb (before (fst v) (fst e))) (a ++ [v]) = a ++ [v]).
    { clear -Ha HO. rewrite filter_app. cbn [filter]. rewrite before_irrefl. cbn [negb]. f_equal. induction a as [|x a IH]; [reflexivity |]. cbn [filter]. rewrite (Ha x) by (left; reflexivity). cbn [negb]. f_equal. apply IH. intros y Hy. apply Ha. now right. }
    rewrite Q. unfold TotalWeight. rewrite (total_app K HK _ (a ++ [v])). replace (total K snd (a ++ [v])) with (total K snd (a ++ [v]) + 0) at 1 by ring.
    apply kadd_le2; [exact HO | apply kle_refl, HO |]. apply weight_nonneg. apply Forall_forall. intros e He. apply filter_In in He as [He _]. rewrite Forall_forall in F'. apply F'. apply in_or_app. right. now right.
Qed.
Lemma reaches_unique h g thr a v a' v' : sw h g -> Forall (fun e => ltb K (snd e) 0 = false) h -> Forall (fun e => ltb K (snd e) 0 = false) g ->
  ReachesAt K (fun x y : T * T => before (fst x) (fst y)) snd h thr a v -> ReachesAt K (fun x y : T * T => before (fst x) (fst y)) snd g thr a' v' -> fst v = fst v'.
Proof.
  intros S Fh Fg R R'. destruct (reaches h thr a v Fh R) as [U D]. destruct (reaches g thr a' v' Fg R') as [U' D'].
  rewrite (same_filter _ same_eq h g (fun x => before x (fst v)) S) in U. rewrite (same_filter _ same_eq h g (fun x => negb (before (fst v) x)) S) in D.
  assert (X : forall y z, klt K (TotalWeight K (filter (fun e => before (fst e) z) g)) thr -> kle K thr (TotalWeight K (filter (fun e => negb (before y (fst e))) g)) -> before y z = false).
  { intros y z H1 H2. destruct (before y z) eqn:Q; [| reflexivity]. exfalso. apply (klt_irrefl K HO thr).
    eapply kle_lt_trans; [exact HO | exact H2 |]. eapply kle_lt_trans; [exact HO | | exact H1]. apply parts_le; [exact Fg |]. intros e _ He. apply negb_true_iff in He. now apply (before_trans _ y). }
  apply before_total; apply X; assumption.
Qed.
End Quantile.
Lemma same_quantile : forall (H : HeapOps), HeapContract H -> forall (lr : side) (k k' : nat) (dA dV : T) (ops ops' : list (tail_op T T)) (h g : list (T * T)),
  (0 < k)%nat -> (0 < k')%nat -> pushes ops = map (fun e => (fst e, [snd e])) h -> pushes ops' = map (fun e => (fst e, [snd e])) g ->
  sw h g -> Forall (fun e => ltb K (snd e) 0 = false) h -> Forall (fun e => ltb K (snd e) 0 = false) g ->
  forall p v v', ltb K 0 (TotalWeight K h * TailShare K lr p) = true ->
    wafter K H lr k dA dV ops (fun tl ws => weighted_tail_quantile_result K lr (TotalWeight K h) tl ws p) = Ok v ->
    wafter K H lr k' dA dV ops' (fun tl ws => weighted_tail_quantile_result K lr (TotalWeight K g) tl ws p) = Ok v' -> v = v'.
Proof.
  intros H HC lr k k' dA dV ops ops' h g Hk Hk' Eh Eg S Fh Fg p v v' P.
  destruct (wq_run K HO H HC lr k dA dV ops h Hk Eh) as (s & tl & ws & R1 & R2 & R3 & Q). destruct (wq_run K HO H HC lr k' dA dV ops' g Hk' Eg) as (s' & tl' & ws' & R1' & R2' & R3' & Q').
  unfold wafter. rewrite R1, R2, R3, R1', R2', R3'. specialize (Q p P). specialize (Q' p). cbv zeta in Q'. rewrite <- (same_total _ same_eq h g S) in Q' |- *. specialize (Q' P).
  destruct Q as [(a & e & A & E & _) | (E & _)]; rewrite E; [| discriminate]. destruct Q' as [(a' & e' & A' & E' & _) | (E' & _)]; rewrite E'; [| discriminate].
  intros X X'. injection X as <-. injection X' as <-. eapply reaches_unique; eassumption.
Qed.
End Measure.
