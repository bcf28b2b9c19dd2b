(** The other weighted statistics do not depend on the unit of the weights. *)
From Coq Require Import List Arith Bool Lia Field Permutation QArith Qcanon.
From Verif Require Import Num NumFacts ModelRolling ModelDensity ModelTail ModelPSquare ModelPot SpecStats SpecDensity SpecTail SpecPot
  ProofBasic ProofOrder ProofRollingBuf ProofTail ProofPSquare ProofTailTop ProofDensityTop.
Import ListNotations.

Lemma map_repeated {A B} (g : A -> B) x n : map g (repeat x n) = repeat (g x) n.
Proof. induction n as [|n IH]; cbn; [reflexivity|f_equal; exact IH]. Qed.

(** ** Cached values: what is cached beside the samples is passed through. *)
Section Cache.
Variables A V V' : Type.
Variable H : HeapOps.
Variable pred : A -> A -> bool.
Variable f : V -> V'.
Definition map_state (s : tail_state A V) : tail_state A V' :=
  {| tl_sorted := tl_sorted s; tl_indices := tl_indices s; tl_samples := tl_samples s; tl_variates := map (map f) (tl_variates s) |}.
Definition map_op (o : tail_op A V) : tail_op A V' :=
  match o with TPush x vs => TPush x (map f vs) | TExtract => TExtract end.
Lemma map_set_nth {B C} (g : B -> C) i v l : map g (set_nth i v l) = set_nth i (g v) (map g l).
Proof. revert i; induction l as [|x l IH]; intros [|i]; cbn; [reflexivity| |reflexivity|]; [reflexivity|f_equal; apply IH]. Qed.
Lemma map_assign sm ix vv i x vs : map_state (tail_assign H pred sm ix vv i x vs) = tail_assign H pred sm ix (map (map f) vv) i x (map f vs).
Proof.
  unfold tail_assign, map_state. cbn [tl_sorted tl_indices tl_samples tl_variates]. f_equal.
  revert vs. induction vv as [|v vv IH]; intros [|y vs]; cbn; try reflexivity. f_equal; [apply map_set_nth|apply IH].
Qed.
Lemma map_push s x vs : tail_push H pred (map_state s) x (map f vs) = obnd (tail_push H pred s x vs) (fun s => Ok (map_state s)).
Proof.
  unfold tail_push. cbn [map_state tl_sorted tl_indices tl_samples tl_variates].
  destruct (Nat.ltb _ _); [cbn [obnd]; rewrite map_assign; reflexivity|].
  destruct (tl_indices s) as [|top is] eqn:E; [reflexivity|]. destruct (nth_error (tl_samples s) top); [|reflexivity].
  destruct (pred x a); [|reflexivity]. destruct (rev _); [reflexivity|]. cbn [obnd]. rewrite map_assign. reflexivity.
Qed.
Lemma map_sort s : tail_sort H pred (map_state s) = map_state (tail_sort H pred s).
Proof. unfold tail_sort. cbn [map_state tl_sorted tl_indices tl_samples tl_variates]. destruct (tl_sorted s); reflexivity. Qed.
Lemma map_run s ops : tail_run H pred (map_state s) (map map_op ops) = obnd (tail_run H pred s ops) (fun s => Ok (map_state s)).
Proof.
  unfold tail_run. induction ops as [|o ops IH] using rev_ind; [reflexivity|].
  rewrite map_app, !fold_left_app, IH. cbn [map fold_left]. destruct (fold_left _ ops (Ok s)) as [s'| |]; cbn [obnd tail_step]; try reflexivity.
  destruct o as [x vs|]; cbn [map_op]; [apply map_push|]. rewrite map_sort. reflexivity.
Qed.
Lemma map_init k nv dA dV : map_state (tail_init k nv dA dV) = tail_init k nv dA (f dV).
Proof. unfold tail_init, map_state. cbn. f_equal. rewrite !map_repeated. reflexivity. Qed.
Lemma map_read {B C} (g : B -> C) arr is : read_all (map g arr) is = obnd (read_all arr is) (fun l => Ok (map g l)).
Proof.
  induction is as [|i is IH]; cbn [read_all]; [reflexivity|]. rewrite nth_error_map, IH.
  destruct (nth_error arr i); [|reflexivity]. cbn [option_map]. destruct (read_all arr is); reflexivity.
Qed.
Lemma map_result s : tail_result H pred (map_state s) = tail_result H pred s.
Proof. unfold tail_result. rewrite map_sort. reflexivity. Qed.
Lemma map_variate s j : tail_variate_result H pred (map_state s) j = obnd (tail_variate_result H pred s j) (fun l => Ok (map f l)).
Proof.
  unfold tail_variate_result. rewrite map_sort. cbn [map_state tl_indices tl_variates]. rewrite nth_error_map.
  destruct (nth_error (tl_variates s) j); [|reflexivity]. cbn [option_map]. apply map_read.
Qed.
End Cache.

Section Units.
Variable K : Num.
Hypothesis HO : OrderedLaws K.
Let HK : FieldLaws K := ord_field K HO.
Local Notation T := (car K).
Local Notation "0" := (zero K) : num_scope.
Local Notation "1" := (one K) : num_scope.
Local Notation "x + y" := (add K x y) : num_scope.
Local Notation "x - y" := (sub K x y) : num_scope.
Local Notation "x * y" := (mul K x y) : num_scope.
Local Notation "x / y" := (div K x y) : num_scope.
Local Notation "x < y" := (klt K x y) : num_scope.
Local Notation "x <= y" := (kle K x y) : num_scope.
Local Open Scope num_scope.
Add Field KfieldUnits3 : (fl_field K HK).
Variable c : T.
Hypothesis Hc : 0 < c.
Let Nc : c <> 0 := kpos_neq0 K HO c Hc.

Lemma scale_ltb x y : ltb K (c * x) (c * y) = ltb K x y.
Proof.
  destruct (ltb K x y) eqn:E.
  - replace (c * x) with (x * c) by ring. replace (c * y) with (y * c) by ring. apply (kmul_lt K HO); assumption.
  - replace (c * x) with (x * c) by ring. replace (c * y) with (y * c) by ring. apply (kmul_le K HO); [apply (klt_le K HO); exact Hc|exact E].
Qed.
Lemma mul_c_zero x : c * x = 0 -> x = 0.
Proof. intros E. replace x with (c * x / c) by (field; exact Nc). rewrite E. field. exact Nc. Qed.
(** a quotient of two scaled numbers, also if the divisor is zero and the dividend is. *)
Lemma scale_div x y : y <> 0 -> c * x / (c * y) = x / y.
Proof. intros N. field. split; assumption. Qed.

Lemma mul_0 x : x * 0 = 0.
Proof. ring. Qed.
Definition sc (ws : list T) : list T := map (mul K c) ws.

(** *** Tails *)
Lemma weight_loop_sc thr : forall ws sum n,
  weight_loop K (c * thr) (c * sum) n (sc ws) = option_map (fun r => (fst r, c * snd r)) (weight_loop K thr sum n ws).
Proof.
  induction ws as [|w ws IH]; intros sum n; cbn [sc map weight_loop]; rewrite scale_ltb; destruct (ltb K sum thr); try reflexivity.
  replace (c * sum + c * w) with (c * (sum + w)) by ring. apply IH.
Qed.
Lemma weight_loop_pos thr : 0 < thr -> forall ws sum n r, weight_loop K thr sum n ws = Some r -> thr <= snd r.
Proof.
  intros Hthr. induction ws as [|w ws IH]; intros sum n r; cbn [weight_loop]; destruct (ltb K sum thr) eqn:E; try discriminate.
  - intros X. injection X as <-. exact E.
  - apply IH.
  - intros X. injection X as <-. exact E.
Qed.
Lemma inner_product_sc : forall xs ws acc, inner_product K xs (sc ws) (c * acc) = c * inner_product K xs ws acc.
Proof.
  induction xs as [|x xs IH]; intros [|w ws] acc; cbn [sc map inner_product]; try reflexivity.
  replace (c * acc + x * (c * w)) with (c * (acc + x * w)) by ring. apply IH.
Qed.
Variable lr : side.

Lemma wtq_sc W tl ws p : weighted_tail_quantile_result K lr (c * W) tl (sc ws) p = weighted_tail_quantile_result K lr W tl ws p.
Proof.
  unfold weighted_tail_quantile_result. replace (c * W * tail_level K lr p) with (c * (W * tail_level K lr p)) by ring.
  assert (E := weight_loop_sc (W * tail_level K lr p) ws 0 0). replace (c * 0) with 0 in E by ring. rewrite E.
  destruct (weight_loop K _ 0 0 ws) as [[n s]|]; reflexivity.
Qed.
Lemma wtm_sc W tl ws p : 0 < W * tail_level K lr p ->
  non_coherent_weighted_tail_mean_result K lr (c * W) tl (sc ws) p = non_coherent_weighted_tail_mean_result K lr W tl ws p.
Proof.
  intros HP. unfold non_coherent_weighted_tail_mean_result. replace (c * W * tail_level K lr p) with (c * (W * tail_level K lr p)) by ring.
  assert (E := weight_loop_sc (W * tail_level K lr p) ws 0 0). replace (c * 0) with 0 in E by ring. rewrite E.
  assert (P := weight_loop_pos _ HP ws 0 0%nat).
  destruct (weight_loop K _ 0 0 ws) as [[n s]|]; [|reflexivity]. cbn [option_map fst snd]. destruct n; [reflexivity|]. f_equal.
  assert (I := inner_product_sc (firstn (S n) tl) ws 0). replace (c * 0) with 0 in I by ring. rewrite I. apply scale_div.
  apply (kpos_neq0 K HO). eapply (klt_le_trans K HO); [exact HP|]. exact (P _ eq_refl).
Qed.
Lemma variate_loop_sc thr ws : forall fuel sum n,
  variate_loop K fuel (c * thr) (c * sum) n (sc ws) = option_map (fun r => (fst r, c * snd r)) (variate_loop K fuel thr sum n ws).
Proof.
  induction fuel as [|fuel IH]; intros sum n; cbn [variate_loop]; [reflexivity|]. rewrite scale_ltb. destruct (ltb K sum thr); [|reflexivity].
  unfold sc at 1. rewrite nth_error_map. destruct (nth_error ws n) as [t|]; cbn [option_map]; [|apply IH].
  replace (c * sum + c * t) with (c * (sum + t)) by ring. apply IH.
Qed.
Lemma variate_loop_pos thr ws : 0 < thr -> forall fuel sum n r, variate_loop K fuel thr sum n ws = Some r -> thr <= snd r.
Proof.
  intros Hthr. induction fuel as [|fuel IH]; intros sum n r; cbn [variate_loop]; [discriminate|]. destruct (ltb K sum thr) eqn:E.
  - destruct (nth_error ws n); apply IH.
  - intros X. injection X as <-. exact E.
Qed.
Lemma vplus_sc : forall a b, vplus K (sc a) (sc b) = obnd (vplus K a b) (fun l => Ok (sc l)).
Proof.
  induction a as [|x a IH]; intros [|y b]; cbn [sc map vplus]; try reflexivity. fold (sc a). fold (sc b). rewrite IH.
  destruct (vplus K a b); try reflexivity. cbn [obnd sc map]. f_equal. f_equal. ring.
Qed.
Lemma vinner_sc : forall tv ws acc, vinner K tv (sc ws) (sc acc) = obnd (vinner K tv ws acc) (fun l => Ok (sc l)).
Proof.
  induction tv as [|v tv IH]; intros [|w ws] acc; cbn [sc map vinner]; try reflexivity. fold (sc acc). fold (sc ws).
  replace (vscale K v (c * w)) with (sc (vscale K v w)).
  - rewrite vplus_sc. destruct (vplus K acc (vscale K v w)); cbn [obnd]; try reflexivity. apply IH.
  - unfold sc, vscale. rewrite map_map. apply map_ext. intros x. ring.
Qed.
Lemma sc_zeros n : sc (repeat 0 n) = repeat 0 n.
Proof. unfold sc. rewrite map_repeated. f_equal. ring. Qed.
Lemma wvm_sc fuel relative W tl ws tv p : 0 < W * tail_level K lr p ->
  (relative = true -> forall m, non_coherent_weighted_tail_mean_result K lr W tl ws p = Ok m -> m <> 0) ->
  weighted_tail_variate_means_result K lr fuel relative (c * W) tl (sc ws) tv p
  = weighted_tail_variate_means_result K lr fuel relative W tl ws tv p.
Proof.
  intros HP HR. unfold weighted_tail_variate_means_result. rewrite wtm_sc by exact HP. unfold weighted_tail_variate_means_of.
  replace (c * W * tail_level K lr p) with (c * (W * tail_level K lr p)) by ring.
  assert (E := variate_loop_sc (W * tail_level K lr p) ws fuel 0 0). replace (c * 0) with 0 in E by ring. rewrite E.
  assert (P := variate_loop_pos _ ws HP fuel 0 0%nat).
  destruct (variate_loop K fuel _ 0 0 ws) as [[n s]|]; [|reflexivity]. cbn [option_map fst snd]. f_equal.
  assert (Ns : s <> 0) by (apply (kpos_neq0 K HO); eapply (klt_le_trans K HO); [exact HP|]; exact (P _ eq_refl)).
  destruct tv as [|v0 tv]; [reflexivity|].
  assert (I := vinner_sc (firstn n (v0 :: tv)) ws (repeat 0 (length v0))). rewrite sc_zeros in I. rewrite I.
  destruct (vinner K (firstn n (v0 :: tv)) ws (repeat 0 (length v0))) as [means| |]; cbn [obnd]; try reflexivity.
  destruct relative.
  - destruct (non_coherent_weighted_tail_mean_result K lr W tl ws p) as [m| |]; try reflexivity.
    assert (Nm := HR eq_refl m eq_refl). f_equal. unfold sc. rewrite map_map. apply map_ext. intros x.
    field. repeat split; assumption.
  - destruct n; [reflexivity|]. f_equal. unfold sc. rewrite map_map. apply map_ext. intros x. apply scale_div. exact Ns.
Qed.

(** *** Peaks over threshold *)
Variable pw : T -> T -> T.
Lemma wppot_loop_sc thr : forall tl ws sum n mu s2,
  wppot_loop K (c * thr) (c * sum) n (c * mu) (c * s2) tl (sc ws) =
  let '(b, n', s', m', q') := wppot_loop K thr sum n mu s2 tl ws in (b, n', c * s', c * m', c * q').
Proof.
  induction tl as [|x tl IH]; intros [|w ws] sum n mu s2; cbn [sc map wppot_loop]; rewrite scale_ltb; destruct (ltb K sum thr); try reflexivity.
  fold (sc ws). rewrite <- IH. f_equal; ring.
Qed.
Lemma wppot_loop_pos thr : 0 < thr -> forall tl ws sum n mu s2 n' s' m' q',
  wppot_loop K thr sum n mu s2 tl ws = (true, n', s', m', q') -> thr <= s'.
Proof.
  intros Hthr. induction tl as [|x tl IH]; intros [|w ws] sum n mu s2 n' s' m' q'; cbn [wppot_loop]; destruct (ltb K sum thr) eqn:E;
    try discriminate; try (intros X; injection X as <- <- <- <-; exact E). apply IH.
Qed.
Lemma wppot_sc p W tl ws : 0 < W * tail_level K lr p ->
  obnd (wppot_extract K pw lr (ppot_init K lr 0 p) (c * W) tl (sc ws)) (fun r => Ok (snd r))
  = obnd (wppot_extract K pw lr (ppot_init K lr 0 p) W tl ws) (fun r => Ok (snd r)).
Proof.
  intros HP. unfold wppot_extract. cbn [ppot_init pp_dirty pp_prob pp_mu pp_sigma2 pp_fit].
  replace (c * W * tail_level K lr p) with (c * (W * tail_level K lr p)) by ring.
  assert (E0 : sgn K lr (0 / 1) = 0) by (unfold sgn; destruct lr; field; apply (kpos_neq0 K HO), (kone_pos K HO)).
  assert (E1 : 0 / 1 = 0) by (field; apply (kpos_neq0 K HO), (kone_pos K HO)). rewrite E0, E1.
  assert (E := wppot_loop_sc (W * tail_level K lr p) tl ws 0 0 0 0). replace (c * 0) with 0 in E by ring. rewrite E.
  assert (P := wppot_loop_pos _ HP tl ws 0 0%nat 0 0).
  destruct (wppot_loop K _ 0 0 0 0 tl ws) as [[[[b n] s] m] q]. destruct b; [|reflexivity].
  destruct n; [reflexivity|]. destruct (nth_error tl n); [|reflexivity].
  assert (Ns : s <> 0) by (apply (kpos_neq0 K HO); eapply (klt_le_trans K HO); [exact HP|]; eapply P; reflexivity).
  rewrite !scale_div by exact Ns. reflexivity.
Qed.

Definition push_of (e : T * T) : pot_ops K := PPush K (fst e) (snd e).
Definition osc (o : option T) : option T := option_map (mul K c) o.
Lemma keqb_sc x : keqb K (c * x) 0 = keqb K x 0.
Proof. unfold keqb. replace 0 with (c * 0) at 1 2 by ring. rewrite !scale_ltb. reflexivity. Qed.
Lemma wpot_pushes_sc thr es :
  exists s s', wpot_session K pw lr 0 0 thr (map push_of es) = (total K snd es, s, []) /\
    wpot_session K pw lr 0 0 thr (map push_of (scale_weights K c es)) = (c * total K snd es, s', []) /\
    wo_w K s' = c * wo_w K s /\ wo_mu K s' = osc (wo_mu K s) /\ wo_sigma2 K s' = osc (wo_sigma2 K s) /\
    wo_threshold K s' = wo_threshold K s /\ wo_fit K s' = wo_fit K s /\ wo_dirty K s' = wo_dirty K s.
Proof.
  induction es as [|e es IH] using rev_ind.
  - exists (wpot_init K lr 0 0 thr), (wpot_init K lr 0 0 thr). split; [reflexivity|].
    split; [cbn; f_equal; f_equal; cbn; ring|]. cbn [wpot_init wo_w wo_mu wo_sigma2 wo_threshold wo_fit wo_dirty osc option_map].
    assert (N1 : 1 <> 0) by (apply (kpos_neq0 K HO), (kone_pos K HO)).
    split; [field; exact N1|]. split; [f_equal; unfold sgn; destruct lr; field; exact N1|]. split; [f_equal; field; exact N1|]. auto.
  - destruct IH as (s & s' & E & E' & H1 & H2 & H3 & H4 & H5 & H6). unfold wpot_session in *.
    assert (X : scale_weights K c (es ++ [e]) = scale_weights K c es ++ [(fst e, c * snd e)]) by apply map_app.
    rewrite X, !map_app, !fold_left_app, E, E'. cbn [map fold_left push_of fst snd wpot_step].
    exists (wpot_op K lr s (fst e) (snd e)), (wpot_op K lr s' (fst e) (c * snd e)).
    rewrite (total_snoc K HK). split; [reflexivity|]. split; [f_equal; f_equal; ring|].
    unfold wpot_op. rewrite H4. destruct (ltb K (wo_threshold K s) (sgn K lr (fst e))); cbn [wo_w wo_mu wo_sigma2 wo_threshold wo_fit wo_dirty].
    + rewrite H1, H2, H3. split; [ring|]. split; [destruct (wo_mu K s); cbn; [f_equal; ring|reflexivity]|].
      split; [destruct (wo_sigma2 K s); cbn; [f_equal; ring|reflexivity]|]. auto.
    + auto 10.
Qed.
Lemma wpot_sc thr es : total K snd es <> 0 ->
  wpot_out K pw lr 0 0 thr (map push_of (scale_weights K c es) ++ [PExtract K])
  = wpot_out K pw lr 0 0 thr (map push_of es ++ [PExtract K]).
Proof.
  intros NW. destruct (wpot_pushes_sc thr es) as (s & s' & E & E' & H1 & H2 & H3 & H4 & H5 & H6).
  unfold wpot_out, wpot_session in *. rewrite !fold_left_app, E, E'. cbn [fold_left wpot_step snd]. f_equal. f_equal.
  unfold wpot_extract. rewrite H6, H1, H2, H3, H4, keqb_sc. destruct (wo_dirty K s); [|exact H5].
  destruct (keqb K (wo_w K s) 0) eqn:EQ; [reflexivity|].
  assert (Nw : wo_w K s <> 0). { intros Z. apply (keqb_true K HO) in Z. congruence. }
  destruct (wo_mu K s), (wo_sigma2 K s); cbn [osc option_map]; try reflexivity.
  cbn [wo_fit]. rewrite !scale_div by exact Nw.
  replace ((c * total K snd es - c * wo_w K s) / (c * total K snd es)) with ((total K snd es - wo_w K s) / total K snd es)
    by (field; split; assumption). reflexivity.
Qed.

(** *** Density *)
Definition scale_op (o : dens_op (T * T)) : dens_op (T * T) := match o with DPush e => DPush (fst e, c * snd e) | DExtract => DExtract end.
Lemma total_filter_sc (g : T -> bool) es :
  total K snd (filter (fun e => g (fst e)) (scale_weights K c es)) = c * total K snd (filter (fun e => g (fst e)) es).
Proof.
  unfold scale_weights. induction es as [|e es IH]; [cbn; ring|]. cbn [map filter fst]. destruct (g (fst e)); [|exact IH].
  rewrite !total_cons, IH. cbn [snd]. ring.
Qed.
Lemma total_sc (es : list (T * T)) : total K snd (scale_weights K c es) = c * total K snd es.
Proof. unfold scale_weights. induction es as [|e l IH]; [cbn; ring|]. cbn [map]. rewrite !total_cons, IH. cbn [snd]. ring. Qed.
Lemma pushes_sc ops : dens_pushes (map scale_op ops) = scale_weights K c (dens_pushes ops).
Proof. unfold dens_pushes, scale_weights. induction ops as [|[e|] ops IH]; cbn; [reflexivity|f_equal; exact IH|exact IH]. Qed.
Lemma IsMin_unique l m m' : IsMin K l m -> IsMin K l m' -> m = m'.
Proof. intros [A B] [C D]. apply (ord_total K HO); [apply D|apply B]; assumption. Qed.
Lemma IsMax_unique l m m' : IsMax K l m -> IsMax K l m' -> m = m'.
Proof. intros [A B] [C D]. apply (ord_total K HO); [apply B|apply D]; assumption. Qed.
Lemma density_sc lo hi n b s0 ops : let es := dens_pushes ops in
  (1 <= n)%nat -> (1 <= b)%nat -> (n <= length es)%nat ->
  Forall (fun x => ltb K x lo = false /\ ltb K hi x = false) (map fst es) -> TotalWeight K es <> 0 ->
  exists s s', weighted_density_run K lo hi n b s0 ops = Ok s /\ weighted_density_run K lo hi n b s0 (map scale_op ops) = Ok s' /\
    weighted_density_result K s' = weighted_density_result K s.
Proof.
  intros es Hn Hb HL HR NW.
  assert (LF : map fst (scale_weights K c es) = map fst es) by (unfold scale_weights; rewrite map_map; reflexivity).
  assert (LL : length (scale_weights K c es) = length es) by (unfold scale_weights; apply map_length).
  assert (LN : map fst (firstn n (scale_weights K c es)) = map fst (firstn n es)).
  { rewrite <- !firstn_map. rewrite LF. reflexivity. }
  destruct (wdensity_top K HO lo hi n b s0 ops Hn Hb HL HR) as (s & m & M & E & H1 & H2 & H3 & _).
  destruct (wdensity_top K HO lo hi n b s0 (map scale_op ops)) as (s' & m' & M' & E' & H1' & H2' & H3' & _); rewrite ?pushes_sc; fold es; auto.
  { rewrite LL. exact HL. }
  { rewrite LF. exact HR. }
  exists s, s'. split; [exact E|]. split; [exact E'|]. rewrite H3, H3'. rewrite pushes_sc in *. fold es in H1, H2, H1', H2' |- *.
  rewrite LN in H1', H2'. rewrite (IsMin_unique _ _ _ H1' H1), (IsMax_unique _ _ _ H2' H2).
  apply map_ext. intros i. f_equal. unfold TotalWeight. rewrite total_filter_sc.
  rewrite total_sc. apply scale_div. exact NW.
Qed.
End Units.

(** *** From the history on *)
Section Runs.
Variable K : Num.
Hypothesis HO : OrderedLaws K.
Local Notation T := (car K).

Lemma tail_units (H : HeapOps) lr k dA (ops : list (tail_op T T)) c : ltb K (zero K) c = true ->
  forall s tl ws, tail_run H (tail_pred K lr) (tail_init k 1 dA (zero K)) ops = Ok s ->
  tail_result H (tail_pred K lr) s = Ok tl -> tail_variate_result H (tail_pred K lr) s 0 = Ok ws ->
  exists s' ws', tail_run H (tail_pred K lr) (tail_init k 1 dA (zero K))
      (map (fun o => match o with TPush x vs => TPush x (map (mul K c) vs) | TExtract => TExtract end) ops) = Ok s' /\
    tail_result H (tail_pred K lr) s' = Ok tl /\ tail_variate_result H (tail_pred K lr) s' 0 = Ok ws' /\ ws' = map (mul K c) ws /\
    forall W p,
      weighted_tail_quantile_result K lr (mul K c W) tl ws' p = weighted_tail_quantile_result K lr W tl ws p /\
      (ltb K (zero K) (mul K W (TailShare K lr p)) = true ->
        non_coherent_weighted_tail_mean_result K lr (mul K c W) tl ws' p = non_coherent_weighted_tail_mean_result K lr W tl ws p /\
        forall pw,
        obnd (wppot_extract K pw lr (ppot_init K lr (zero K) p) (mul K c W) tl ws') (fun r => Ok (snd r))
        = obnd (wppot_extract K pw lr (ppot_init K lr (zero K) p) W tl ws) (fun r => Ok (snd r))).
Proof.
  intros Hc s tl ws HR HT HV.
  assert (Z : mul K c (zero K) = zero K) by (apply (mul_0 K HO)).
  assert (E := map_run T T T H (tail_pred K lr) (mul K c) (tail_init k 1 dA (zero K)) ops).
  rewrite map_init, Z, HR in E. cbn [obnd] in E.
  eexists. exists (map (mul K c) ws). split; [exact E|]. split; [rewrite map_result; exact HT|]. split; [rewrite map_variate, HV; reflexivity|].
  split; [reflexivity|]. intros W p. split; [apply (wtq_sc K HO c Hc)|]. intros HP. split.
  - apply (wtm_sc K HO c Hc). destruct lr; exact HP.
  - intros pw. apply (wppot_sc K HO c Hc). destruct lr; exact HP.
Qed.
Definition on_weight (c : T) (v : T + list T) : T + list T := match v with inl w => inl (mul K c w) | inr l => inr l end.
Lemma tail_means_units (H : HeapOps) lr k dA (ops : list (tail_op T (T + list T))) c : ltb K (zero K) c = true ->
  forall s tl ws tv, tail_run H (tail_pred K lr) (tail_init k 2 dA (inl (zero K))) ops = Ok s ->
  tail_result H (tail_pred K lr) s = Ok tl -> tail_variate_result H (tail_pred K lr) s 0 = Ok (map inl ws) ->
  tail_variate_result H (tail_pred K lr) s 1 = Ok (map inr tv) ->
  exists s' ws', tail_run H (tail_pred K lr) (tail_init k 2 dA (inl (zero K)))
      (map (fun o => match o with TPush x vs => TPush x (map (on_weight c) vs) | TExtract => TExtract end) ops) = Ok s' /\
    tail_result H (tail_pred K lr) s' = Ok tl /\ tail_variate_result H (tail_pred K lr) s' 0 = Ok (map inl ws') /\
    tail_variate_result H (tail_pred K lr) s' 1 = Ok (map inr tv) /\
    forall fuel W p, ltb K (zero K) (mul K W (TailShare K lr p)) = true ->
      weighted_tail_variate_means_result K lr fuel false (mul K c W) tl ws' tv p
        = weighted_tail_variate_means_result K lr fuel false W tl ws tv p /\
      (non_coherent_weighted_tail_mean_result K lr W tl ws p <> Ok (zero K) ->
       weighted_tail_variate_means_result K lr fuel true (mul K c W) tl ws' tv p
        = weighted_tail_variate_means_result K lr fuel true W tl ws tv p).
Proof.
  intros Hc s tl ws tv HR HT HV HX.
  assert (E := map_run T (T + list T) (T + list T) H (tail_pred K lr) (on_weight c) (tail_init k 2 dA (inl (zero K))) ops).
  rewrite map_init, HR in E. cbn [obnd on_weight] in E. rewrite (mul_0 K HO) in E.
  eexists. exists (map (mul K c) ws). split; [exact E|]. split; [rewrite map_result; exact HT|].
  split; [rewrite map_variate, HV; cbn [obnd]; f_equal; rewrite !map_map; reflexivity|].
  split; [rewrite map_variate, HX; cbn [obnd]; f_equal; rewrite !map_map; reflexivity|].
  intros fuel W p HP. split.
  - apply (wvm_sc K HO c Hc); [destruct lr; exact HP|discriminate].
  - intros N. apply (wvm_sc K HO c Hc); [destruct lr; exact HP|]. intros _ m Hm Z. apply N. rewrite Hm, Z. reflexivity.
Qed.
End Runs.

(** The third component (shape) of what the second extraction returns, for weights of one and of two. *)
Definition ex_pot_ops (w : Qc) : list (pot_ops QcN) :=
  [PPush QcN (Q2Qc 1) w; PPush QcN (Q2Qc 4) w; PExtract QcN; PPush QcN (Q2Qc 2) w; PPush QcN (Q2Qc 6) w; PExtract QcN].
Definition shapes (l : list (outcome (Qc * Qc * Qc))) : list (outcome Q) :=
  map (fun o => obnd o (fun r => Ok (this (snd r)))) l.
Lemma ex_pot_one : forall pw, shapes (wpot_out QcN pw Right (Q2Qc 0) (Q2Qc 0) (Q2Qc 0) (ex_pot_ops (Q2Qc 1))) = [Ok (-8#9); Ok (-103#235)]%Q.
Proof. intros pw. vm_compute. reflexivity. Qed.
Lemma ex_pot_two : forall pw, shapes (wpot_out QcN pw Right (Q2Qc 0) (Q2Qc 0) (Q2Qc 0) (ex_pot_ops (Q2Qc 2))) = [Ok (-8#9); Ok (-53#1263)]%Q.
Proof. intros pw. vm_compute. reflexivity. Qed.
Lemma pot_units_refuted : forall pw : Qc -> Qc -> Qc, exists (thr c : Qc) (es fs : list (Qc * Qc)),
  ltb QcN (zero QcN) c = true /\ Forall (fun e => ltb QcN (zero QcN) (snd e) = true) (es ++ fs) /\
  let push := map (fun e => PPush QcN (fst e) (snd e)) in
  wpot_out QcN pw Right (zero QcN) (zero QcN) thr
    (push (scale_weights QcN c es) ++ [PExtract QcN] ++ push (scale_weights QcN c fs) ++ [PExtract QcN])
  <> wpot_out QcN pw Right (zero QcN) (zero QcN) thr (push es ++ [PExtract QcN] ++ push fs ++ [PExtract QcN]).
Proof.
  intros pw. exists (Q2Qc 0), (Q2Qc 2), [(Q2Qc 1, Q2Qc 1); (Q2Qc 4, Q2Qc 1)], [(Q2Qc 2, Q2Qc 1); (Q2Qc 6, Q2Qc 1)].
  split; [reflexivity|]. split; [repeat constructor|]. cbv zeta. intros E.
  assert (A := ex_pot_one pw). assert (B := ex_pot_two pw).
  assert (S : mul QcN (Q2Qc 2) (Q2Qc 1) = Q2Qc 2) by (apply Qc_is_canon; reflexivity).
  unfold scale_weights in E. cbn [map fst snd app] in E. rewrite S in E.
  apply (f_equal shapes) in E. change (zero QcN) with (Q2Qc 0) in E. unfold ex_pot_ops in A, B.
  rewrite B in E. rewrite A in E. discriminate E.
Qed.
(** Examples for the theorems *)
Definition ex_dens_ops : list (dens_op (Qc * Qc)) := map (fun e => DPush (Q2Qc (fst e), Q2Qc (snd e))) [(1,1); (5#1,1#2); (3,2); (4,1#3)]%Q.
Lemma ex_dens_units : let es := dens_pushes ex_dens_ops in (2 <= length es)%nat /\
  Forall (fun x => ltb QcN x (Q2Qc (-100)) = false /\ ltb QcN (Q2Qc 100) x = false) (map fst es) /\
  this (TotalWeight QcN es) = (23#6)%Q.
Proof. split; [cbn; lia|]. split; [repeat constructor|]. vm_compute. reflexivity. Qed.
Lemma ex_tail_units : ex_wwith Right 3 (fun tl ws => Ok (map this tl, map this ws)) = Ok ([5; 3; 1], [1; 1; 1#2])%Q.
Proof. vm_compute. reflexivity. Qed.
