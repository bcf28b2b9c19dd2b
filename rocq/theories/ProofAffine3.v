(** Change of unit (and mirror image): tails, peaks over a threshold. *)
From Coq Require Import List Arith Bool Lia Field Permutation Sorted QArith Qcanon.
From Verif Require Import Num NumFacts ModelTail ModelPot ModelPSquare SpecStats SpecTail
  ProofBasic ProofOrder ProofTail ProofPSquare ProofTailStats ProofTailTop ProofAffine.
Import ListNotations.

Definition map_push {A V : Type} (g : A -> A) (o : tail_op A V) : tail_op A V :=
  match o with TPush x vs => TPush (g x) vs | TExtract => TExtract end.
Lemma pushes_map {A V : Type} (g : A -> A) (ops : list (tail_op A V)) :
  pushes (map (map_push g) ops) = map (fun e => (g (fst e), snd e)) (pushes ops).
Proof. unfold pushes. induction ops as [|[x vs|] ops IH]; cbn; [reflexivity|f_equal; exact IH|exact IH]. Qed.
Definition other (lr : side) : side := match lr with Left => Right | Right => Left end.

Section Inst.
Variable K : Num.
Hypothesis HO : OrderedLaws K.
Let HK : FieldLaws K := ord_field K HO.
Local Notation T := (car K).
Local Notation "0" := (zero K) : num_scope.
Local Notation "1" := (one K) : num_scope.
Local Notation "x + y" := (add K x y) : num_scope.
Local Notation "x - y" := (sub K x y) : num_scope.
Local Notation "x * y" := (mul K x y) : num_scope.
Local Notation "x / y" := (div K x y) : num_scope.
Local Notation "- x" := (opp K x) : num_scope.
Local Notation "# n" := (ofnat K n) (at level 2) : num_scope.
Local Open Scope num_scope.
Add Field KfieldAff3 : (fl_field K HK).

(** What is needed: the image of the order, of the probability. *)
Section Any.
Variables a b : T.
Local Notation f := (aff K a b).
Variables lr lr' : side.
Hypothesis Hpred : forall x y, tail_pred K lr' (f x) (f y) = tail_pred K lr x y.

Lemma pred_anti side x y : tail_pred K side x y = false -> tail_pred K side y x = false -> x = y.
Proof. destruct side; cbn; intros A B; apply (ord_total K HO); assumption. Qed.
Lemma istail_ext {A} (p q : A -> A -> bool) k xs t : (forall x y, p x y = q x y) -> IsTail p k xs t -> IsTail q k xs t.
Proof.
  intros E (L & S & r & P & R). split; [exact L|]. split.
  - clear - E S. unfold SortedBy in *. induction S as [|x l S IH F]; constructor; [exact IH|].
    rewrite Forall_forall in *. intros y Hy. rewrite <- E. apply F. exact Hy.
  - exists r. split; [exact P|]. intros. rewrite <- E. apply R; assumption.
Qed.
Lemma tail_affine (H : HeapOps) (HC : HeapContract H) (V : Type) (k nv : nat) (dA dA' : T) (dV : V) (ops : list (tail_op T V)) :
  (0 < k)%nat -> WellFormed nv ops ->
  exists s s' t, tail_run H (tail_pred K lr) (tail_init k nv dA dV) ops = Ok s /\
    tail_run H (tail_pred K lr') (tail_init k nv dA' dV) (map (map_push f) ops) = Ok s' /\
    tail_result H (tail_pred K lr) s = Ok t /\ tail_result H (tail_pred K lr') s' = Ok (map f t) /\
    (NoDup (map fst (pushes ops)) -> forall j, (j < nv)%nat ->
      exists vals, tail_variate_result H (tail_pred K lr) s j = Ok vals /\ tail_variate_result H (tail_pred K lr') s' j = Ok vals).
Proof.
  intros Hk HW.
  destruct (tail_spec H HC T V (tail_pred K lr) (pred_sw K HO lr) k nv dA dV ops Hk HW) as (s & es & E & HT & R & RV).
  destruct (tail_spec H HC T V (tail_pred K lr') (pred_sw K HO lr') k nv dA' dV (map (map_push f) ops) Hk) as (s' & es' & E' & HT' & R' & RV').
  { unfold WellFormed in *. rewrite pushes_map. apply Forall_forall. intros e He. apply in_map_iff in He. destruct He as (e0 & <- & He0).
    rewrite Forall_forall in HW. exact (HW e0 He0). }
  rewrite pushes_map in HT'. apply IsTail_unmap in HT'. destruct HT' as (es2 & -> & HT2). cbn [fst] in HT2.
  assert (HT3 : IsTail (fun x y => tail_pred K lr (fst x) (fst y)) k (pushes ops) es2).
  { revert HT2. apply istail_ext. intros. apply Hpred. }
  assert (EM : map fst es = map fst es2).
  { refine (IsTail_unique (tail_pred K lr) (pred_sw K HO lr) k (map fst (pushes ops)) _ _ _ _ (Permutation_refl _) _ _).
    - intros x y _ _. apply pred_anti.
    - apply (IsTail_map fst (tail_pred K lr)). exact HT.
    - apply (IsTail_map fst (tail_pred K lr)). exact HT3. }
  exists s, s', (map fst es). split; [exact E|]. split; [exact E'|]. split; [exact R|]. split.
  { rewrite R', map_map. cbn [fst]. rewrite <- (map_map fst f), <- EM. reflexivity. }
  intros HN j Hj.
  assert (es = es2).
  { eapply IsTail_unique; [| |reflexivity|exact HT|exact HT3].
    - pose proof (pred_sw K HO lr) as SP. constructor; intros; [apply (sw_irrefl _ SP)|eapply (sw_trans _ SP); eauto|eapply (sw_negtrans _ SP); eauto].
    - cbn. intros x y Hx Hy H1 H2. eapply NoDup_map_inj; eauto. eapply pred_anti; eauto. }
  subst es2. destruct (RV j Hj) as (v & Ev & Mv). destruct (RV' j Hj) as (v' & Ev' & Mv').
  rewrite map_map in Mv'. cbn [snd] in Mv'. assert (v = v') by (apply map_Some_inj; congruence). subst v'. eauto.
Qed.

Variable ceil : T -> nat.
Variables p p' : T.
Hypothesis Hp : tail_level K lr' p' = tail_level K lr p.
Lemma tail_n_aff cnt : tail_n K ceil lr' cnt p' = tail_n K ceil lr cnt p.
Proof. unfold tail_n. rewrite Hp. reflexivity. Qed.
Lemma tail_quantile_aff cnt tl : tail_quantile_result K ceil lr' cnt (map f tl) p' = obnd (tail_quantile_result K ceil lr cnt tl p) (fun v => Ok (f v)).
Proof.
  unfold tail_quantile_result. rewrite tail_n_aff, map_length. destruct (Nat.ltb _ _); [|reflexivity].
  destruct (tail_n K ceil lr cnt p) as [|m]; [reflexivity|]. rewrite nth_error_map. destruct (nth_error tl m); reflexivity.
Qed.
Lemma sum_aff tl : forall u v, v = a * u -> fold_left (add K) (map f tl) v = a * fold_left (add K) tl u + b * #(length tl).
Proof.
  induction tl as [|x tl IH] using rev_ind; intros u v ->; cbn [map fold_left length].
  - cbn [ofnat]. ring.
  - rewrite map_app, !fold_left_app, app_length. cbn [map fold_left length]. rewrite (IH u (a * u) eq_refl).
    rewrite Nat.add_comm. cbn [Nat.add ofnat]. unfold aff. ring.
Qed.
Lemma nctm_aff cnt tl : non_coherent_tail_mean_result K ceil lr' cnt (map f tl) p' = obnd (non_coherent_tail_mean_result K ceil lr cnt tl p) (fun v => Ok (f v)).
Proof.
  unfold non_coherent_tail_mean_result. rewrite tail_n_aff, map_length. destruct (Nat.leb _ _) eqn:L; [|reflexivity].
  destruct (tail_n K ceil lr cnt p) as [|m] eqn:En; [reflexivity|]. cbn [obnd]. apply Nat.leb_le in L.
  rewrite firstn_map, (sum_aff _ 0 0) by ring. rewrite firstn_length_le by exact L.
  assert (N : #(S m) <> 0) by (apply (kpos_neq0 K HO), (kofnat_pos K HO)). f_equal. unfold aff. field. exact N.
Qed.
Lemma weighted_tail_quantile_aff wtot tl ws : weighted_tail_quantile_result K lr' wtot (map f tl) ws p' = obnd (weighted_tail_quantile_result K lr wtot tl ws p) (fun v => Ok (f v)).
Proof.
  unfold weighted_tail_quantile_result. rewrite Hp. destruct (weight_loop K _ 0 0 ws) as [[[|m] sm]|]; try reflexivity.
  rewrite nth_error_map. destruct (nth_error tl m); reflexivity.
Qed.
Lemma loop_sum thr ws : forall sum n m sm, weight_loop K thr sum n ws = Some (m, sm) ->
  (n <= m)%nat /\ (m - n <= length ws)%nat /\ sm = fold_left (add K) (firstn (m - n) ws) sum /\ ltb K sm thr = false.
Proof.
  induction ws as [|w ws IH]; intros sum n m sm; cbn [weight_loop]; destruct (ltb K sum thr) eqn:L; intros E; try discriminate.
  - injection E as <- <-. rewrite Nat.sub_diag. cbn. auto.
  - destruct (IH _ _ _ _ E) as (A & B & C & D). split; [lia|]. replace (m - n)%nat with (S (m - S n)) by lia. cbn [length firstn fold_left].
    split; [lia|]. auto.
  - injection E as <- <-. rewrite Nat.sub_diag. cbn. repeat split; auto; lia.
Qed.
Lemma inner_aff : forall n tl ws u v (t : T), (n <= length tl)%nat -> (n <= length ws)%nat -> v = a * u + b * t ->
  inner_product K (firstn n (map f tl)) ws v = a * inner_product K (firstn n tl) ws u + b * fold_left (add K) (firstn n ws) t.
Proof.
  induction n as [|n IH]; intros [|x tl] [|w ws] u v t; cbn [length map firstn inner_product fold_left]; intros L1 L2 ->; try reflexivity; try lia.
  apply IH; try lia. unfold aff. ring.
Qed.
Lemma weighted_nctm_aff wtot tl ws : ltb K 0 (wtot * tail_level K lr p) = true -> (length ws <= length tl)%nat ->
  non_coherent_weighted_tail_mean_result K lr' wtot (map f tl) ws p' = obnd (non_coherent_weighted_tail_mean_result K lr wtot tl ws p) (fun v => Ok (f v)).
Proof.
  intros Hpos HL. unfold non_coherent_weighted_tail_mean_result. rewrite Hp. destruct (weight_loop K _ 0 0 ws) as [[[|m] sm]|] eqn:E; try reflexivity.
  destruct (loop_sum _ _ _ _ _ _ E) as (_ & B & C & D). rewrite Nat.sub_0_r in B, C.
  cbn [obnd]. f_equal. rewrite (inner_aff (S m) tl ws 0 0 0); [|lia|lia|ring].
  rewrite <- C. assert (N : sm <> 0).
  { intros ->. rewrite Hpos in D. discriminate. }
  unfold aff. field. exact N.
Qed.

(** *** Peaks over a threshold *)
Variable pw : T -> T -> T.
Variables A B : T.
Hypothesis HA : A <> 0.
Hypothesis HAa : A * A = a * a.
Hypothesis Hs : forall x, sgn K lr' (f x) = A * sgn K lr x + B.
Definition fitmap (t : T * T * T) : T * T * T := let '(u, be, xi) := t in (A * u + B, A * be, xi).
Lemma sgn_sq side x : sgn K side x * sgn K side x = x * x.
Proof. destruct side; cbn [sgn]; ring. Qed.
Lemma sgn_invol side x : sgn K side (sgn K side x) = x.
Proof. destruct side; cbn [sgn]; ring. Qed.
Lemma keqb_iff x y : keqb K x y = true <-> x = y.
Proof. apply (keqb_true K HO). Qed.
Lemma keqb_congr x y x' y' : (x = y <-> x' = y') -> keqb K x y = keqb K x' y'.
Proof.
  intros E. destruct (keqb K x' y') eqn:E'; [apply keqb_iff, E, keqb_iff; exact E'|].
  destruct (keqb K x y) eqn:E0; [|reflexivity]. apply keqb_iff, E, keqb_iff in E0. congruence.
Qed.
Lemma mul_zero_iff c x : c <> 0 -> (c * x = 0 <-> x = 0).
Proof.
  intros Hc. split; [|intros ->; ring]. intros E. transitivity (c * x / c); [field; exact Hc|]. rewrite E. field. exact Hc.
Qed.
Lemma pot_fit_aff mu s2 u pr : pot_fit K pw (A * mu + B) (A * A * s2) (A * u + B) pr = obnd (pot_fit K pw mu s2 u pr) (fun t => Ok (fitmap t)).
Proof.
  unfold pot_fit. assert (HAA : A * A <> 0) by (intros E; apply HA; apply (mul_zero_iff A A HA); exact E).
  rewrite (keqb_congr (A * A * s2) 0 s2 0) by (apply mul_zero_iff; exact HAA).
  destruct (keqb K s2 0) eqn:E; [reflexivity|].
  assert (N : s2 <> 0) by (intros E1; apply keqb_iff in E1; congruence).
  cbv zeta. replace ((A * mu + B - (A * u + B)) * (A * mu + B - (A * u + B)) / (A * A * s2)) with ((mu - u) * (mu - u) / s2) by (field; auto).
  destruct (keqb K (half K * _) 0); [reflexivity|]. cbn [obnd fitmap]. f_equal. rewrite !(div_def K HO). f_equal; f_equal; ring.
Qed.

Record pot_rel (s s' : pot K) : Prop := {
  pr_n : po_n K s' = po_n K s;
  pr_thr : po_threshold K s' = A * po_threshold K s + B;
  pr_dirty : po_dirty K s = true /\ po_dirty K s' = true;
  pr_sums : exists m q, po_mu K s = Some m /\ po_sigma2 K s = Some q /\
    po_mu K s' = Some (a * m + b * #(po_n K s)) /\ po_sigma2 K s' = Some (a * a * q + (1 + 1) * a * b * m + b * b * #(po_n K s))
}.
Hypothesis Hlt : forall x y, ltb K (A * x + B) (A * y + B) = ltb K x y.
Lemma pot_push_rel xs : forall thr cnt, pot_rel
  (snd (fst (fold_left (pot_step K pw lr) (map (fun x => PPush K x 1) xs) (cnt, pot_init K lr 0 thr, []))))
  (snd (fst (fold_left (pot_step K pw lr') (map (fun x => PPush K (f x) 1) xs) (cnt, pot_init K lr' 0 (f thr), [])))).
Proof.
  intros thr cnt. induction xs as [|x xs IH] using rev_ind; cbn [map fold_left fst snd].
  - constructor; cbn [pot_init po_n po_threshold po_dirty po_mu po_sigma2]; auto.
    + exists (sgn K lr (0 / 1)), (0 / 1). repeat split; f_equal; rewrite !(div_def K HO); destruct lr, lr'; cbn [sgn ofnat]; ring.
  - rewrite !map_app, !fold_left_app. cbn [map fold_left].
    destruct (fold_left _ _ (cnt, pot_init K lr 0 thr, [])) as [[c s] o]. destruct (fold_left _ _ (cnt, pot_init K lr' 0 (f thr), [])) as [[c' s'] o'].
    cbn [fst snd pot_step] in *. destruct IH as [I1 I2 I3 (m & q & J1 & J2 & J3 & J4)]. unfold pot_op. rewrite I2, Hs, Hlt.
    destruct (ltb K (po_threshold K s) (sgn K lr x)); constructor; cbn [po_n po_threshold po_dirty po_mu po_sigma2]; auto.
    + rewrite J1, J2, J3, J4. cbn [oadd]. exists (m + x), (q + x * x). cbn [ofnat]. repeat split; f_equal; unfold aff; ring.
    + exists m, q. auto.
Qed.
Lemma pot_cnt side (xs : list T) (g : T -> T) : forall cnt s o,
  fst (fst (fold_left (pot_step K pw side) (map (fun x => PPush K (g x) 1) xs) (cnt, s, o))) = (length xs + cnt)%nat /\
  snd (fold_left (pot_step K pw side) (map (fun x => PPush K (g x) 1) xs) (cnt, s, o)) = o.
Proof.
  induction xs as [|x xs IH]; intros cnt s o; cbn [map fold_left length]; [auto|]. cbn [pot_step].
  destruct (IH (S cnt) (pot_op K side s (g x)) o) as (E1 & E2). rewrite E1, E2. split; [lia|reflexivity].
Qed.
Lemma pot_affine thr xs :
  pot_out K pw lr' 0 (f thr) (map (fun x => PPush K (f x) 1) xs ++ [PExtract K])
  = map (fun o => obnd o (fun t => Ok (fitmap t))) (pot_out K pw lr 0 thr (map (fun x => PPush K x 1) xs ++ [PExtract K])).
Proof.
  unfold pot_out, pot_session. rewrite !fold_left_app. pose proof (pot_push_rel xs thr 0%nat) as R.
  destruct (pot_cnt lr xs (fun x => x) 0%nat (pot_init K lr 0 thr) []) as (C1 & C2).
  destruct (pot_cnt lr' xs f 0%nat (pot_init K lr' 0 (f thr)) []) as (D1 & D2).
  destruct (fold_left _ _ (0%nat, pot_init K lr 0 thr, [])) as [[c s] o]. destruct (fold_left _ _ (0%nat, pot_init K lr' 0 (f thr), [])) as [[c' s'] o'].
  cbn [fst snd fold_left pot_step] in *. subst c c' o o'. cbn [app map]. f_equal.
  destruct R as [I1 I2 [I3 I3'] (m & q & J1 & J2 & J3 & J4)]. unfold pot_extract. rewrite I3, I3', I1, I2, J1, J2, J3, J4.
  destruct (po_n K s) as [|k]; [reflexivity|]. cbn [po_fit]. rewrite <- pot_fit_aff.
  assert (N : #(S k) <> 0) by (apply (kpos_neq0 K HO), (kofnat_pos K HO)).
  replace ((a * m + b * #(S k)) / #(S k)) with (f (m / #(S k))) by (unfold aff; field; exact N). f_equal; [apply Hs|].
  rewrite !sgn_sq, HAa. unfold aff. field. exact N.
Qed.
Lemma pot_quantile_aff fit q : tail_level K lr' q = tail_level K lr p ->
  pot_quantile_result K pw lr' (fitmap fit) q = f (pot_quantile_result K pw lr fit p).
Proof.
  destruct fit as [[u be] xi]. cbn [fitmap]. unfold pot_quantile_result. fold (tail_level K lr' q) (tail_level K lr p). intros ->.
  set (e := pw _ _ - 1). set (z := u + be / xi * e). replace (A * u + B + A * be / xi * e) with (A * z + B) by (unfold z; rewrite !(div_def K HO); ring).
  rewrite <- (sgn_invol lr z) at 1. rewrite <- Hs, sgn_invol. reflexivity.
Qed.
End Any.
End Inst.
