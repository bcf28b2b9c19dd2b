(** Proofs for C73: quantiles and tail means as functions of the probability. *)
From Coq Require Import List Arith Bool Permutation Sorted Lia Field QArith Qcanon.
From Verif Require Import Num NumFacts ModelTail SpecStats SpecTail SpecProbability ProofBasic ProofOrder ProofTail
  ProofTailStats ProofTailTop.
Import ListNotations.

Section Prob.
Variable K : Num.
Hypothesis HO : OrderedLaws K.
Let HK : FieldLaws K := ord_field K HO.
Local Notation T := (car K).
Local Notation "0" := (zero K) : num_scope.
Local Notation "1" := (one K) : num_scope.
Local Notation "x + y" := (add K x y) : num_scope.
Local Notation "x - y" := (sub K x y) : num_scope.
Local Notation "x * y" := (mul K x y) : num_scope.
Local Notation "x / y" := (div K x y) : num_scope.
Local Notation "- x" := (opp K x) : num_scope.
Local Notation "x < y" := (klt K x y) : num_scope.
Local Notation "x <= y" := (kle K x y) : num_scope.
Local Notation "# n" := (ofnat K n) (at level 2) : num_scope.
Local Open Scope num_scope.
Add Field KfieldP : (fl_field K HK).

(** ** Averages of sorted lists.  [sg] is 1 for ascending and -1 for descending order. *)
Definition nonneg (l : list (T * T)) : Prop := Forall (fun e => 0 <= snd e) l.
Lemma spread sg (l : list (T * T)) c : nonneg l -> (forall y, In y l -> 0 <= sg * (c - fst y)) ->
  0 <= sg * (c * TotalWeight K l - total K (fun p => snd p * fst p) l).
Proof.
  unfold TotalWeight. induction l as [|e l IH]; intros HN HS.
  - rewrite !total_nil. replace (sg * (c * 0 - 0)) with 0 by ring. apply (kle_refl K HO).
  - rewrite !total_cons. inversion_clear HN as [|? ? H1 H2].
    replace (sg * (c * (snd e + total K snd l) - (snd e * fst e + total K (fun p => snd p * fst p) l)))
      with (snd e * (sg * (c - fst e)) + sg * (c * total K snd l - total K (fun p => snd p * fst p) l)) by ring.
    replace 0 with (0 + 0) by ring. apply (kadd_le2 K HO).
    + apply (kmul_nonneg K HO); [exact H1|]. apply HS. left; reflexivity.
    + apply IH; [exact H2|]. intros y Hy. apply HS. right; exact Hy.
Qed.
Lemma wmean_beyond sg l c : nonneg l -> (forall y, In y l -> 0 <= sg * (c - fst y)) -> 0 < TotalWeight K l ->
  0 <= sg * (c - WMean K l).
Proof.
  intros HN HS HP. assert (H := spread sg l c HN HS). assert (H0 := kpos_neq0 K HO _ HP).
  unfold WMean, waverage.
  replace (sg * (c - total K (fun p => snd p * fst p) l / TotalWeight K l))
    with (sg * (c * TotalWeight K l - total K (fun p => snd p * fst p) l) / TotalWeight K l) by (field; exact H0).
  apply (kdiv_nonneg K HO); assumption.
Qed.
Lemma wtotal_nonneg l : nonneg l -> 0 <= TotalWeight K l.
Proof.
  unfold TotalWeight. induction 1 as [|e l He _ IH]; [rewrite total_nil; apply (kle_refl K HO)|].
  rewrite total_cons. replace 0 with (0 + 0) by ring. apply (kadd_le2 K HO); assumption.
Qed.
Lemma wmean_app sg l m : nonneg l -> nonneg m -> 0 < TotalWeight K l ->
  (forall y z, In y l -> In z m -> 0 <= sg * (fst z - fst y)) -> 0 <= sg * (WMean K (l ++ m) - WMean K l).
Proof.
  intros HL HM HP HS. assert (H0 := kpos_neq0 K HO _ HP).
  assert (HT : 0 < TotalWeight K l + TotalWeight K m).
  { replace 0 with (0 + 0) by ring. apply (kadd_lt_le K HO); [exact HP|]. apply wtotal_nonneg, HM. }
  assert (H1 := kpos_neq0 K HO _ HT).
  assert (H := spread (- sg) m (WMean K l) HM).
  replace (sg * (WMean K (l ++ m) - WMean K l))
    with (- sg * (WMean K l * TotalWeight K m - total K (fun p => snd p * fst p) m) / (TotalWeight K l + TotalWeight K m)).
  - apply (kdiv_nonneg K HO); [|exact HT]. apply H. intros z Hz.
    replace (- sg * (WMean K l - fst z)) with (sg * (fst z - WMean K l)) by ring.
    apply wmean_beyond; [exact HL| |exact HP]. intros y Hy. apply HS; assumption.
  - unfold WMean, waverage. unfold TotalWeight in *. rewrite !(total_app K HK). field. split; assumption.
Qed.

Variable lr : side.
Local Notation pr := (tail_pred K lr).
Definition sgn1 : T := match lr with Left => 1 | Right => - (1) end.
Lemma pr_sgn a b : pr b a = false <-> 0 <= sgn1 * (b - a).
Proof.
  unfold sgn1, tail_pred. destruct lr.
  - replace (1 * (b - a)) with (b - a) by ring. rewrite (ksub_nonneg K HO). reflexivity.
  - replace (- (1) * (b - a)) with (a - b) by ring. rewrite (ksub_nonneg K HO). reflexivity.
Qed.

(** ** From the share to the probability *)
Lemma share_le p q : p <= q -> match lr with Left => level K lr p <= level K lr q | Right => level K lr q <= level K lr p end.
Proof.
  intros H. unfold level. destruct lr; [exact H|].
  apply (ksub_nonneg K HO). replace (1 - p - (1 - q)) with (q - p) by ring. apply (ksub_nonneg K HO), H.
Qed.
Lemma grows (F : T -> outcome T) :
  (forall p q a b, in01 K p -> in01 K q -> level K lr p <= level K lr q -> F p = Ok a -> F q = Ok b -> 0 <= sgn1 * (b - a)) ->
  GrowsWithProbability K F.
Proof.
  intros HF p q a b Hp Hq Hle Ea Eb. apply (leb_kle K) in Hle. apply (leb_kle K). assert (HS := share_le p q Hle).
  unfold sgn1 in HF. destruct lr.
  - specialize (HF p q a b Hp Hq HS Ea Eb). replace (1 * (b - a)) with (b - a) in HF by ring. apply (ksub_nonneg K HO), HF.
  - specialize (HF q p b a Hq Hp HS Eb Ea). replace (- (1) * (a - b)) with (b - a) in HF by ring. apply (ksub_nonneg K HO), HF.
Qed.

Lemma split_le {E} (l : list E) m n : (m <= n)%nat -> exists t, firstn n l = firstn m l ++ t.
Proof.
  intros H. exists (firstn (n - m) (skipn m l)). rewrite <- (firstn_skipn m (firstn n l)) at 1.
  rewrite firstn_firstn, Nat.min_l by exact H. f_equal. rewrite skipn_firstn_comm. reflexivity.
Qed.
Lemma sorted_nth {E} (R : E -> E -> Prop) (l : list E) i j a b : StronglySorted R l -> (forall x, R x x) ->
  (i <= j)%nat -> nth_error l i = Some a -> nth_error l j = Some b -> R a b.
Proof.
  intros HS HR. revert i j. induction HS as [|x l HS IH HF]; intros i j Hij Ha Hb; [destruct i; discriminate|].
  destruct i, j; cbn in *; try lia.
  - injection Ha as <-. injection Hb as <-. apply HR.
  - injection Ha as <-. rewrite Forall_forall in HF. apply HF. eapply nth_error_In; eauto.
  - eapply IH with (i := i) (j := j); eauto. lia.
Qed.
(** The average over the first [m] and over the first [n >= m] entries. *)
Lemma sorted_means (es : list (T * T)) m n : SortedBy (fun a b => pr (fst a) (fst b)) es -> nonneg es -> (m <= n)%nat ->
  0 < TotalWeight K (firstn m es) -> 0 <= sgn1 * (WMean K (firstn n es) - WMean K (firstn m es)).
Proof.
  intros HS HN Hmn HP. destruct (split_le es m n Hmn) as [t Et]. rewrite Et.
  assert (HN' : nonneg (firstn n es)).
  { unfold nonneg in *. rewrite <- (firstn_skipn n es) in HN. apply Forall_app in HN. apply HN. }
  rewrite Et in HN'. apply Forall_app in HN'. destruct HN' as [H1 H2].
  apply wmean_app; [exact H1|exact H2|exact HP|]. intros y z Hy Hz. apply pr_sgn.
  rewrite <- (firstn_skipn n es), Et, <- app_assoc in HS.
  destruct (SortedBy_app_inv _ _ _ HS) as (_ & _ & H3). apply (H3 y z Hy). apply in_or_app. left; exact Hz.
Qed.
Lemma sorted_last (es : list (T * T)) m v : SortedBy (fun a b => pr (fst a) (fst b)) es -> nonneg es ->
  nth_error es m = Some v -> 0 < TotalWeight K (firstn (S m) es) -> 0 <= sgn1 * (fst v - WMean K (firstn (S m) es)).
Proof.
  intros HS HN Hv HP. apply wmean_beyond; [| |exact HP].
  - unfold nonneg in *. rewrite <- (firstn_skipn (S m) es) in HN. apply Forall_app in HN. apply HN.
  - intros y Hy. apply pr_sgn. apply In_nth_error in Hy. destruct Hy as [i Hi].
    assert (Hlt : (i < S m)%nat).
    { assert (H := proj1 (nth_error_Some (firstn (S m) es) i)). rewrite Hi in H.
      assert (H' : (i < length (firstn (S m) es))%nat) by (apply H; discriminate). rewrite firstn_length in H'. lia. }
    rewrite <- (firstn_skipn (S m) es) in Hv, HS.
    assert (Hi2 : nth_error (firstn (S m) es ++ skipn (S m) es) i = Some y).
    { rewrite nth_error_app1; [exact Hi|]. apply nth_error_Some. congruence. }
    refine (sorted_nth _ _ i m y v HS _ _ Hi2 Hv); [|lia]. intros x. apply (sw_irrefl _ (pred_sw K HO lr)).
Qed.

(** ** Without weights *)
Variable ceil : T -> nat.
Hypothesis HCeil : CeilSpec K ceil.
Lemma tail_n_le cnt p q : level K lr p <= level K lr q -> (tail_n K ceil lr cnt p <= tail_n K ceil lr cnt q)%nat.
Proof.
  intros H. unfold tail_n. change (tail_level K lr p) with (level K lr p). change (tail_level K lr q) with (level K lr q).
  destruct (HCeil (#cnt * level K lr p)) as [_ HM]. apply HM.
  destruct (HCeil (#cnt * level K lr q)) as [HL _]. apply (leb_kle K) in HL. apply (leb_kle K).
  apply (kle_trans K HO) with (2 := HL).
  replace (#cnt * level K lr p) with (level K lr p * #cnt) by ring. replace (#cnt * level K lr q) with (level K lr q * #cnt) by ring.
  apply (kmul_le K HO); [apply (kofnat_nonneg K HO)|exact H].
Qed.
Definition ones (tl : list T) : list (T * T) := map (fun x => (x, 1)) tl.
Lemma ones_weight l : TotalWeight K (ones l) = #(length l).
Proof. unfold TotalWeight, ones. rewrite total_map. cbn [snd]. rewrite total_const by exact HK. ring. Qed.
Lemma ones_mean l : WMean K (ones l) = total K (fun x => x) l / #(length l).
Proof.
  unfold WMean, waverage. rewrite ones_weight. unfold ones. rewrite total_map. cbn [fst snd].
  rewrite (total_ext K (fun a => 1 * a) (fun a => a)) by (intros; ring). reflexivity.
Qed.
Lemma ones_sorted tl : SortedBy pr tl -> SortedBy (fun a b => pr (fst a) (fst b)) (ones tl).
Proof.
  unfold SortedBy, ones. induction 1 as [|x l HS IH HF]; cbn; constructor; [exact IH|].
  rewrite Forall_map. exact HF.
Qed.
Lemma ones_nonneg tl : nonneg (ones tl).
Proof. unfold nonneg, ones. rewrite Forall_map. apply Forall_forall. intros x _. apply (klt_le K HO), (kone_pos K HO). Qed.

Section Tail.
Variable cnt : nat.
Variable tl : list T.
Hypothesis HS : SortedBy pr tl.
Local Notation n := (tail_n K ceil lr cnt).

Lemma quantile_inv p v : tail_quantile_result K ceil lr cnt tl p = Ok v ->
  (1 <= n p)%nat /\ (n p < length tl)%nat /\ nth_error tl (n p - 1) = Some v.
Proof.
  unfold tail_quantile_result. destruct (Nat.ltb_spec (n p) (length tl)) as [H|H]; [|discriminate].
  destruct (n p) as [|m]; [discriminate|]. destruct (nth_error tl m) eqn:E; [|discriminate]. intros [= ->].
  rewrite Nat.sub_succ, Nat.sub_0_r. repeat split; [lia|exact H|exact E].
Qed.
Lemma quantile_def p : (1 <= n p)%nat -> (n p < length tl)%nat -> exists v, tail_quantile_result K ceil lr cnt tl p = Ok v.
Proof.
  intros H1 H2. unfold tail_quantile_result. apply Nat.ltb_lt in H2. rewrite H2. apply Nat.ltb_lt in H2.
  destruct (n p) as [|m]; [lia|]. destruct (nth_error tl m) eqn:E; [eauto|]. apply nth_error_None in E. lia.
Qed.
Lemma mean_inv p v : non_coherent_tail_mean_result K ceil lr cnt tl p = Ok v ->
  (1 <= n p)%nat /\ (n p <= length tl)%nat /\ v = WMean K (firstn (n p) (ones tl)).
Proof.
  unfold non_coherent_tail_mean_result. destruct (Nat.leb_spec (n p) (length tl)) as [H|H]; [|discriminate].
  destruct (n p) as [|m]; [discriminate|]. intros E. split; [lia|]. split; [exact H|].
  assert (E' : forall x y : T, Ok x = Ok y -> x = y) by (intros x y [=]; assumption). apply E' in E. rewrite <- E. clear E E'.
  unfold ones. rewrite firstn_map. fold (ones (firstn (S m) tl)). rewrite ones_mean, (fold_total K HO).
  rewrite firstn_length, Nat.min_l by exact H.
  replace (0 + total K (fun x => x) (firstn (S m) tl)) with (total K (fun x => x) (firstn (S m) tl)) by ring. reflexivity.
Qed.
Lemma mean_def p : (1 <= n p)%nat -> (n p <= length tl)%nat -> exists v, non_coherent_tail_mean_result K ceil lr cnt tl p = Ok v.
Proof.
  intros H1 H2. unfold non_coherent_tail_mean_result. apply Nat.leb_le in H2. rewrite H2.
  destruct (n p); [lia|eauto].
Qed.
Lemma n_pos p q b : in01 K p -> (1 <= n q)%nat -> (n q <= length tl)%nat -> (length tl <= cnt)%nat -> b = n q -> (1 <= n p)%nat.
Proof.
  intros Hp H1 H2 H3 _. assert (Hl := in01_level K HO lr p Hp).
  apply (r_pos K HO lr cnt p (n p)); [lia|exact Hl|]. unfold tail_n. apply HCeil.
Qed.
Lemma quantile_grows : GrowsWithProbability K (tail_quantile_result K ceil lr cnt tl).
Proof.
  apply grows. intros p q a b Hp Hq Hl Ea Eb. apply quantile_inv in Ea, Eb.
  destruct Ea as (A1 & A2 & A3), Eb as (B1 & B2 & B3). assert (Hn := tail_n_le cnt p q Hl). apply pr_sgn.
  refine (sorted_nth _ _ (n p - 1) (n q - 1) a b HS _ _ A3 B3); [|lia].
  intros x. apply (sw_irrefl _ (pred_sw K HO lr)).
Qed.
Lemma weight_pos m : (1 <= m)%nat -> (m <= length tl)%nat -> 0 < TotalWeight K (firstn m (ones tl)).
Proof.
  intros H1 H2. unfold ones. rewrite firstn_map. fold (ones (firstn m tl)). rewrite ones_weight, firstn_length, Nat.min_l by exact H2.
  destruct m; [lia|]. apply (kofnat_pos K HO).
Qed.
Lemma mean_grows : GrowsWithProbability K (non_coherent_tail_mean_result K ceil lr cnt tl).
Proof.
  apply grows. intros p q a b Hp Hq Hl Ea Eb. apply mean_inv in Ea, Eb.
  destruct Ea as (A1 & A2 & ->), Eb as (B1 & B2 & ->). assert (Hn := tail_n_le cnt p q Hl).
  apply sorted_means; [apply ones_sorted, HS|apply ones_nonneg|exact Hn|]. apply weight_pos; assumption.
Qed.
Lemma mean_beyond p m v : non_coherent_tail_mean_result K ceil lr cnt tl p = Ok m ->
  tail_quantile_result K ceil lr cnt tl p = Ok v -> pr v m = false.
Proof.
  intros Em Ev. apply mean_inv in Em. apply quantile_inv in Ev. destruct Em as (A1 & A2 & ->), Ev as (_ & _ & B3).
  apply pr_sgn. assert (E : n p = S (n p - 1)) by lia. rewrite E.
  apply (sorted_last (ones tl) (n p - 1) (v, 1)); [apply ones_sorted, HS|apply ones_nonneg| |].
  - unfold ones. rewrite nth_error_map, B3. reflexivity.
  - rewrite <- E. apply weight_pos; assumption.
Qed.
Lemma quantile_defined : (length tl <= cnt)%nat -> DefinedFurtherOut K lr (tail_quantile_result K ceil lr cnt tl).
Proof.
  intros Hc p q b Hp Hq Hl Eb. apply (leb_kle K) in Hl. apply quantile_inv in Eb. destruct Eb as (B1 & B2 & B3).
  assert (Hn := tail_n_le cnt p q Hl). apply quantile_def; [|lia].
  apply (n_pos p q (n q)); [exact Hp|exact B1|lia|exact Hc|reflexivity].
Qed.
Lemma mean_defined : (length tl <= cnt)%nat -> DefinedFurtherOut K lr (non_coherent_tail_mean_result K ceil lr cnt tl).
Proof.
  intros Hc p q b Hp Hq Hl Eb. apply (leb_kle K) in Hl. apply mean_inv in Eb. destruct Eb as (B1 & B2 & B3).
  assert (Hn := tail_n_le cnt p q Hl). apply mean_def; [|lia].
  apply (n_pos p q (n q)); [exact Hp|exact B1|lia|exact Hc|reflexivity].
Qed.
End Tail.

(** ** With weights *)
Lemma loop_mono thr thr' : thr <= thr' -> forall ws sum n m' s', weight_loop K thr' sum n ws = Some (m', s') ->
  exists m s, weight_loop K thr sum n ws = Some (m, s) /\ (m <= m')%nat.
Proof.
  intros Hle. induction ws as [|w ws IH]; intros sum n m' s' E; cbn in *.
  - destruct (ltb K sum thr) eqn:E1.
    + destruct (ltb K sum thr') eqn:E2; [discriminate|]. exfalso.
      assert (C := klt_le_trans K HO sum thr thr' E1 Hle). unfold klt in C. congruence.
    + destruct (ltb K sum thr'); [discriminate|]. injection E as <- <-. eauto.
  - destruct (ltb K sum thr) eqn:E1.
    + assert (C := klt_le_trans K HO sum thr thr' E1 Hle). unfold klt in C. rewrite C in E. eapply IH; eauto.
    + exists n, sum. split; [reflexivity|].
      clear - E. revert E. destruct (ltb K sum thr'); [|intros [= <- <-]; lia].
      generalize (sum + w). intros t E.
      assert (H : (S n <= m')%nat); [|lia].
      revert E. generalize (S n). revert t. clear. induction ws as [|w ws IH]; intros t n E; cbn in E.
      * destruct (ltb K t thr'); [discriminate|]. injection E as <- _. lia.
      * destruct (ltb K t thr'); [|injection E as <- _; lia]. specialize (IH _ _ E). lia.
Qed.

Section WTail.
Variable wtot : T.
Variable es : list (T * T).
Hypothesis HS : SortedBy (fun a b => pr (fst a) (fst b)) es.
Hypothesis HN : nonneg es.
Hypothesis HW : 0 < wtot.
Local Notation tl := (map fst es).
Local Notation ws := (map snd es).

Lemma thr_pos p : in01 K p -> 0 < wtot * level K lr p.
Proof. intros Hp. apply (kmul_pos K HO); [exact HW|]. apply (in01_level K HO lr p Hp). Qed.
Lemma thr_le p q : level K lr p <= level K lr q -> wtot * level K lr p <= wtot * level K lr q.
Proof.
  intros H. replace (wtot * level K lr p) with (level K lr p * wtot) by ring. replace (wtot * level K lr q) with (level K lr q * wtot) by ring.
  apply (kmul_le K HO); [apply (klt_le K HO), HW|exact H].
Qed.
Lemma loop_inv thr m s : 0 < thr -> weight_loop K thr 0 0 ws = Some (m, s) ->
  (1 <= m)%nat /\ (m <= length es)%nat /\ s = TotalWeight K (firstn m es) /\ 0 < s.
Proof.
  intros Ht E. assert (H := weight_loop_spec K HO _ snd thr es 0 0). rewrite E in H.
  destruct H as (a & b & E1 & E2 & E3 & E4 & _). cbn in E2. subst m.
  assert (Hs : 0 < s) by (apply (klt_le_trans K HO) with thr; assumption).
  assert (Ef : firstn (length a) es = a) by (rewrite E1, firstn_app, Nat.sub_diag, firstn_all; cbn; apply app_nil_r).
  split; [|split; [|split]].
  - destruct a; [|cbn; lia]. exfalso. rewrite total_nil in E3. replace (0 + 0) with 0 in E3 by ring. subst s. exact (klt_irrefl K HO _ Hs).
  - rewrite E1, app_length. lia.
  - rewrite Ef. unfold TotalWeight. rewrite E3. ring.
  - exact Hs.
Qed.
Lemma wquantile_inv p v : in01 K p -> weighted_tail_quantile_result K lr wtot tl ws p = Ok v ->
  exists m w s, weight_loop K (wtot * level K lr p) 0 0 ws = Some (S m, s) /\ nth_error es m = Some (v, w) /\ 0 < TotalWeight K (firstn (S m) es).
Proof.
  intros Hp. unfold weighted_tail_quantile_result. change (tail_level K lr p) with (level K lr p).
  destruct (weight_loop K (wtot * level K lr p) 0 0 ws) as [[m s]|] eqn:E; [|discriminate].
  destruct (loop_inv _ _ _ (thr_pos p Hp) E) as (H1 & H2 & H3 & H4).
  destruct m as [|m]; [discriminate|]. rewrite nth_error_map. destruct (nth_error es m) as [[x w]|] eqn:En; [|discriminate].
  cbn [option_map fst]. intros [= <-]. exists m, w, s. split; [reflexivity|]. split; [exact En|]. rewrite <- H3. exact H4.
Qed.
Lemma wmean_inv p v : in01 K p -> non_coherent_weighted_tail_mean_result K lr wtot tl ws p = Ok v ->
  exists m s, weight_loop K (wtot * level K lr p) 0 0 ws = Some (S m, s) /\ 0 < TotalWeight K (firstn (S m) es) /\ v = WMean K (firstn (S m) es).
Proof.
  intros Hp. unfold non_coherent_weighted_tail_mean_result. change (tail_level K lr p) with (level K lr p).
  destruct (weight_loop K (wtot * level K lr p) 0 0 ws) as [[m s]|] eqn:E; [|discriminate].
  destruct (loop_inv _ _ _ (thr_pos p Hp) E) as (H1 & H2 & H3 & H4).
  destruct m as [|m]; [discriminate|]. intros Ev.
  assert (E' : forall x y : T, Ok x = Ok y -> x = y) by (intros x y [=]; assumption). apply E' in Ev. rewrite <- Ev. clear Ev E'.
  exists m, s. split; [reflexivity|]. split; [rewrite <- H3; exact H4|].
  rewrite firstn_map, (map_firstn_split K _ snd (S m) es), (inner_total K HO _ fst snd).
  unfold WMean, waverage. rewrite <- H3.
  rewrite (total_ext K (fun e : T * T => fst e * snd e) (fun p => snd p * fst p)) by (intros; ring).
  assert (H0 := kpos_neq0 K HO _ H4). field. exact H0.
Qed.
Lemma loops p q m m' s s' : level K lr p <= level K lr q ->
  weight_loop K (wtot * level K lr p) 0 0 ws = Some (S m, s) -> weight_loop K (wtot * level K lr q) 0 0 ws = Some (S m', s') -> (m <= m')%nat.
Proof.
  intros Hl E E'. destruct (loop_mono _ _ (thr_le p q Hl) ws 0 0%nat _ _ E') as (m2 & s2 & E2 & H2).
  rewrite E in E2. injection E2 as <- <-. lia.
Qed.
Lemma wquantile_grows : GrowsWithProbability K (weighted_tail_quantile_result K lr wtot tl ws).
Proof.
  apply grows. intros p q a b Hp Hq Hl Ea Eb. apply (wquantile_inv p a Hp) in Ea. apply (wquantile_inv q b Hq) in Eb.
  destruct Ea as (m & w & s & A1 & A2 & A3), Eb as (m' & w' & s' & B1 & B2 & B3).
  assert (Hm := loops p q m m' s s' Hl A1 B1). apply pr_sgn.
  refine (sorted_nth _ _ m m' (a, w) (b, w') HS _ Hm A2 B2).
  intros x. apply (sw_irrefl _ (pred_sw K HO lr)).
Qed.
Lemma wmean_grows : GrowsWithProbability K (non_coherent_weighted_tail_mean_result K lr wtot tl ws).
Proof.
  apply grows. intros p q a b Hp Hq Hl Ea Eb. apply (wmean_inv p a Hp) in Ea. apply (wmean_inv q b Hq) in Eb.
  destruct Ea as (m & s & A1 & A2 & ->), Eb as (m' & s' & B1 & B2 & ->).
  assert (Hm := loops p q m m' s s' Hl A1 B1). apply sorted_means; [exact HS|exact HN|lia|exact A2].
Qed.
Lemma wmean_beyond_q p a v : in01 K p -> non_coherent_weighted_tail_mean_result K lr wtot tl ws p = Ok a ->
  weighted_tail_quantile_result K lr wtot tl ws p = Ok v -> pr v a = false.
Proof.
  intros Hp Ea Ev. apply (wmean_inv p a Hp) in Ea. apply (wquantile_inv p v Hp) in Ev.
  destruct Ea as (m & s & A1 & A2 & ->), Ev as (m' & w' & s' & B1 & B2 & B3). rewrite A1 in B1. injection B1 as <- <-.
  apply pr_sgn. exact (sorted_last es m (v, w') HS HN B2 A2).
Qed.
Lemma wmean_defined : DefinedFurtherOut K lr (non_coherent_weighted_tail_mean_result K lr wtot tl ws).
Proof.
  intros p q b Hp Hq Hl Eb. apply (leb_kle K) in Hl. apply (wmean_inv q b Hq) in Eb. destruct Eb as (m' & s' & B1 & _).
  destruct (loop_mono _ _ (thr_le p q Hl) ws 0 0%nat _ _ B1) as (m & s & E & _).
  destruct (loop_inv _ _ _ (thr_pos p Hp) E) as (H1 & _).
  unfold non_coherent_weighted_tail_mean_result. change (tail_level K lr p) with (level K lr p). rewrite E.
  destruct m; [lia|eauto].
Qed.
Lemma wquantile_defined : DefinedFurtherOut K lr (weighted_tail_quantile_result K lr wtot tl ws).
Proof.
  intros p q b Hp Hq Hl Eb. apply (leb_kle K) in Hl. apply (wquantile_inv q b Hq) in Eb. destruct Eb as (m' & w' & s' & B1 & _).
  destruct (loop_mono _ _ (thr_le p q Hl) ws 0 0%nat _ _ B1) as (m & s & E & _).
  destruct (loop_inv _ _ _ (thr_pos p Hp) E) as (H1 & H2 & _).
  unfold weighted_tail_quantile_result. change (tail_level K lr p) with (level K lr p). rewrite E.
  destruct m as [|m]; [lia|]. rewrite nth_error_map. destruct (nth_error es m) eqn:En; [cbn; eauto|]. apply nth_error_None in En. lia.
Qed.
End WTail.

(** ** Whole histories *)
Variable H : HeapOps.
Hypothesis HC : HeapContract H.
Lemma prob_run (k : nat) (dA : T) (dV : unit) (ops : list (tail_op T unit)) :
  (0 < k)%nat -> WellFormed 0 ops ->
  exists s tl, tail_run H pr (tail_init k 0 dA dV) ops = Ok s /\ tail_result H pr s = Ok tl /\
  let q := tail_quantile_result K ceil lr (length (pushes ops)) tl in
  let m := non_coherent_tail_mean_result K ceil lr (length (pushes ops)) tl in
  GrowsWithProbability K q /\ DefinedFurtherOut K lr q /\ GrowsWithProbability K m /\ DefinedFurtherOut K lr m /\
  forall p a v, m p = Ok a -> q p = Ok v -> pr v a = false.
Proof.
  intros Hk HW.
  destruct (tail_samples_spec H HC T unit pr (pred_sw K HO lr) k 0 dA dV ops Hk HW) as (s & tl & E1 & E2 & HT).
  exists s, tl. split; [exact E1|]. split; [exact E2|]. destruct HT as (HL & HS & _). rewrite map_length in HL.
  cbv zeta. split; [|split; [|split; [|split]]].
  - apply quantile_grows, HS.
  - apply quantile_defined. lia.
  - apply mean_grows, HS.
  - apply mean_defined. lia.
  - intros p a v. apply mean_beyond, HS.
Qed.
Lemma wprob_run (k : nat) (dA dV : T) (ops : list (tail_op T T)) (hist : list (T * T)) :
  (0 < k)%nat -> pushes ops = map (fun e => (fst e, [snd e])) hist ->
  Forall (fun e => leb K 0 (snd e) = true) hist -> ltb K 0 (TotalWeight K hist) = true ->
  exists s tl ws, tail_run H pr (tail_init k 1 dA dV) ops = Ok s /\ tail_result H pr s = Ok tl /\
    tail_variate_result H pr s 0 = Ok ws /\
  let q := weighted_tail_quantile_result K lr (TotalWeight K hist) tl ws in
  let m := non_coherent_weighted_tail_mean_result K lr (TotalWeight K hist) tl ws in
  GrowsWithProbability K q /\ DefinedFurtherOut K lr q /\ GrowsWithProbability K m /\ DefinedFurtherOut K lr m /\
  forall p a v, Inside01 K p -> m p = Ok a -> q p = Ok v -> pr v a = false.
Proof.
  intros Hk HE Hn Hpos.
  assert (HW : WellFormed 1 ops).
  { unfold WellFormed. rewrite HE, Forall_map. apply Forall_forall. reflexivity. }
  destruct (run_entries K HO H HC lr T (T * T) (fun e => (fst e, [snd e])) k 1 dA dV ops hist Hk HW HE)
    as (s & es & E1 & HT & E2 & E3).
  destruct (E3 0%nat ltac:(lia)) as (ws & E4 & E5).
  apply (vals_map _ _ ws (fun e => snd e)) in E5; [|reflexivity].
  exists s, (map (fun e => fst e) es), ws. split; [exact E1|]. split; [exact E2|]. split; [exact E4|]. subst ws.
  destruct HT as (_ & HS & rest & HP & _). cbn [fst] in HS.
  assert (HN : nonneg es).
  { apply Forall_forall. intros e He. rewrite Forall_forall in Hn. apply (leb_kle K). apply Hn.
    apply (Permutation_in _ (Permutation_sym HP)). apply in_or_app. left; exact He. }
  cbv zeta. split; [|split; [|split; [|split]]].
  - apply wquantile_grows; assumption.
  - apply wquantile_defined; assumption.
  - apply wmean_grows; assumption.
  - apply wmean_defined; assumption.
  - intros p a v Hp. apply wmean_beyond_q; assumption.
Qed.
End Prob.

(** ** The coherent tail mean *)
Section Coherent.
Variable K : Num.
Hypothesis HO : OrderedLaws K.
Let HK : FieldLaws K := ord_field K HO.
Add Field KfieldC : (fl_field K HK).
Local Notation T := (car K).
Local Notation "x - y" := (sub K x y) : num_scope.
Local Notation "x * y" := (mul K x y) : num_scope.
Local Notation "x / y" := (div K x y) : num_scope.
Local Notation "x < y" := (klt K x y) : num_scope.
Local Open Scope num_scope.
Lemma coherent_falls (ceil : T -> nat) (lr : side) (cnt : nat) (tl : list T) (p q v a b : T) :
  p < q -> tail_n K ceil lr cnt p = tail_n K ceil lr cnt q ->
  tail_quantile_result K ceil lr cnt tl p = Ok v -> MoreExtreme K lr v (zero K) = true ->
  coherent_tail_mean_result K ceil lr cnt tl p = Ok a -> coherent_tail_mean_result K ceil lr cnt tl q = Ok b -> b < a.
Proof.
  intros Hpq Hn Hv Hx. unfold coherent_tail_mean_result, coherent_tail_mean_of.
  assert (E1 : tail_quantile_result K ceil lr cnt tl q = Ok v) by (unfold tail_quantile_result in *; rewrite <- Hn; exact Hv).
  assert (E2 : non_coherent_tail_mean_result K ceil lr cnt tl q = non_coherent_tail_mean_result K ceil lr cnt tl p)
    by (unfold non_coherent_tail_mean_result; rewrite Hn; reflexivity).
  rewrite E1, E2, Hv, <- Hn. assert (Hpos : (1 <= tail_n K ceil lr cnt p)%nat).
  { destruct (quantile_inv K lr ceil cnt tl p v Hv) as (H1 & _). exact H1. }
  destruct (non_coherent_tail_mean_result K ceil lr cnt tl p) as [m| |]; [|discriminate|discriminate].
  set (n := ofnat K (tail_n K ceil lr cnt p)). assert (Hn0 : zero K < n).
  { unfold n. destruct (tail_n K ceil lr cnt p); [lia|]. apply (kofnat_pos K HO). }
  assert (N0 := kpos_neq0 K HO _ Hn0). clearbody n. intros Ea Eb.
  assert (E' : forall x y : T, Ok x = Ok y -> x = y) by (intros x y [=]; assumption). apply E' in Ea, Eb. subst a b.
  apply (ksub_pos K HO). assert (HD : zero K < q - p) by (apply (ksub_pos K HO), Hpq). destruct lr; cbn in Hx.
  - assert (HV : zero K < zero K - v) by (apply (ksub_pos K HO), Hx).
    match goal with |- _ < ?e => replace e with ((zero K - v) * (q - p) / n) by (field; exact N0) end.
    apply (kdiv_pos K HO); [apply (kmul_pos K HO); assumption|exact Hn0].
  - set (c := div K n (ofnat K cnt)).
    match goal with |- _ < ?e => replace e with (v * (q - p) / n) by (field; exact N0) end.
    apply (kdiv_pos K HO); [apply (kmul_pos K HO); assumption|exact Hn0].
Qed.
End Coherent.
