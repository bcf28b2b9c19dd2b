(** Weighted tail quantiles and weighted tail means of doubles. *)
From Coq Require Import ZArith List Bool Reals Lra Lia Arith Psatz Permutation Sorted.
From Flocq Require Import Core IEEE754.BinarySingleNaN.
From Verif Require Import Num NumFacts ModelBasic ModelTail ModelDouble ModelDoubleTail SpecStats SpecTail SpecDouble SpecDoubleTail SpecDoubleVariance SpecDoubleWeighted
  ProofBasic ProofKahan ProofDouble ProofDouble2 ProofDouble3 ProofDouble4 ProofDoubleEx ProofTail ProofTailTop ProofDoubleTail
  ProofDoubleVariance ProofDoubleVariance2 ProofDoubleVariance3 ProofDoubleVariance4 ProofDoubleCovariance ProofDoubleWeighted ProofDoubleWeighted2 ProofDoubleWeighted3.
Import ListNotations.
Local Open Scope R_scope.

(** ** The cached samples with their weights *)
Definition before' (lr : side) (x y : double * double) : bool := pr' lr (fst x) (fst y).
Lemma before'_sw lr : StrictWeak (before' lr).
Proof.
  assert (SP := pr'_sw lr). unfold before'. constructor; intros; [apply (sw_irrefl _ SP) | eapply (sw_trans _ SP); eauto | eapply (sw_negtrans _ SP); eauto].
Qed.
Lemma double_entries (H : HeapOps) : HeapContract H -> forall (lr : side) (k : nat) (dA dV : double) (ops : list (tail_op double double)) (hist : list (double * double)),
  (0 < k)%nat -> pushes ops = map (fun e => (fst e, [snd e])) hist -> ~ nan dA -> Numbers (map fst hist) ->
  exists s es, tail_run H (tail_pred DoubleN lr) (tail_init k 1 dA dV) ops = Ok s /\ tail_result H (tail_pred DoubleN lr) s = Ok (map fst es) /\
    tail_variate_result H (tail_pred DoubleN lr) s 0 = Ok (map snd es) /\ IsTail (before' lr) k hist es.
Proof.
  intros HC lr k dA dV ops hist Hk HE Hd HN.
  assert (HW : WellFormed 1 ops) by (unfold WellFormed; rewrite HE, Forall_map; apply Forall_forall; reflexivity).
  assert (HN' : Forall (fun x => ~ nan x) (map fst (pushes ops))) by (rewrite HE, map_map; exact HN).
  destruct (tail_spec H HC double double (pr' lr) (pr'_sw lr) k 1 dA dV ops Hk HW) as (s & es & E1 & HT & E2 & E3).
  destruct (run_agree double double H (tail_pred DoubleN lr) (pr' lr) (fun x => ~ nan x) (pr_agree lr) k 1 dA dV ops Hd HN') as [E I].
  rewrite HE in HT. apply IsTail_unmap in HT. destruct HT as (es' & -> & HT). cbn [fst] in HT.
  assert (E' := eq_trans E E1). exists s, es'. split; [exact E'|]. specialize (I s E').
  rewrite map_map in E2. split; [exact (eq_trans (result_agree double double H _ _ _ (pr_agree lr) s I) E2) |]. split; [| exact HT].
  destruct (E3 0%nat ltac:(lia)) as (vals & E4 & E5). assert (E6 : vals = map snd es') by (apply map_Some_inj; rewrite E5, !map_map; reflexivity). subst vals.
  unfold tail_variate_result in *. assert (S := sort_agree double double H _ _ _ (pr_agree lr) s I). rewrite <- S in E4. exact E4.
Qed.

(** ** The loop over the weights *)
Lemma loop_any (K : Num) (thr : car K) : forall (l : list (car K)) sum n,
  match weight_loop K thr sum n l with
  | None => forall p q, l = p ++ q -> ltb K (fold_left (add K) p sum) thr = true
  | Some (m, s) => exists a b, l = a ++ b /\ m = (n + length a)%nat /\ s = fold_left (add K) a sum /\ ltb K s thr = false /\
      forall a' z, a = a' ++ z -> z <> [] -> ltb K (fold_left (add K) a' sum) thr = true
  end.
Proof.
  induction l as [|w l IH]; intros sum n; cbn [weight_loop]; destruct (ltb K sum thr) eqn:Es.
  - intros p q Hpq. symmetry in Hpq. apply app_eq_nil in Hpq. destruct Hpq as [-> _]. exact Es.
  - exists [], []. repeat split; [cbn; lia | exact Es |]. intros a' z H Hz. symmetry in H. apply app_eq_nil in H. tauto.
  - specialize (IH (add K sum w) (S n)). destruct (weight_loop K thr (add K sum w) (S n) l) as [[m s]|].
    + destruct IH as (a & b & -> & -> & -> & Hthr & Hpre). exists (w :: a), b. repeat split; [cbn; lia | exact Hthr |].
      intros a' z H Hz. destruct a' as [|e' a']; [exact Es|]. cbn in H. injection H as <- ->. cbn [fold_left]. eapply Hpre; [reflexivity | exact Hz].
    + intros p q H. destruct p as [|e' p]; [exact Es|]. cbn in H. injection H as <- ->. cbn [fold_left]. eapply IH. reflexivity.
  - exists [], (w :: l). repeat split; [cbn; lia | exact Es |]. intros a' z H Hz. symmetry in H. apply app_eq_nil in H. tauto.
Qed.
Lemma inner_products (l : list (double * double)) (b : list double) : forall acc : double,
  inner_product DoubleN (map fst l) (map snd l ++ b) acc = fold_left d_add (products l) acc.
Proof. induction l as [|[x w] l IH]; intros acc; [destruct b; reflexivity|]. cbn [map fst snd app inner_product products fold_left]. rewrite IH. reflexivity. Qed.

(** ** Weights of some of the samples *)
Lemma weight_app a b : ExactWeight (a ++ b) = ExactWeight a + ExactWeight b.
Proof. unfold ExactWeight, ExactSum. rewrite map_app. exact (total_app RN RN_field val (map snd a) (map snd b)). Qed.
Lemma weight_perm a b : Permutation a b -> ExactWeight a = ExactWeight b.
Proof.
  intros P. unfold ExactWeight, ExactSum. induction P; cbn [map]; try (cbn; congruence); [|].
  - change (val (snd x) + total RN val (map snd l) = val (snd x) + total RN val (map snd l')). lra.
  - change (val (snd y) + (val (snd x) + total RN val (map snd l)) = val (snd x) + (val (snd y) + total RN val (map snd l))). ring.
Qed.
Lemma weight_nonneg c h : Weights c h -> 0 <= ExactWeight h.
Proof. intros W. apply (weights_magnitude _ _ W). Qed.
Lemma some_samples c h p r : Permutation h (p ++ r) -> Few h -> Weights c h ->
  Few p /\ Weights c p /\ 0 <= ExactWeight p <= ExactWeight h /\ (length p <= length h)%nat.
Proof.
  intros P L W. assert (N := Permutation_length P). rewrite app_length in N.
  assert (W' : Weights c (p ++ r)) by (unfold Weights in *; eapply Permutation_Forall; eauto). apply Forall_app in W' as [W1 W2].
  assert (E := weight_perm _ _ P). rewrite weight_app in E. assert (N1 := weight_nonneg _ _ W1). assert (N2 := weight_nonneg _ _ W2).
  unfold Few in *. repeat split; try assumption; try lra; lia.
Qed.

(** ** The threshold *)
Lemma double_451 : bpow radix2 (-450) = 2 * bpow radix2 (-451).
Proof. change (-450)%Z with (1 + -451)%Z. rewrite bpow_plus. reflexivity. Qed.
Lemma share_low lr p : Probability p -> / 2 ^ 450 <= ExactShare lr p -> bpow radix2 (-451) <= val (share lr p).
Proof.
  intros [F [P0 P1]] L. rewrite low_pow in L. assert (H451 : bpow radix2 (-450) = 2 * bpow radix2 (-451)) by exact double_451.
  assert (PP := bpow_gt_0 radix2 (-451)). destruct lr; unfold share, tail_level; cbn [ExactShare] in L; [lra|].
  change (sub DoubleN (one DoubleN) p) with (d_sub d_one p).
  destruct (sub_below 0 d_one p ltac:(lia) ltac:(lia)) as [_ E].
  { split; [exact one_finite|]. unfold val. rewrite one_value, Rabs_R1. cbn; lra. }
  { split; [exact F|]. rewrite Rabs_pos_eq by lra. cbn -[val]; lra. }
  unfold val at 2 4 in E. rewrite one_value in E. rewrite (Rabs_pos_eq (1 - val p)) in E by lra.
  assert (Hu := roundoff_small). apply Rabs_le_inv in E. assert (roundoff * (1 - val p) <= / 2 * (1 - val p)) by (apply Rmult_le_compat_r; lra). lra.
Qed.
Definition threshold (lr : side) (h : list (double * double)) (p : double) : double := d_mul (Wsum h) (share lr p).
Lemma threshold_close lr j h p : Few h -> (-450 <= j)%Z -> (j <= 450)%Z -> Weights (bpow radix2 j) h -> h <> [] -> bpow radix2 (-450) <= ExactWeight h ->
  Probability p -> / 2 ^ 450 <= ExactShare lr p ->
  finite (threshold lr h p) /\ 0 < val (threshold lr h p) /\
  Rabs (val (threshold lr h p) - ExactWeight h * ExactShare lr p) <= (1.02 * INR (length h) + 1.6) * roundoff * ExactWeight h.
Proof.
  intros L J J' W N LW P LP. destruct (weight_close j h L J J' W) as [Bw Ew]. destruct (share_spec lr p P) as (Fs & [S0 S1] & Es). assert (Ls := share_low lr p P LP).
  assert (Nu := few_samples _ L). assert (Hu := roundoff_small). assert (Ht := tiny_pos).
  destruct (mul_below (j + 40) 0 (Wsum h) (share lr p) ltac:(lia) ltac:(lia) Bw) as [[Ft _] Et].
  { split; [exact Fs|]. rewrite Rabs_pos_eq by lra. cbn -[val]; lra. }
  split; [exact Ft|].
  destruct (tiny_small (-450) ltac:(lia)) as [T1 _]. assert (P450 := bpow_gt_0 radix2 (-450)).
  assert (n0 := pos_INR (length h)). fold (threshold lr h p) in Et. unfold near in Et. set (n := INR (length h)) in *. set (W0 := ExactWeight h) in *. set (V := val (Wsum h)) in *. set (s := val (share lr p)) in *.
  assert (Ew' := Rabs_le_inv _ _ Ew). assert (nuW : n * roundoff * W0 <= / 8192 * W0) by (apply Rmult_le_compat_r; lra).
  assert (V0 : 0.99 * W0 <= V <= 1.01 * W0) by lra.
  assert (Vs : 0 <= V * s <= V) by nra. rewrite (Rabs_pos_eq (V * s)) in Et by lra.
  assert (uVs : roundoff * (V * s) <= roundoff * (1.01 * W0)) by (apply Rmult_le_compat_l; lra).
  split.
  - assert (B451 : bpow radix2 (-450) = 2 * bpow radix2 (-451)) by exact double_451.
    assert (Pb := bpow_gt_0 radix2 (-451)). assert (V1 : bpow radix2 (-451) <= V) by lra.
    assert (X : bpow radix2 (-451) * bpow radix2 (-451) <= V * s) by (apply Rmult_le_compat; lra). rewrite <- bpow_plus in X.
    assert (Y : tiny <= / 4 * bpow radix2 (-902)).
    { rewrite tiny_is. change (/ 2) with (bpow radix2 (-1)). change (/ 4) with (bpow radix2 (-2)). rewrite <- !bpow_plus. apply bpow_le. lia. }
    assert (Z : roundoff * (V * s) <= / 4 * (V * s)) by (apply Rmult_le_compat_r; lra).
    assert (P902 := bpow_gt_0 radix2 (-902)). change (-451 + -451)%Z with (-902)%Z in X. apply Rabs_le_inv in Et. lra.
  - assert (E1 : Rabs (V * s - W0 * ExactShare lr p) <= 1.02 * (n * roundoff) * W0 + W0 * (roundoff / 2)).
    { replace (V * s - W0 * ExactShare lr p) with ((V - W0) * s + W0 * (s - ExactShare lr p)) by ring. eapply Rle_trans; [apply Rabs_triang|]. rewrite !Rabs_mult, (Rabs_pos_eq s), (Rabs_pos_eq W0) by lra.
      assert (H54 : Rabs (s - ExactShare lr p) <= roundoff / 2).
      { eapply Rle_trans; [exact Es|]. destruct lr; [lra|]. right. unfold roundoff. cbn [pow]. field. }
      apply Rplus_le_compat; [| apply Rmult_le_compat_l; lra].
      apply Rle_trans with (Rabs (V - W0) * 1); [apply Rmult_le_compat_l; [apply Rabs_pos | lra] | lra]. }
    assert (E2 := close_trans _ _ _ _ _ Et E1). eapply Rle_trans; [exact E2|].
    assert (roundoff * bpow radix2 (-450) <= roundoff * W0) by (apply Rmult_le_compat_l; lra). lra.
Qed.

(** ** The statements *)
Lemma split_map {A B} (f : A -> B) l a b : map f l = a ++ b -> exists a' b', l = a' ++ b' /\ a = map f a' /\ b = map f b'.
Proof. intros E. apply map_eq_app in E. destruct E as (a' & b' & -> & <- & <-). eauto. Qed.
Lemma pick_level P Q T e u : P < Q -> P < T + e -> T - e <= Q -> 0 <= e -> 0 < u -> exists q, P < q <= Q /\ Rabs (q - T) <= e + u.
Proof.
  intros H1 H2 H3 H4 H5. destruct (Rle_lt_dec T P) as [C|C].
  - exists (Rmin Q (P + u)). assert (M1 := Rmin_l Q (P + u)). assert (M2 := Rmin_r Q (P + u)). assert (P < Rmin Q (P + u)) by (apply Rmin_glb_lt; lra).
    split; [lra|]. apply Rabs_le. lra.
  - destruct (Rle_lt_dec T Q) as [D|D]; [exists T; split; [lra|]; rewrite Rminus_diag_eq by reflexivity; rewrite Rabs_R0; lra |].
    exists Q. split; [lra|]. apply Rabs_le. lra.
Qed.

Lemma double_wtail (H : HeapOps) : HeapContract H -> forall (lr : side) (k : nat) (dA dV : double) (c : R) (ops : list (tail_op double double)) (hist : list (double * double)),
  (0 < k)%nat -> pushes ops = map (fun e => (fst e, [snd e])) hist -> ~ nan dA -> Numbers (map fst hist) ->
  Few hist -> Moderate c -> Weights c hist -> / 2 ^ 450 <= ExactWeight hist ->
  exists s tl ws, tail_run H (tail_pred DoubleN lr) (tail_init k 1 dA dV) ops = Ok s /\ tail_result H (tail_pred DoubleN lr) s = Ok tl /\
    tail_variate_result H (tail_pred DoubleN lr) s 0 = Ok ws /\
  forall p, Probability p -> / 2 ^ 450 <= ExactShare lr p ->
  let W := wm_W DoubleN (wmean_set_run DoubleN d_zero d_zero hist) in
  let err := 8 * INR (length hist) * roundoff * ExactWeight hist in
  (exists q a v, Rabs (q - ExactWeight hist * ExactShare lr p) <= err /\
     ReachesAt RN (fun x y => MoreExtreme DoubleN lr (fst x) (fst y)) (fun e => val (snd e)) hist q a v /\
     weighted_tail_quantile_result DoubleN lr W tl ws p = Ok (fst v) /\
     non_coherent_weighted_tail_mean_result DoubleN lr W tl ws p = Ok (wmean_set_mean DoubleN (wmean_set_run DoubleN d_zero d_zero (a ++ [v])))) \/
  (weighted_tail_quantile_result DoubleN lr W tl ws p = NotANumber /\ non_coherent_weighted_tail_mean_result DoubleN lr W tl ws p = NotANumber /\
   ExactSum ws < ExactWeight hist * ExactShare lr p + err).
Proof.
  intros HC lr k dA dV c ops hist Hk HE Hd HN L MC WB LW.
  destruct (double_entries H HC lr k dA dV ops hist Hk HE Hd HN) as (s & es & E1 & E2 & E3 & HT).
  exists s, (map fst es), (map snd es). split; [exact E1|]. split; [exact E2|]. split; [exact E3|]. intros p HP LP W err.
  assert (EW : W = Wsum hist) by (unfold W; rewrite wmean_set_is; reflexivity). rewrite EW. clear W EW.
  destruct (moderate_pow c MC) as (j & J & J' & B1 & B2). assert (WB' := weights_le _ _ _ B1 WB). rewrite low_pow in LW.
  assert (Ne : hist <> []). { intros ->. assert (Q := bpow_gt_0 radix2 (-450)). unfold ExactWeight, ExactSum in LW. cbn in LW. cbn in Q. lra. }
  destruct (threshold_close lr j hist p L J ltac:(lia) WB' Ne LW HP LP) as (Ft & Pt & Et).
  destruct (IsTail_extend (before' lr) (before'_sw lr) k hist es HT) as (rest & HPm & HSort).
  assert (N1 : 1 <= INR (length hist)). { replace 1 with (INR 1) by reflexivity. apply le_INR. destruct hist; [congruence | cbn; lia]. }
  assert (W0 : 0 < ExactWeight hist) by (assert (Q := bpow_gt_0 radix2 (-450)); lra). assert (Hu := roundoff_small).
  assert (uW : 0 < roundoff * ExactWeight hist) by (apply Rmult_lt_0_compat; lra).
  assert (nuW : roundoff * ExactWeight hist <= INR (length hist) * (roundoff * ExactWeight hist)) by nra.
  assert (part : forall a b, es = a ++ b -> finite (Wsum a) /\ 0 <= ExactWeight a <= ExactWeight hist /\ Rabs (val (Wsum a) - ExactWeight a) <= 1.02 * INR (length hist) * roundoff * ExactWeight hist).
  { intros a b Eab. assert (HPm' : Permutation hist (a ++ (b ++ rest))) by (rewrite app_assoc, <- Eab; exact HPm).
    destruct (some_samples _ _ _ _ HPm' L WB') as (La & Wa & B & Len). destruct (weight_close j a La J ltac:(lia) Wa) as [[F _] E]. split; [exact F|]. split; [exact B|].
    eapply Rle_trans; [exact E|]. assert (INR (length a) <= INR (length hist)) by (apply le_INR; exact Len). assert (0 <= INR (length a)) by apply pos_INR.
    assert (INR (length a) * roundoff <= INR (length hist) * roundoff) by (apply Rmult_le_compat_r; lra).
    apply Rle_trans with (1.02 * (INR (length hist) * roundoff) * ExactWeight hist); [| lra].
    apply Rmult_le_compat; [| apply B | apply Rmult_le_compat_l; [lra | assumption] | apply B]. apply Rmult_le_pos; [lra|]. apply Rmult_le_pos; [apply pos_INR | lra]. }
  assert (HL := loop_any DoubleN (threshold lr hist p) (map snd es) d_zero 0).
  unfold weighted_tail_quantile_result, non_coherent_weighted_tail_mean_result.
  change (mul DoubleN (Wsum hist) (tail_level DoubleN lr p)) with (threshold lr hist p). change (zero DoubleN) with d_zero.
  change (weight_loop DoubleN (threshold lr hist p) d_zero 0 (map snd es)) with (weight_loop DoubleN (threshold lr hist p) (zero DoubleN) 0 (map snd es)) in *.
  destruct (weight_loop DoubleN (threshold lr hist p) (zero DoubleN) 0 (map snd es)) as [[m sm]|].
  - left. destruct HL as (a1 & b1 & Eab & Em & Esm & Hge & Hpre). apply split_map in Eab. destruct Eab as (a2 & b2 & Ees & -> & ->). rewrite map_length in Em. cbn [Nat.add] in Em.
    assert (Hne : a2 <> []).
    { intros ->. cbn in Esm. subst sm. apply (proj1 (lt_false d_zero (threshold lr hist p) eq_refl Ft)) in Hge. change (B2R d_zero) with 0 in Hge. unfold val in Pt. lra. }
    destruct (exists_last Hne) as (a & v & ->). rewrite app_length in Em. cbn [length] in Em.
    assert (SM : sm = Wsum (a ++ [v])) by (rewrite Esm; reflexivity). clear Esm.
    destruct (part _ _ Ees) as (F2 & B2' & E2'). destruct (part a ([v] ++ b2)) as (F1 & B1' & E1'); [rewrite Ees, <- app_assoc; reflexivity|].
    assert (HA : val (Wsum a) < val (threshold lr hist p)).
    { apply (proj1 (lt_true (Wsum a) (threshold lr hist p) F1 Ft)). apply (Hpre (map snd a) [snd v]); [rewrite map_app; reflexivity | discriminate]. }
    assert (HB : val (threshold lr hist p) <= val (Wsum (a ++ [v]))).
    { subst sm. apply (proj1 (lt_false (Wsum (a ++ [v])) (threshold lr hist p) F2 Ft)). exact Hge. }
    assert (HQ : ExactWeight (a ++ [v]) = ExactWeight a + val (snd v)).
    { rewrite weight_app. unfold ExactWeight, ExactSum. cbn. lra. }
    assert (Wv : 0 <= val (snd v)).
    { unfold Weights in WB'. rewrite Forall_forall in WB'. apply WB'. eapply Permutation_in; [symmetry; exact HPm|]. rewrite Ees. apply in_or_app. left. apply in_or_app. left. apply in_or_app. right. left. reflexivity. }
    assert (Wv' : 0 < val (snd v)).
    { destruct (Req_dec (val (snd v)) 0) as [Z|Z]; [exfalso | lra]. assert (Q : Wsum (a ++ [v]) = d_add (Wsum a) (snd v)) by (unfold Wsum; rewrite map_app; apply sum_snoc).
      rewrite Q in F2, HB. destruct (add_fin _ _ F2) as (_ & _ & E). unfold val at 2 in HB. rewrite E in HB. fold (val (Wsum a)) (val (snd v)) in HB.
      rewrite Z, Rplus_0_r, round_format in HB by apply val_format. lra. }
    apply Rabs_le_inv in E1'. apply Rabs_le_inv in E2'.
    destruct (pick_level (ExactWeight a) (ExactWeight (a ++ [v])) (val (threshold lr hist p)) (1.02 * INR (length hist) * roundoff * ExactWeight hist) (roundoff * ExactWeight hist))
      as (q & Hq & Eq); [lra | lra | lra | nra | lra |].
    exists q, a, v. split.
    { assert (T := close_trans _ _ _ _ _ Eq Et). eapply Rle_trans; [exact T|]. unfold err. lra. }
    rewrite Ees in HPm, HSort. rewrite <- !app_assoc in HPm, HSort. cbn [app] in HPm, HSort.
    destruct (SortedBy_app_inv (before' lr) _ _ HSort) as (_ & H2 & H3). inversion_clear H2 as [|? ? _ HF]. rewrite Forall_forall in HF.
    assert (NN : forall e, In e (a ++ v :: b2 ++ rest) -> ~ nan (fst e)).
    { intros e He. unfold Numbers in HN. rewrite Forall_map, Forall_forall in HN. apply HN. eapply Permutation_in; [symmetry; exact HPm | exact He]. }
    assert (AG : forall x y, In x (a ++ v :: b2 ++ rest) -> In y (a ++ v :: b2 ++ rest) -> MoreExtreme DoubleN lr (fst x) (fst y) = before' lr x y).
    { intros x y Hx Hy. rewrite more_extreme. apply pr_agree; apply NN; assumption. }
    split; [split; [|split; [|split]] | split].
    + exists (b2 ++ rest). split; [exact HPm|]. intros x y Hx Hy. apply in_app_or in Hx. rewrite AG.
      * destruct Hx as [Hx|[<-|[]]]; [apply H3; [exact Hx | right; exact Hy] | apply HF; exact Hy].
      * apply in_or_app. right. right. exact Hy.
      * apply in_or_app. destruct Hx as [Hx|[<-|[]]]; [left; exact Hx | right; left; reflexivity].
    + intros y Hy. rewrite AG; [apply H3; [exact Hy | left; reflexivity] | apply in_or_app; right; left; reflexivity | apply in_or_app; left; exact Hy].
    + intros p' q' Epq. apply Rltb_lt. assert (X : total RN (fun e => val (snd e)) p' = ExactWeight p') by (unfold ExactWeight, ExactSum; rewrite (total_map RN); reflexivity).
      rewrite X. assert (ExactWeight p' <= ExactWeight a); [| lra]. rewrite Epq, weight_app.
      assert (0 <= ExactWeight q'); [| lra]. apply (weight_nonneg (bpow radix2 j)). unfold Weights in *. rewrite Forall_forall in *. intros e He. apply WB'. eapply Permutation_in; [symmetry; exact HPm|]. rewrite Epq.
      apply in_or_app. left. apply in_or_app. right. exact He.
    + unfold leb. apply negb_true_iff. apply Rltb_ge. assert (X : total RN (fun e => val (snd e)) (a ++ [v]) = ExactWeight (a ++ [v])) by (unfold ExactWeight, ExactSum; rewrite (total_map RN); reflexivity).
      rewrite X. apply Hq.
    + rewrite Em, Nat.add_1_r, nth_error_map, Ees, <- app_assoc, nth_error_app2, Nat.sub_diag by lia. reflexivity.
    + rewrite Em, Nat.add_1_r. f_equal. rewrite dwmean_is, <- SM.
      assert (FX : firstn (S (length a)) (map fst es) = map fst (a ++ [v])).
      { rewrite Ees, firstn_map. f_equal. rewrite firstn_app, app_length. cbn [length]. rewrite Nat.add_1_r, Nat.sub_diag, firstn_O, app_nil_r, firstn_all2; [reflexivity|]. rewrite app_length. cbn. lia. }
      assert (SX : map snd es = map snd (a ++ [v]) ++ map snd b2) by (rewrite Ees; apply map_app).
      exact (f_equal (fun z => d_div z sm) (eq_trans (f_equal2 (fun x y => inner_product DoubleN x y d_zero) FX SX) (inner_products (a ++ [v]) (map snd b2) d_zero))).
  - right. split; [reflexivity|]. split; [reflexivity|]. specialize (HL (map snd es) [] (eq_sym (app_nil_r _))).
    destruct (part es []) as (F & B & E); [symmetry; apply app_nil_r|].
    change (fold_left (add DoubleN) (map snd es) (zero DoubleN)) with (Wsum es) in HL.
    apply (proj1 (lt_true (Wsum es) (threshold lr hist p) F Ft)) in HL. fold (val (Wsum es)) (val (threshold lr hist p)) in HL.
    change (ExactSum (map snd es)) with (ExactWeight es). apply Rabs_le_inv in E. apply Rabs_le_inv in Et. unfold err. lra.
Qed.

Lemma double_wtail_mean b c lr h q a v : Few h -> Moderate b -> Moderate c -> Within b (map fst h) -> Weights c h ->
  ReachesAt RN (fun x y => MoreExtreme DoubleN lr (fst x) (fst y)) (fun e => val (snd e)) h q a v -> / 2 ^ 450 <= q ->
  let m := wmean_set_mean DoubleN (wmean_set_run DoubleN d_zero d_zero (a ++ [v])) in
  finite m /\ Rabs (val m - ExactWeightedMean (a ++ [v])) <= 8 * INR (length (a ++ [v])) * roundoff * b.
Proof.
  intros L MB MC WA WB ((r & HP & _) & _ & _ & Hq) LQ m. assert (HP' : Permutation h ((a ++ [v]) ++ r)) by (rewrite <- app_assoc; exact HP).
  destruct (some_samples c h _ r HP' L WB) as (L' & W' & _ & _). apply weighted_mean_accurate with c; try assumption.
  - destruct a; discriminate.
  - unfold Within in *. assert (Q : Forall (fun x => finite x /\ Rabs (val x) <= b) (map fst ((a ++ [v]) ++ r))) by (eapply Permutation_Forall; [apply Permutation_map; exact HP' | exact WA]).
    rewrite map_app in Q. apply Forall_app in Q. apply Q.
  - unfold leb in Hq. apply negb_true_iff, Rltb_ge in Hq.
    assert (X : total RN (fun e => val (snd e)) (a ++ [v]) = ExactWeight (a ++ [v])) by (unfold ExactWeight, ExactSum; rewrite (total_map RN); reflexivity). rewrite X in Hq. lra.
Qed.

(** ** Examples *)
Definition three_tenths := dbl 5404319552844595 (-54). (* the double 0.3 *)
Definition half_d := dbl 1 (-1).
Definition least := dbl 1 (-1074). (* the smallest positive double *)
Definition six : list (double * double) := map (fun z => (dbl z 0, three_tenths)) [1;2;3;4;5;6]%Z.
Definition weighted_pushes (h : list (double * double)) : list (tail_op double double) := map (fun e => TPush (fst e) [snd e]) h.
Definition wquantile (lr : side) (k : nat) (h : list (double * double)) (p : double) : outcome (option (Z * Z)) :=
  match tail_run sorting_heap (tail_pred DoubleN lr) (tail_init k 1 d_zero d_zero) (weighted_pushes h) with
  | Ok s => match tail_result sorting_heap (tail_pred DoubleN lr) s, tail_variate_result sorting_heap (tail_pred DoubleN lr) s 0 with
            | Ok tl, Ok ws => match weighted_tail_quantile_result DoubleN lr (wm_W DoubleN (wmean_set_run DoubleN d_zero d_zero h)) tl ws p with
                              | Ok v => Ok (shown_double v) | NotANumber => NotANumber | UB => UB end
            | _, _ => UB end
  | _ => UB end.
Lemma wpushes h : pushes (weighted_pushes h) = map (fun e => (fst e, [snd e])) h.
Proof. unfold pushes, weighted_pushes. induction h as [|e h IH]; [reflexivity|]. cbn. rewrite <- IH. reflexivity. Qed.
Lemma three_tenths_value : finite three_tenths /\ val three_tenths = 5404319552844595 / 18014398509481984.
Proof.
  destruct (shown_value three_tenths 5404319552844595 (-54) ltac:(vm_compute; reflexivity)) as [F E]. split; [exact F|]. rewrite E. change (bpow radix2 (-54)) with (/ 18014398509481984). reflexivity.
Qed.
Lemma half_value : Probability half_d /\ val half_d = / 2.
Proof.
  destruct (shown_value half_d 4503599627370496 (-53) ltac:(vm_compute; reflexivity)) as [F E]. assert (V : val half_d = / 2) by (rewrite E; change (bpow radix2 (-53)) with (/ 9007199254740992); lra).
  split; [| exact V]. split; [exact F|]. rewrite V. lra.
Qed.
Lemma least_value : Probability least.
Proof.
  destruct (shown_value least 1 (-1074) ltac:(vm_compute; reflexivity)) as [F E]. split; [exact F|]. rewrite E. rewrite Rmult_1_l. split; [apply bpow_gt_0 | apply (bpow_lt radix2 (-1074) 0); lia].
Qed.
Lemma six_ok : Few six /\ Moderate 1 /\ Moderate 8 /\ Within 8 (map fst six) /\ Weights 1 six /\ / 2 ^ 450 <= ExactWeight six /\ Numbers (map fst six) /\
  (forall lr, / 2 ^ 450 <= ExactShare lr half_d) /\ wquantile Left 6 six half_d = Ok (Some (4503599627370496, -50)%Z).
Proof.
  destruct three_tenths_value as [F3 E3]. destruct half_value as [_ Eh]. assert (P := pow_lt 2 450 ltac:(lra)).
  assert (L2 : / 2 ^ 450 <= / 2). { apply Rinv_le; [lra|]. rewrite <- (pow_1 2) at 1. apply Rle_pow; [lra | lia]. }
  assert (X : forall z m, shown_double (dbl z 0) = Some (m, (-50)%Z) \/ shown_double (dbl z 0) = Some (m, (-51)%Z) \/ shown_double (dbl z 0) = Some (m, (-52)%Z) -> (0 <= m <= 2 ^ 53)%Z -> finite (dbl z 0) /\ Rabs (val (dbl z 0)) <= 8).
  { intros z m Hs Hm. assert (Hm' : 0 <= IZR m <= 9007199254740992) by (split; apply IZR_le; [|change (2 ^ 53)%Z with 9007199254740992%Z in Hm]; lia).
    destruct Hs as [Hs|[Hs|Hs]]; destruct (shown_value _ _ _ Hs) as [F E]; (split; [exact F|]); rewrite E.
    - change (bpow radix2 (-50)) with (/ 1125899906842624). rewrite Rabs_pos_eq; lra.
    - change (bpow radix2 (-51)) with (/ 2251799813685248). rewrite Rabs_pos_eq; lra.
    - change (bpow radix2 (-52)) with (/ 4503599627370496). rewrite Rabs_pos_eq; lra. }
  split; [unfold Few; cbn; lia|]. split; [unfold Moderate; split; [lra | apply pow_R1_Rle; lra]|].
  split; [unfold Moderate; split; [lra|]; apply Rle_trans with (2 ^ 3); [lra | apply Rle_pow; [lra | lia]]|].
  assert (WI : Within 8 (map fst six)).
  { repeat apply Forall_cons; try apply Forall_nil.
    - apply (X 1%Z 4503599627370496%Z); [right; right; vm_compute; reflexivity | lia].
    - apply (X 2%Z 4503599627370496%Z); [right; left; vm_compute; reflexivity | lia].
    - apply (X 3%Z 6755399441055744%Z); [right; left; vm_compute; reflexivity | lia].
    - apply (X 4%Z 4503599627370496%Z); [left; vm_compute; reflexivity | lia].
    - apply (X 5%Z 5629499534213120%Z); [left; vm_compute; reflexivity | lia].
    - apply (X 6%Z 6755399441055744%Z); [left; vm_compute; reflexivity | lia]. }
  split; [exact WI|]. split.
  { unfold six, Weights. rewrite Forall_map. apply Forall_forall. intros z _. cbn [snd]. split; [exact F3|]. rewrite E3. lra. }
  split. { unfold ExactWeight, ExactSum, six. cbn [map snd total]. change (/ 2 ^ 450 <= val three_tenths + (val three_tenths + (val three_tenths + (val three_tenths + (val three_tenths + (val three_tenths + 0)))))). rewrite E3. lra. }
  split. { unfold Numbers. apply Forall_forall. intros x Hx N. unfold Within in WI. rewrite Forall_forall in WI. destruct (WI x Hx) as [F _]. unfold finite, nan in *. destruct x; discriminate. }
  split; [intros lr; destruct lr; cbn [ExactShare]; rewrite Eh; lra|]. vm_compute. reflexivity.
Qed.
Lemma fourth_instead_of_third : exists a v b, six = a ++ v :: b /\ (length a = 2)%nat /\ val half_d = / 2 /\ ExactWeight (a ++ [v]) = ExactWeight six * val half_d /\
  shown_double (fst v) = Some (6755399441055744, -51)%Z /\ wquantile Left 6 six half_d = Ok (Some (4503599627370496, -50)%Z).
Proof.
  exists (firstn 2 six), (dbl 3 0, three_tenths), (skipn 3 six). split; [reflexivity|]. split; [reflexivity|]. destruct half_value as [_ Eh]. split; [exact Eh|]. rewrite Eh.
  split; [| split; vm_compute; reflexivity]. unfold ExactWeight, ExactSum, six. cbn [map snd total firstn app].
  change (val three_tenths + (val three_tenths + (val three_tenths + 0)) = (val three_tenths + (val three_tenths + (val three_tenths + (val three_tenths + (val three_tenths + (val three_tenths + 0)))))) * / 2). lra.
Qed.
Lemma vanishing_threshold : Probability least /\ Probability half_d /\ wquantile Left 6 [(d_one, half_d)] least = UB.
Proof. split; [exact least_value|]. split; [apply half_value|]. vm_compute. reflexivity. Qed.
