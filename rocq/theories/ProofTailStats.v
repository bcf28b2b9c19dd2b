(** Proofs about the statistics computed from a tail. *)
From Coq Require Import List Arith Bool Permutation Sorted Lia Field.
From Verif Require Import Num NumFacts ModelTail SpecStats SpecTail ProofBasic ProofRolling ProofOrder ProofTail.
Import ListNotations.

Section Stats.
Variable K : Num.
Hypothesis HO : OrderedLaws K.
Let HK : FieldLaws K := ord_field K HO.
Local Notation T := (car K).
Local Notation "0" := (zero K) : num_scope.
Local Notation "1" := (one K) : num_scope.
Local Notation "x + y" := (add K x y) : num_scope.
Local Notation "x - y" := (sub K x y) : num_scope.
Local Notation "x * y" := (mul K x y) : num_scope.
Local Notation "x / y" := (div K x y) : num_scope.
Local Notation "x < y" := (klt K x y) : num_scope.
Local Notation "x <= y" := (kle K x y) : num_scope.
Local Notation "# n" := (ofnat K n) (at level 2) : num_scope.
Local Open Scope num_scope.
Add Field KfieldT : (fl_field K HK).

Lemma pred_sw lr : StrictWeak (tail_pred K lr).
Proof.
  destruct lr; constructor; cbn; intros.
  - apply (ord_irrefl K HO).
  - eapply (ord_trans K HO); eauto.
  - apply (kle_trans K HO) with b; assumption.
  - apply (ord_irrefl K HO).
  - eapply (ord_trans K HO); eauto.
  - apply (kle_trans K HO) with b; assumption.
Qed.
Lemma pred_antisym lr a b : tail_pred K lr a b = false -> tail_pred K lr b a = false -> a = b.
Proof. destruct lr; cbn; intros; [|symmetry]; apply (ord_total K HO); assumption. Qed.
Lemma pull_sw {E} (f : E -> T) lr : StrictWeak (fun a b => tail_pred K lr (f a) (f b)).
Proof.
  assert (S := pred_sw lr). constructor; intros.
  - apply (sw_irrefl _ S).
  - eapply (sw_trans _ S); eauto.
  - eapply (sw_negtrans _ S); eauto.
Qed.

Variable ceil : T -> nat.
Hypothesis HCeil : CeilSpec K ceil.
Variable lr : side.

Definition level (p : T) : T := match lr with Left => p | Right => 1 - p end.
Lemma tail_n_ceil cnt p r : IsCeil K (#cnt * level p) r -> tail_n K ceil lr cnt p = r.
Proof.
  intros H. unfold tail_n. eapply (ceil_unique K (#cnt * level p)); [|exact H].
  replace (tail_level K lr p) with (level p) by reflexivity. apply HCeil.
Qed.
Lemma level_pos p : 0 < p -> p < 1 -> 0 < level p.
Proof. intros H0 H1. unfold level. destruct lr; [exact H0|]. apply (ksub_pos K HO). exact H1. Qed.
Lemma r_pos cnt p r : (1 <= cnt)%nat -> 0 < level p -> IsCeil K (#cnt * level p) r -> (1 <= r)%nat.
Proof.
  intros Hc Hp HI. apply (ceil_pos K _ _) with (2 := HI). apply (kmul_pos K HO); [|exact Hp].
  destruct cnt; [lia|]. apply (kofnat_pos K HO).
Qed.

Lemma fold_total (l : list T) acc : fold_left (add K) l acc = acc + total K (fun x => x) l.
Proof.
  revert acc; induction l as [|x l IH]; intros acc; cbn [fold_left]; [rewrite total_nil; ring|].
  rewrite IH, total_cons. ring.
Qed.

Section Hist.
(** [E]: what is pushed at once; [key]: its sample. *)
Variable E : Type.
Variable key : E -> T.
Variable k : nat.
Variables hist es : list E.
Let before (a b : E) : bool := tail_pred K lr (key a) (key b).
Hypothesis HT : IsTail before k hist es.

Lemma es_length : length es = Nat.min k (length hist).
Proof. apply HT. Qed.

(** ** quantile *)
Lemma quantile_ok p r : 0 < level p -> IsCeil K (#(length hist) * level p) r ->
  (r < Nat.min k (length hist))%nat ->
  exists v, tail_quantile_result K ceil lr (length hist) (map key es) p = Ok (key v)
    /\ OrderStat before hist r v /\ nth_error es (r - 1) = Some v.
Proof.
  intros Hp HI Hr. unfold tail_quantile_result. rewrite (tail_n_ceil _ _ _ HI), map_length, es_length.
  destruct (Nat.ltb_spec r (Nat.min k (length hist))) as [_|C]; [|lia].
  assert (Hr1 := r_pos (length hist) p r ltac:(lia) Hp HI).
  destruct r as [|m]; [lia|].
  destruct (nth_error es m) as [v|] eqn:Ev.
  2:{ apply nth_error_None in Ev. rewrite es_length in Ev. lia. }
  exists v. rewrite nth_error_map, Ev. cbn. split; [reflexivity|].
  replace (m - 0)%nat with m by lia. split; [|exact Ev].
  apply (IsTail_nth before (pull_sw key lr) k hist es m v HT Ev).
Qed.
Lemma quantile_nan p r : IsCeil K (#(length hist) * level p) r ->
  (Nat.min k (length hist) <= r)%nat ->
  tail_quantile_result K ceil lr (length hist) (map key es) p = NotANumber.
Proof.
  intros HI Hr. unfold tail_quantile_result. rewrite (tail_n_ceil _ _ _ HI), map_length, es_length.
  destruct (Nat.ltb_spec r (Nat.min k (length hist))) as [C|_]; [lia|]. reflexivity.
Qed.

(** ** tail means *)
Lemma nctm_ok p r : 0 < level p -> (1 <= length hist)%nat -> IsCeil K (#(length hist) * level p) r ->
  (r <= Nat.min k (length hist))%nat ->
  non_coherent_tail_mean_result K ceil lr (length hist) (map key es) p
   = Ok (total K key (firstn r es) / #r) /\ MostExtreme before hist r (firstn r es).
Proof.
  intros Hp Hn HI Hr. unfold non_coherent_tail_mean_result. rewrite (tail_n_ceil _ _ _ HI), map_length, es_length.
  destruct (Nat.leb_spec r (Nat.min k (length hist))) as [_|C]; [|lia].
  assert (Hr1 := r_pos (length hist) p r Hn Hp HI).
  split.
  - destruct r as [|m]; [lia|]. f_equal. rewrite fold_total, firstn_map, (total_map K).
    assert (E' : forall a b, a = b -> a / #(S m) = b / #(S m)) by (intros; subst; reflexivity).
    apply E'. cbv beta. change (fun x : E => key x) with key. ring.
  - apply (IsTail_firstn before (pull_sw key lr) k hist es r HT). rewrite es_length. exact Hr.
Qed.
Lemma nctm_nan p r : IsCeil K (#(length hist) * level p) r ->
  (Nat.min k (length hist) < r)%nat ->
  non_coherent_tail_mean_result K ceil lr (length hist) (map key es) p = NotANumber.
Proof.
  intros HI Hr. unfold non_coherent_tail_mean_result. rewrite (tail_n_ceil _ _ _ HI), map_length, es_length.
  destruct (Nat.leb_spec r (Nat.min k (length hist))) as [C|_]; [lia|]. reflexivity.
Qed.
Lemma ctm_ok p r : 0 < level p -> IsCeil K (#(length hist) * level p) r ->
  (r < Nat.min k (length hist))%nat ->
  exists q, OrderStat before hist r q /\ MostExtreme before hist r (firstn r es) /\
  coherent_tail_mean_result K ceil lr (length hist) (map key es) p
   = Ok (total K key (firstn r es) / #r
         + key q / #r * match lr with Left => p | Right => (1 - p) - #r / #(length hist) end).
Proof.
  intros Hp HI Hr. destruct (quantile_ok p r Hp HI Hr) as (q & Eq & HQ & _).
  destruct (nctm_ok p r Hp ltac:(lia) HI ltac:(lia)) as [En HM].
  exists q. split; [exact HQ|]. split; [exact HM|].
  unfold coherent_tail_mean_result, coherent_tail_mean_of. rewrite En, Eq, (tail_n_ceil _ _ _ HI). reflexivity.
Qed.

(** ** tail variate means *)
Variable vec : E -> list T.
Variable d : nat.
Hypothesis Hvec : Forall (fun e => length (vec e) = d) hist.

Lemma es_in e : In e es -> In e hist.
Proof.
  intros He. destruct HT as (_ & _ & rest & HP & _). eapply Permutation_in; [symmetry; exact HP|].
  apply in_or_app. left. exact He.
Qed.

Lemma vplus_spec a b : length a = length b ->
  exists c, vplus K a b = Ok c /\ length c = length a /\
    forall i, nth i c 0 = nth i a 0 + nth i b 0.
Proof.
  revert b; induction a as [|x a IH]; intros [|y b] Hl; try discriminate.
  - exists []. split; [reflexivity|]. split; [reflexivity|]. intros [|i]; cbn; ring.
  - cbn in Hl. destruct (IH b ltac:(lia)) as (c & Ec & Hlc & Hn). exists ((x + y) :: c).
    cbn. rewrite Ec. split; [reflexivity|]. split; [cbn; congruence|]. intros [|i]; cbn; [reflexivity|apply Hn].
Qed.
Lemma vaccumulate_spec (l : list E) acc : Forall (fun e => length (vec e) = length acc) l ->
  exists c, vaccumulate K (map vec l) acc = Ok c /\ length c = length acc /\
    forall i, nth i c 0 = nth i acc 0 + total K (fun e => nth i (vec e) 0) l.
Proof.
  revert acc; induction l as [|e l IH]; intros acc HF.
  - exists acc. split; [reflexivity|]. split; [reflexivity|]. intros i. rewrite total_nil. ring.
  - inversion_clear HF as [|? ? He HF'].
    destruct (vplus_spec acc (vec e) (eq_sym He)) as (c1 & E1 & L1 & N1).
    destruct (IH c1) as (c & Ec & Lc & Nc).
    { eapply Forall_impl; [|exact HF']. cbn. intros; congruence. }
    exists c. split; [|split; [congruence|]].
    + unfold vaccumulate in *. cbn. rewrite E1. exact Ec.
    + intros i. rewrite Nc, N1, total_cons. ring.
Qed.

Lemma nth_repeat0 n i : nth i (repeat 0 n) 0 = 0.
Proof. revert i; induction n as [|n IH]; intros [|i]; cbn; auto. Qed.
Lemma firstn_vec r : Forall (fun e => length (vec e) = d) (firstn r es).
Proof.
  rewrite Forall_forall in *. intros e He. apply Hvec, es_in. rewrite <- (firstn_skipn r es).
  apply in_or_app. left; exact He.
Qed.
Lemma sum_vec_coords (l : list E) : Forall (fun e => length (vec e) = d) l ->
  total K (fun i => total K (fun e => nth i (vec e) 0) l) (seq 0 d) = total K (fun e => total K (fun x => x) (vec e)) l.
Proof.
  intros HF. induction HF as [|e l He HF IH].
  - rewrite total_nil. rewrite (total_ext K _ (fun _ => 0)) by (intros; apply total_nil).
    rewrite (total_const K HK). ring.
  - rewrite total_cons, <- IH. rewrite (total_ext K _ (fun i => nth i (vec e) 0 + total K (fun e => nth i (vec e) 0) l))
      by (intros; apply total_cons).
    rewrite (total_add K HK). f_equal. rewrite <- He. clear.
    induction (vec e) as [|x v IH]; [reflexivity|]. cbn [length seq]. rewrite total_cons. cbn [nth].
    rewrite total_cons. f_equal. rewrite <- IH. rewrite <- seq_shift, (total_map K). reflexivity.
Qed.

Lemma tvm_ok relative p r : 0 < level p -> IsCeil K (#(length hist) * level p) r ->
  (r < Nat.min k (length hist))%nat ->
  (relative = true -> total K key (firstn r es) <> 0) ->
  exists ms, tail_variate_means_result K ceil lr relative (length hist) (map key es) (map vec es) p = Ok ms /\
    length ms = d /\ MostExtreme before hist r (firstn r es) /\
    non_coherent_tail_mean_result K ceil lr (length hist) (map key es) p = Ok (total K key (firstn r es) / #r) /\
    forall i, (i < d)%nat -> nth i ms 0 = total K (fun e => nth i (vec e) 0) (firstn r es)
                               / (if relative then total K key (firstn r es) else #r).
Proof.
  intros Hp HI Hr Hrel. destruct (nctm_ok p r Hp ltac:(lia) HI ltac:(lia)) as [En HM].
  assert (Hr1 := r_pos (length hist) p r ltac:(lia) Hp HI).
  unfold tail_variate_means_result, tail_variate_means_of. rewrite (tail_n_ceil _ _ _ HI), map_length, es_length.
  assert (Hes : es <> []). { intros C. assert (HL := es_length). rewrite C in HL. cbn in HL. lia. }
  assert (Hex : exists e0 es', es = e0 :: es') by (destruct es; [congruence|eauto]).
  destruct Hex as (e0 & es' & Ees).
  destruct (map vec es) as [|v0 tv] eqn:Etv; [rewrite Ees in Etv; discriminate|].
  assert (Ev0 : v0 = vec e0) by (rewrite Ees in Etv; injection Etv; auto). subst v0. rewrite <- Etv.
  destruct (Nat.ltb_spec r (Nat.min k (length hist))) as [_|C]; [|lia].
  rewrite firstn_map.
  assert (Hd0 : length (vec e0) = d).
  { rewrite Forall_forall in Hvec. apply Hvec, es_in. rewrite Ees. left; reflexivity. }
  destruct (vaccumulate_spec (firstn r es) (repeat 0 (length (vec e0)))) as (c & Ec & Lc & Nc).
  { rewrite repeat_length, Hd0. apply firstn_vec. }
  rewrite Ec. rewrite repeat_length in Lc.
  assert (Hr0 : #r <> 0) by (destruct r; [lia|apply (ofnat_S_neq0 K HK)]).
  assert (Nc' : forall i, nth i c 0 = total K (fun e => nth i (vec e) 0) (firstn r es)).
  { intros i. rewrite Nc, nth_repeat0. ring. }
  assert (Hdiv0 : forall x y, y <> 0 -> x = 0 -> x / y = 0) by (intros x y Hy ->; field; exact Hy).
  destruct relative.
  - rewrite En. specialize (Hrel eq_refl).
    eexists; split; [reflexivity|]. rewrite map_length. split; [congruence|]. split; [exact HM|]. split; [reflexivity|].
    intros i Hi. set (f := fun x => x / (#r * (total K key (firstn r es) / #r))).
    rewrite (nth_indep _ 0 (f 0)) by (rewrite map_length; lia). rewrite map_nth, Nc'. unfold f.
    field. repeat split; assumption.
  - destruct r as [|m]; [lia|].
    eexists; split; [reflexivity|]. rewrite map_length. split; [congruence|]. split; [exact HM|]. split; [exact En|].
    intros i Hi. set (f := fun x => x / #(S m)).
    rewrite (nth_indep _ 0 (f 0)) by (rewrite map_length; lia). rewrite map_nth, Nc'. reflexivity.
Qed.

Lemma total_list_nth (ms : list T) : total K (fun x => x) ms = total K (fun i => nth i ms 0) (seq 0 (length ms)).
Proof.
  induction ms as [|x ms IH]; [reflexivity|]. cbn [length seq]. rewrite !total_cons. cbn [nth]. f_equal.
  rewrite IH, <- seq_shift, (total_map K). reflexivity.
Qed.

Lemma tvm_relative_sum p r : 0 < level p -> IsCeil K (#(length hist) * level p) r ->
  (r < Nat.min k (length hist))%nat ->
  Forall (fun e => total K (fun x => x) (vec e) = key e) hist ->
  total K key (firstn r es) <> 0 ->
  exists ms, tail_variate_means_result K ceil lr true (length hist) (map key es) (map vec es) p = Ok ms /\
    total K (fun x => x) ms = 1.
Proof.
  intros Hp HI Hr Hsum Hne. destruct (tvm_ok true p r Hp HI Hr (fun _ => Hne)) as (ms & E1 & Hl & _ & _ & Hn).
  exists ms. split; [exact E1|]. rewrite total_list_nth, Hl.
  rewrite (total_ext K _ (fun i => (1 / total K key (firstn r es)) * total K (fun e => nth i (vec e) 0) (firstn r es))).
  2:{ intros i Hi. apply in_seq in Hi. rewrite Hn by lia. field. exact Hne. }
  rewrite (total_scale K HK), (sum_vec_coords (firstn r es)) by apply firstn_vec.
  rewrite (total_ext K (fun e => total K (fun x => x) (vec e)) key).
  - field. exact Hne.
  - intros e He. rewrite Forall_forall in Hsum. apply Hsum, es_in. rewrite <- (firstn_skipn r es).
    apply in_or_app. left; exact He.
Qed.

(** ** weighted *)
Variable wt : E -> T.
Definition prefixes_below (thr : T) (a : list E) : Prop :=
  forall p q, a = p ++ q -> total K wt p < thr.

Lemma weight_loop_spec thr : forall (l : list E) sum n,
  match weight_loop K thr sum n (map wt l) with
  | None => forall p q, l = p ++ q -> sum + total K wt p < thr
  | Some (m, s) =>
      exists a b, l = a ++ b /\ m = (n + length a)%nat /\ s = sum + total K wt a /\ thr <= s /\
        (forall a' z, a = a' ++ z -> z <> [] -> sum + total K wt a' < thr)
  end.
Proof.
  induction l as [|e l IH]; intros sum n.
  - cbn. destruct (ltb K sum thr) eqn:Es.
    + intros p q Hpq. symmetry in Hpq. apply app_eq_nil in Hpq. destruct Hpq as [-> _].
      rewrite total_nil. replace (sum + 0) with sum by ring. exact Es.
    + exists [], []. split; [reflexivity|]. split; [cbn; lia|]. rewrite total_nil.
      split; [ring|]. split; [exact Es|]. intros a' z H Hz. symmetry in H. apply app_eq_nil in H. tauto.
  - cbn. destruct (ltb K sum thr) eqn:Es.
    + specialize (IH (sum + wt e) (S n)). destruct (weight_loop K thr (sum + wt e) (S n) (map wt l)) as [[m s]|].
      * destruct IH as (a & b & -> & -> & -> & Hthr & Hpre). exists (e :: a), b. split; [reflexivity|].
        split; [cbn; lia|]. rewrite total_cons. split; [ring|]. split; [exact Hthr|].
        intros a' z H Hz. destruct a' as [|e' a'].
        -- rewrite total_nil. replace (sum + 0) with sum by ring. exact Es.
        -- cbn in H. injection H as <- ->. rewrite total_cons.
           replace (sum + (wt e + total K wt a')) with (sum + wt e + total K wt a') by ring.
           eapply Hpre; [reflexivity|exact Hz].
      * intros p q H. destruct p as [|e' p].
        -- rewrite total_nil. replace (sum + 0) with sum by ring. exact Es.
        -- cbn in H. injection H as <- ->. rewrite total_cons.
           replace (sum + (wt e + total K wt p)) with (sum + wt e + total K wt p) by ring.
           eapply IH. reflexivity.
    + exists [], (e :: l). split; [reflexivity|]. split; [cbn; lia|]. rewrite total_nil.
      split; [ring|]. split; [exact Es|]. intros a' z H Hz. symmetry in H. apply app_eq_nil in H. tauto.
Qed.

Lemma weighted_core thr : 0 < thr ->
  match weight_loop K thr 0 0 (map wt es) with
  | None => forall p q, es = p ++ q -> total K wt p < thr
  | Some (m, s) => exists a v, ReachesAt K before wt hist thr a v /\ m = S (length a) /\ s = total K wt (a ++ [v]) /\
                     firstn m es = a ++ [v] /\ nth_error es (length a) = Some v
  end.
Proof.
  intros Hthr. assert (HS := weight_loop_spec thr es 0 0).
  destruct (weight_loop K thr 0 0 (map wt es)) as [[m s]|].
  - destruct HS as (a & b & Ees & Em & Es & Hge & Hpre). cbn in Em. subst m.
    assert (Hane : a <> []).
    { intros ->. rewrite total_nil in Es. replace (0 + 0) with 0 in Es by ring. subst s.
      apply (knot_lt K) in Hge. contradiction. }
    destruct (exists_last Hane) as (a0 & v & ->). rewrite app_length. cbn [length].
    destruct (IsTail_extend before (pull_sw key lr) k hist es HT) as (rest & HP & HSort).
    rewrite Ees in HP, HSort. rewrite <- !app_assoc in HP, HSort. cbn in HP, HSort.
    exists a0, v.
    destruct (SortedBy_app_inv before _ _ HSort) as (_ & H2 & H3).
    inversion_clear H2 as [|? ? _ HF]. rewrite Forall_forall in HF.
    split; [|split; [lia|split; [rewrite Es; ring|split]]].
    + split; [|split; [|split]].
      * exists (b ++ rest). split; [exact HP|]. intros x y Hx Hy. apply in_app_or in Hx. destruct Hx as [Hx|[<-|[]]]; [|apply HF; exact Hy].
        apply H3; [exact Hx|right; exact Hy].
      * intros y Hy. apply H3; [exact Hy|left; reflexivity].
      * intros p q Hpq. specialize (Hpre p (q ++ [v])). replace (0 + total K wt p) with (total K wt p) in Hpre by ring.
        apply Hpre; [rewrite Hpq, <- app_assoc; reflexivity|]. destruct q; discriminate.
      * replace (0 + total K wt (a0 ++ [v])) with (total K wt (a0 ++ [v])) in Es by ring. rewrite <- Es. apply leb_kle. exact Hge.
    + rewrite Ees. replace (length a0 + 1)%nat with (length (a0 ++ [v])) by (rewrite app_length; reflexivity).
      rewrite firstn_app, Nat.sub_diag, firstn_all; cbn; apply app_nil_r.
    + rewrite Ees, <- app_assoc. cbn. rewrite nth_error_app2 by lia. rewrite Nat.sub_diag. reflexivity.
  - intros p q Hpq. specialize (HS p q Hpq). replace (0 + total K wt p) with (total K wt p) in HS by ring. exact HS.
Qed.

Lemma wquantile_spec wtot p : 0 < wtot * level p ->
  (exists a v, ReachesAt K before wt hist (wtot * level p) a v /\
     weighted_tail_quantile_result K lr wtot (map key es) (map wt es) p = Ok (key v))
  \/ (weighted_tail_quantile_result K lr wtot (map key es) (map wt es) p = NotANumber
      /\ total K wt es < wtot * level p).
Proof.
  intros Hthr. assert (HW := weighted_core _ Hthr).
  unfold weighted_tail_quantile_result. change (tail_level K lr p) with (level p).
  destruct (weight_loop K (wtot * level p) 0 0 (map wt es)) as [[m s]|].
  - left. destruct HW as (a & v & HR & -> & -> & _ & Hn). exists a, v. split; [exact HR|].
    rewrite nth_error_map, Hn. reflexivity.
  - right. split; [reflexivity|]. apply (HW es []). symmetry. apply app_nil_r.
Qed.

Lemma inner_total (l : list E) rest acc :
  inner_product K (map key l) (map wt l ++ rest) acc = acc + total K (fun e => key e * wt e) l.
Proof.
  revert acc; induction l as [|e l IH]; intros acc; cbn [map app inner_product].
  - rewrite total_nil. ring.
  - rewrite IH, total_cons. ring.
Qed.
Lemma map_firstn_split (m : nat) (l : list E) : map wt l = map wt (firstn m l) ++ map wt (skipn m l).
Proof. rewrite <- map_app, firstn_skipn. reflexivity. Qed.

Lemma wmean_spec wtot p : 0 < wtot * level p ->
  (exists a v, ReachesAt K before wt hist (wtot * level p) a v /\
     non_coherent_weighted_tail_mean_result K lr wtot (map key es) (map wt es) p
       = Ok (total K (fun e => key e * wt e) (a ++ [v]) / total K wt (a ++ [v])))
  \/ (non_coherent_weighted_tail_mean_result K lr wtot (map key es) (map wt es) p = NotANumber
      /\ total K wt es < wtot * level p).
Proof.
  intros Hthr. assert (HW := weighted_core _ Hthr).
  unfold non_coherent_weighted_tail_mean_result. change (tail_level K lr p) with (level p).
  destruct (weight_loop K (wtot * level p) 0 0 (map wt es)) as [[m s]|].
  - left. destruct HW as (a & v & HR & -> & -> & Hf & Hn). exists a, v. split; [exact HR|].
    f_equal. rewrite firstn_map, (map_firstn_split (S (length a)) es), inner_total, Hf.
    assert (E' : forall x y, x = y -> x / total K wt (a ++ [v]) = y / total K wt (a ++ [v])) by (intros; subst; reflexivity).
    apply E'. ring.
  - right. split; [reflexivity|]. apply (HW es []). symmetry. apply app_nil_r.
Qed.

(** The loop of weighted_tail_variate_means. *)
Lemma variate_loop_some thr ws : forall l sum n m s, skipn n ws = l -> (n <= length ws)%nat ->
  weight_loop K thr sum n l = Some (m, s) ->
  forall fuel, (length l < fuel)%nat -> variate_loop K fuel thr sum n ws = Some (m, s).
Proof.
  induction l as [|w l IH]; intros sum n m s Hsk Hn Hw fuel Hf; (destruct fuel as [|fuel]; [cbn in Hf; lia|]).
  - cbn in *. destruct (ltb K sum thr); [discriminate|exact Hw].
  - cbn in *. destruct (ltb K sum thr); [|exact Hw].
    assert (En : nth_error ws n = Some w).
    { rewrite <- (firstn_skipn n ws), Hsk. rewrite nth_error_app2; rewrite firstn_length_le by exact Hn; [|lia].
      rewrite Nat.sub_diag. reflexivity. }
    rewrite En. apply (IH (sum + w) (S n) m s).
    + replace (S n) with (1 + n)%nat by lia. rewrite <- ProofRolling.skipn_skipn', Hsk. reflexivity.
    + assert (n < length ws)%nat by (apply nth_error_Some; congruence). lia.
    + exact Hw.
    + lia.
Qed.
Lemma variate_loop_stuck thr ws sum n : (length ws <= n)%nat -> sum < thr ->
  forall fuel, variate_loop K fuel thr sum n ws = None.
Proof.
  intros Hn Hs fuel. induction fuel as [|fuel IH]; [reflexivity|]. cbn.
  unfold klt in Hs. rewrite Hs. destruct (nth_error ws n) eqn:C; [|exact IH].
  assert (n < length ws)%nat by (apply nth_error_Some; congruence). lia.
Qed.
Lemma variate_loop_none thr ws : forall l sum n, skipn n ws = l -> (n <= length ws)%nat ->
  weight_loop K thr sum n l = None -> forall fuel, variate_loop K fuel thr sum n ws = None.
Proof.
  induction l as [|w l IH]; intros sum n Hsk Hn Hw fuel.
  - cbn in Hw. destruct (ltb K sum thr) eqn:Es; [|discriminate].
    apply variate_loop_stuck; [|exact Es]. assert (HL := skipn_length n ws). rewrite Hsk in HL. cbn in HL. lia.
  - destruct fuel as [|fuel]; [reflexivity|]. cbn in *. destruct (ltb K sum thr) eqn:Es; [|discriminate].
    assert (En : nth_error ws n = Some w).
    { rewrite <- (firstn_skipn n ws), Hsk. rewrite nth_error_app2; rewrite firstn_length_le by exact Hn; [|lia].
      rewrite Nat.sub_diag. reflexivity. }
    rewrite En. apply IH.
    + replace (S n) with (1 + n)%nat by lia. rewrite <- ProofRolling.skipn_skipn', Hsk. reflexivity.
    + assert (n < length ws)%nat by (apply nth_error_Some; congruence). lia.
    + exact Hw.
Qed.

Lemma nth_scale v w i : nth i (vscale K v w) 0 = nth i v 0 * w.
Proof. revert i; induction v as [|x v IH]; intros [|i]; cbn; try ring. apply IH. Qed.
Lemma vinner_spec (l : list E) rest acc : Forall (fun e => length (vec e) = length acc) l ->
  exists c, vinner K (map vec l) (map wt l ++ rest) acc = Ok c /\ length c = length acc /\
    forall i, nth i c 0 = nth i acc 0 + total K (fun e => nth i (vec e) 0 * wt e) l.
Proof.
  revert acc; induction l as [|e l IH]; intros acc HF.
  - exists acc. split; [reflexivity|]. split; [reflexivity|]. intros i. rewrite total_nil. ring.
  - inversion_clear HF as [|? ? He HF'].
    destruct (vplus_spec acc (vscale K (vec e) (wt e))) as (c1 & E1 & L1 & N1).
    { unfold vscale. rewrite map_length. symmetry; exact He. }
    destruct (IH c1) as (c & Ec & Lc & Nc).
    { eapply Forall_impl; [|exact HF']. cbn. intros; congruence. }
    exists c. split; [|split; [congruence|]].
    + cbn. rewrite E1. exact Ec.
    + intros i. rewrite Nc, N1, total_cons, nth_scale. ring.
Qed.

(** terminates and is correct when the cached weights reach the threshold *)
Lemma wvariate_cases wtot p : 0 < wtot * level p ->
  (exists a v, ReachesAt K before wt hist (wtot * level p) a v /\
  forall relative, ((relative = true -> total K (fun e => key e * wt e) (a ++ [v]) <> 0) ->
   exists ms, (forall fuel, (length es < fuel)%nat ->
     weighted_tail_variate_means_result K lr fuel relative wtot (map key es) (map wt es) (map vec es) p = Some (Ok ms)) /\
   length ms = d /\
   forall i, (i < d)%nat -> nth i ms 0 = total K (fun e => nth i (vec e) 0 * wt e) (a ++ [v])
       / (if relative then total K (fun e => key e * wt e) (a ++ [v]) else total K wt (a ++ [v]))))
  \/ (forall a b, es = a ++ b -> total K wt a < wtot * level p).
Proof.
  intros Hthr. assert (HW := weighted_core _ Hthr).
  unfold weighted_tail_variate_means_result, weighted_tail_variate_means_of. change (tail_level K lr p) with (level p).
  destruct (weight_loop K (wtot * level p) 0 0 (map wt es)) as [[m s]|] eqn:EW.
  2:{ right. exact HW. }
  left. destruct HW as (a & v & HR & Em & Es & Hf & Hn). exists a, v. split; [exact HR|]. intros relative Hrel.
  assert (Hloop : forall fuel, (length es < fuel)%nat ->
    variate_loop K fuel (wtot * level p) 0 0 (map wt es) = Some (m, s)).
  { intros fuel Hfuel. apply (variate_loop_some _ (map wt es) (map wt es)); auto; [lia|].
    rewrite map_length. exact Hfuel. }
  assert (Hw : total K wt (a ++ [v]) <> 0).
  { destruct HR as (_ & _ & _ & HR). apply leb_kle in HR. apply (kpos_neq0 K HO).
    eapply (klt_le_trans K HO); eassumption. }
  assert (Hes : es <> []) by (intros C; rewrite C in Hn; destruct (length a); discriminate).
  assert (Hex : exists e0 es', es = e0 :: es') by (destruct es; [congruence|eauto]).
  destruct Hex as (e0 & es' & Ees).
  assert (Hd0 : length (vec e0) = d).
  { rewrite Forall_forall in Hvec. apply Hvec, es_in. rewrite Ees. left; reflexivity. }
  destruct (vinner_spec (firstn m es) (map wt (skipn m es)) (repeat 0 (length (vec e0)))) as (c & Ec & Lc & Nc).
  { rewrite repeat_length, Hd0. apply firstn_vec. }
  rewrite <- map_app, firstn_skipn in Ec. rewrite repeat_length in Lc.
  assert (Nc' : forall i, nth i c 0 = total K (fun e => nth i (vec e) 0 * wt e) (a ++ [v])).
  { intros i. rewrite Nc, nth_repeat0, Hf. ring. }
  assert (Emean : non_coherent_weighted_tail_mean_result K lr wtot (map key es) (map wt es) p
      = Ok (total K (fun e => key e * wt e) (a ++ [v]) / total K wt (a ++ [v]))).
  { unfold non_coherent_weighted_tail_mean_result. change (tail_level K lr p) with (level p). rewrite EW, Em, Es.
    f_equal. rewrite firstn_map, (map_firstn_split (S (length a)) es), inner_total. rewrite <- Em, Hf.
    assert (E' : forall x y, x = y -> x / total K wt (a ++ [v]) = y / total K wt (a ++ [v])) by (intros; subst; reflexivity).
    apply E'. ring. }
  exists (map (fun x => x / (if relative then total K (fun e => key e * wt e) (a ++ [v]) else total K wt (a ++ [v]))) c).
  split; [|split].
  - intros fuel Hfuel. rewrite (Hloop fuel Hfuel). f_equal.
    destruct (map vec es) as [|v0 tv] eqn:Etv; [rewrite Ees in Etv; discriminate|].
    assert (Ev0 : v0 = vec e0) by (rewrite Ees in Etv; injection Etv; auto). subst v0. rewrite <- Etv.
    rewrite firstn_map, Ec. destruct relative.
    + rewrite Emean. f_equal. apply map_ext. intros x. rewrite Es. specialize (Hrel eq_refl). field. split; assumption.
    + rewrite Em, Es. reflexivity.
  - rewrite map_length. congruence.
  - intros i Hi. set (f := fun x => x / _). rewrite (nth_indep _ 0 (f 0)) by (rewrite map_length; lia).
    rewrite map_nth, Nc'. reflexivity.
Qed.
Lemma wvariate_ok wtot p : 0 < wtot * level p -> wtot * level p <= total K wt es ->
  exists a v, ReachesAt K before wt hist (wtot * level p) a v /\
  forall relative, ((relative = true -> total K (fun e => key e * wt e) (a ++ [v]) <> 0) ->
   exists ms, (forall fuel, (length es < fuel)%nat ->
     weighted_tail_variate_means_result K lr fuel relative wtot (map key es) (map wt es) (map vec es) p = Some (Ok ms)) /\
   length ms = d /\
   forall i, (i < d)%nat -> nth i ms 0 = total K (fun e => nth i (vec e) 0 * wt e) (a ++ [v])
       / (if relative then total K (fun e => key e * wt e) (a ++ [v]) else total K wt (a ++ [v]))).
Proof.
  intros Hthr Hreach. destruct (wvariate_cases wtot p Hthr) as [HR | HN]; [exact HR|].
  specialize (HN es [] (eq_sym (app_nil_r es))). apply (knot_lt K) in Hreach. contradiction.
Qed.
(** never terminates when they do not *)
Lemma wvariate_diverges relative wtot p : 0 < wtot * level p ->
  (forall a b, es = a ++ b -> total K wt a < wtot * level p) ->
  forall fuel, weighted_tail_variate_means_result K lr fuel relative wtot (map key es) (map wt es) (map vec es) p = None.
Proof.
  intros Hthr Hno fuel. unfold weighted_tail_variate_means_result, weighted_tail_variate_means_of. change (tail_level K lr p) with (level p).
  rewrite (variate_loop_none _ (map wt es) (map wt es)); auto; [lia|].
  assert (HW := weighted_core _ Hthr).
  destruct (weight_loop K (wtot * level p) 0 0 (map wt es)) as [[m s]|]; [|reflexivity].
  exfalso. destruct HW as (a & v & HR & Em & Es & Hf & Hn). destruct HR as (_ & _ & _ & HR). apply leb_kle in HR.
  assert (C := Hno (firstn m es) (skipn m es) (eq_sym (firstn_skipn m es))). rewrite Hf in C.
  apply (knot_lt K) in HR. contradiction.
Qed.
End Hist.
End Stats.
