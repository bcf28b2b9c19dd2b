(** Statements about whole runs of the tail accumulators; a concrete heap; witnesses. *)
From Coq Require Import List Arith Bool Permutation Sorted Lia Field QArith Qcanon.
From Verif Require Import Num NumFacts ModelTail SpecStats SpecTail ProofBasic ProofRolling ProofOrder ProofTail ProofTailStats.
Import ListNotations.

(** ** A conforming heap *)
Definition sorting_heap : HeapOps := {|
  push_heap := fun comp l => sort_by (fun a b => comp b a) l;
  pop_heap := fun comp l => match l with [] => [] | t :: l => sort_by (fun a b => comp b a) l ++ [t] end;
  sort_heap := fun comp l => sort_by comp l
|}.
Lemma flip_sw {A} (comp : A -> A -> bool) : StrictWeak comp -> StrictWeak (fun a b => comp b a).
Proof. intros S; constructor; intros; [apply (sw_irrefl _ S)|eapply (sw_trans _ S); eauto|eapply (sw_negtrans _ S); eauto]. Qed.
Lemma sorting_heap_ok : HeapContract sorting_heap.
Proof.
  constructor; intros comp S; cbn.
  - intros l x _. split; [symmetry; apply sort_by_perm|]. apply sorted_heap.
    exact (sort_by_sorted _ (flip_sw _ S) (l ++ [x])).
  - intros t l _. eexists; split; [reflexivity|]. split; [symmetry; apply sort_by_perm|]. apply sorted_heap.
    exact (sort_by_sorted _ (flip_sw _ S) l).
  - intros l _. split; [symmetry; apply sort_by_perm|]. exact (sort_by_sorted _ S l).
Qed.

(** ** Tail and attached variates, any strict weak order *)
Lemma tail_spec : forall (H : HeapOps), HeapContract H ->
  forall (A V : Type) (pred : A -> A -> bool), StrictWeak pred ->
  forall (k nv : nat) (dA : A) (dV : V) (ops : list (tail_op A V)), (0 < k)%nat -> WellFormed nv ops ->
  exists s es, tail_run H pred (tail_init k nv dA dV) ops = Ok s /\
    IsTail (fun a b => pred (fst a) (fst b)) k (pushes ops) es /\
    tail_result H pred s = Ok (map fst es) /\
    forall j, (j < nv)%nat -> exists vals, tail_variate_result H pred s j = Ok vals /\
      map Some vals = map (fun e => nth_error (snd e) j) es.
Proof.
  intros H HC A V pred SP k nv dA dV ops Hk HW.
  destruct (tail_run_inv A V H HC pred SP k nv dA dV ops Hk HW) as (s & E & I).
  destruct (tail_extract_spec A V H HC pred SP k nv _ s I) as (es & HT & E1 & E2).
  exists s, es. auto.
Qed.
Lemma tail_samples_spec : forall (H : HeapOps), HeapContract H ->
  forall (A V : Type) (pred : A -> A -> bool), StrictWeak pred ->
  forall (k nv : nat) (dA : A) (dV : V) (ops : list (tail_op A V)), (0 < k)%nat -> WellFormed nv ops ->
  exists s t, tail_run H pred (tail_init k nv dA dV) ops = Ok s /\
    tail_result H pred s = Ok t /\ IsTail pred k (map fst (pushes ops)) t.
Proof.
  intros H HC A V pred SP k nv dA dV ops Hk HW.
  destruct (tail_spec H HC A V pred SP k nv dA dV ops Hk HW) as (s & es & E & HT & E1 & _).
  exists s, (map fst es). split; [exact E|]. split; [exact E1|].
  apply (IsTail_map fst pred). exact HT.
Qed.
Lemma zero_cache_ub : forall (H : HeapOps) (A V : Type) (pred : A -> A -> bool) (nv : nat) (dA : A) (dV : V) (x : A) (vs : list V),
  tail_run H pred (tail_init 0 nv dA dV) [TPush x vs] = UB.
Proof. reflexivity. Qed.

Lemma interleaving : forall (H : HeapOps), HeapContract H ->
  forall (A V : Type) (pred : A -> A -> bool), StrictWeak pred ->
  (forall a b, pred a b = false -> pred b a = false -> a = b) ->
  forall (k nv : nat) (dA : A) (dV : V) (ops ops' : list (tail_op A V)), (0 < k)%nat -> WellFormed nv ops ->
  pushes ops' = pushes ops ->
  exists s s' t, tail_run H pred (tail_init k nv dA dV) ops = Ok s /\
    tail_run H pred (tail_init k nv dA dV) ops' = Ok s' /\
    tail_result H pred s = Ok t /\ tail_result H pred s' = Ok t.
Proof.
  intros H HC A V pred SP anti k nv dA dV ops ops' Hk HW HE.
  assert (HW' : WellFormed nv ops') by (unfold WellFormed in *; rewrite HE; exact HW).
  destruct (tail_samples_spec H HC A V pred SP k nv dA dV ops Hk HW) as (s & t & E & E1 & HT).
  destruct (tail_samples_spec H HC A V pred SP k nv dA dV ops' Hk HW') as (s' & t' & E' & E1' & HT').
  rewrite HE in HT'. assert (t = t') by (refine (IsTail_unique pred SP k _ _ t t' _ (Permutation_refl _) HT HT'); intros; apply anti; assumption). subst t'.
  exists s, s', t. auto.
Qed.
Lemma map_Some_inj {A} (l l' : list A) : map Some l = map Some l' -> l = l'.
Proof. revert l'; induction l as [|x l IH]; intros [|y l'] E; try discriminate; auto. cbn in E. injection E as -> E. f_equal; auto. Qed.
Lemma NoDup_map_inj {A B} (f : A -> B) l a b : NoDup (map f l) -> In a l -> In b l -> f a = f b -> a = b.
Proof.
  induction l as [|x l IH]; cbn; intros HN Ha Hb E; [tauto|].
  inversion_clear HN as [|? ? Hx HN']. destruct Ha as [->|Ha], Hb as [->|Hb]; auto.
  - exfalso. apply Hx. rewrite E. apply in_map. exact Hb.
  - exfalso. apply Hx. rewrite <- E. apply in_map. exact Ha.
Qed.
(** with pairwise distinct samples the attached variates are determined too *)
Lemma interleaving_variates : forall (H : HeapOps), HeapContract H ->
  forall (A V : Type) (pred : A -> A -> bool), StrictWeak pred ->
  (forall a b, pred a b = false -> pred b a = false -> a = b) ->
  forall (k nv : nat) (dA : A) (dV : V) (ops ops' : list (tail_op A V)), (0 < k)%nat -> WellFormed nv ops ->
  pushes ops' = pushes ops -> NoDup (map fst (pushes ops)) ->
  exists s s', tail_run H pred (tail_init k nv dA dV) ops = Ok s /\
    tail_run H pred (tail_init k nv dA dV) ops' = Ok s' /\
    forall j, (j < nv)%nat -> exists vals, tail_variate_result H pred s j = Ok vals /\ tail_variate_result H pred s' j = Ok vals.
Proof.
  intros H HC A V pred SP anti k nv dA dV ops ops' Hk HW HE HN.
  assert (HW' : WellFormed nv ops') by (unfold WellFormed in *; rewrite HE; exact HW).
  destruct (tail_spec H HC A V pred SP k nv dA dV ops Hk HW) as (s & es & E & HT & _ & E1).
  destruct (tail_spec H HC A V pred SP k nv dA dV ops' Hk HW') as (s' & es' & E' & HT' & _ & E1').
  rewrite HE in HT'.
  assert (es = es').
  { eapply IsTail_unique; [| |reflexivity|exact HT|exact HT'].
    - constructor; intros; [apply (sw_irrefl _ SP)|eapply (sw_trans _ SP); eauto|eapply (sw_negtrans _ SP); eauto].
    - cbn. intros a b Ha Hb H1 H2. eapply NoDup_map_inj; eauto. }
  subst es'. exists s, s'. split; [exact E|]. split; [exact E'|]. intros j Hj.
  destruct (E1 j Hj) as (v & Ev & Mv). destruct (E1' j Hj) as (v' & Ev' & Mv').
  assert (v = v') by (apply map_Some_inj; congruence). subst v'. eauto.
Qed.

(** ** Numbers *)
Section Num.
Variable K : Num.
Hypothesis HO : OrderedLaws K.
Local Notation T := (car K).
Variable H : HeapOps.
Hypothesis HC : HeapContract H.
Variable lr : side.
Local Notation pr := (tail_pred K lr).

(** [f e]: what the entry [e] pushes. *)
Lemma run_entries (V E : Type) (f : E -> T * list V) (k nv : nat) (dA : T) (dV : V) ops hist :
  (0 < k)%nat -> WellFormed nv ops -> pushes ops = map f hist ->
  exists s es, tail_run H pr (tail_init k nv dA dV) ops = Ok s /\
    IsTail (fun a b => pr (fst (f a)) (fst (f b))) k hist es /\
    tail_result H pr s = Ok (map (fun e => fst (f e)) es) /\
    forall j, (j < nv)%nat -> exists vals, tail_variate_result H pr s j = Ok vals /\
      map Some vals = map (fun e => nth_error (snd (f e)) j) es.
Proof.
  intros Hk HW HE.
  destruct (tail_spec H HC T V pr (pred_sw K HO lr) k nv dA dV ops Hk HW) as (s & es & E1 & HT & E2 & E3).
  rewrite HE in HT. apply IsTail_unmap in HT. destruct HT as (es' & -> & HT).
  exists s, es'. split; [exact E1|]. split; [exact HT|]. split; [rewrite map_map in E2; exact E2|].
  intros j Hj. destruct (E3 j Hj) as (vals & E4 & E5). exists vals. split; [exact E4|].
  rewrite map_map in E5. exact E5.
Qed.

Lemma vals_map (V E : Type) (vals : list V) (g : E -> V) (es : list E) (h : E -> option V) :
  map Some vals = map h es -> (forall e, h e = Some (g e)) -> vals = map g es.
Proof.
  intros HM Hh. apply map_Some_inj. rewrite HM, map_map. apply map_ext. exact Hh.
Qed.

Variable ceil : T -> nat.
Hypothesis HCeil : CeilSpec K ceil.

Definition in01 (p : T) : Prop := ltb K (zero K) p = true /\ ltb K p (one K) = true.
Lemma in01_level p : in01 p -> klt K (zero K) (level K lr p).
Proof. intros [H0 H1]. exact (level_pos K HO lr p H0 H1). Qed.

Lemma quantile_run (k : nat) (dA : T) (dV : unit) (ops : list (tail_op T unit)) :
  (0 < k)%nat -> WellFormed 0 ops ->
  exists s tl, tail_run H pr (tail_init k 0 dA dV) ops = Ok s /\ tail_result H pr s = Ok tl /\
  let xs := map fst (pushes ops) in
  forall p r, in01 p -> IsCeil K (mul K (ofnat K (length xs)) (level K lr p)) r ->
    ((r < Nat.min k (length xs))%nat ->
       exists v, tail_quantile_result K ceil lr (length xs) tl p = Ok v /\ OrderStat pr xs r v) /\
    ((Nat.min k (length xs) <= r)%nat -> tail_quantile_result K ceil lr (length xs) tl p = NotANumber).
Proof.
  intros Hk HW.
  destruct (tail_samples_spec H HC T unit pr (pred_sw K HO lr) k 0 dA dV ops Hk HW) as (s & tl & E1 & E2 & HT).
  exists s, tl. split; [exact E1|]. split; [exact E2|]. intros xs p r Hp HI. fold xs in HT.
  rewrite <- (map_id tl). split; intros Hr.
  - destruct (quantile_ok K HO ceil HCeil lr T (fun x => x) k xs tl HT p r (in01_level p Hp) HI Hr) as (v & Ev & HS & _).
    exists v. split; [exact Ev|exact HS].
  - exact (quantile_nan K ceil HCeil lr T (fun x => x) k xs tl HT p r HI Hr).
Qed.

Lemma nctm_run (k : nat) (dA : T) (dV : unit) (ops : list (tail_op T unit)) :
  (0 < k)%nat -> WellFormed 0 ops ->
  exists s tl, tail_run H pr (tail_init k 0 dA dV) ops = Ok s /\ tail_result H pr s = Ok tl /\
  let xs := map fst (pushes ops) in
  forall p r, in01 p -> xs <> [] -> IsCeil K (mul K (ofnat K (length xs)) (level K lr p)) r ->
    ((r <= Nat.min k (length xs))%nat ->
       exists a, MostExtreme pr xs r a /\
         non_coherent_tail_mean_result K ceil lr (length xs) tl p = Ok (Mean K a)) /\
    ((Nat.min k (length xs) < r)%nat -> non_coherent_tail_mean_result K ceil lr (length xs) tl p = NotANumber).
Proof.
  intros Hk HW.
  destruct (tail_samples_spec H HC T unit pr (pred_sw K HO lr) k 0 dA dV ops Hk HW) as (s & tl & E1 & E2 & HT).
  exists s, tl. split; [exact E1|]. split; [exact E2|]. intros xs p r Hp Hne HI. fold xs in HT.
  assert (Hn : (1 <= length xs)%nat) by (destruct xs; [congruence|cbn; lia]).
  rewrite <- (map_id tl). split; intros Hr.
  - destruct (nctm_ok K HO ceil HCeil lr T (fun x => x) k xs tl HT p r (in01_level p Hp) Hn HI Hr) as (Ev & HS).
    exists (firstn r tl). split; [exact HS|]. rewrite Ev. unfold Mean, average.
    destruct HS as [-> _]. reflexivity.
  - exact (nctm_nan K ceil HCeil lr T (fun x => x) k xs tl HT p r HI Hr).
Qed.

Lemma ctm_run (k : nat) (dA : T) (dV : unit) (ops : list (tail_op T unit)) :
  (0 < k)%nat -> WellFormed 0 ops ->
  exists s tl, tail_run H pr (tail_init k 0 dA dV) ops = Ok s /\ tail_result H pr s = Ok tl /\
  let xs := map fst (pushes ops) in
  forall p r, in01 p -> IsCeil K (mul K (ofnat K (length xs)) (level K lr p)) r ->
    (r < Nat.min k (length xs))%nat ->
       exists a q, MostExtreme pr xs r a /\ OrderStat pr xs r q /\
         coherent_tail_mean_result K ceil lr (length xs) tl p
         = Ok (add K (Mean K a) (mul K (div K q (ofnat K r))
                 (match lr with
                  | Left => p
                  | Right => sub K (sub K (one K) p) (div K (ofnat K r) (ofnat K (length xs)))
                  end))).
Proof.
  intros Hk HW.
  destruct (tail_samples_spec H HC T unit pr (pred_sw K HO lr) k 0 dA dV ops Hk HW) as (s & tl & E1 & E2 & HT).
  exists s, tl. split; [exact E1|]. split; [exact E2|]. intros xs p r Hp HI Hr. fold xs in HT.
  rewrite <- (map_id tl).
  destruct (ctm_ok K HO ceil HCeil lr T (fun x => x) k xs tl HT p r (in01_level p Hp) HI Hr) as (q & HQ & HS & Ev).
  exists (firstn r tl), q. split; [exact HS|]. split; [exact HQ|]. rewrite Ev. unfold Mean, average.
  destruct HS as [-> _]. reflexivity.
Qed.

(** level 0 (p = 0 on the left, p = 1 on the right) with at least one sample *)
Lemma quantile_level0 cnt tl p : level K lr p = zero K -> tl <> [] ->
  tail_quantile_result K ceil lr cnt tl p = UB.
Proof.
  intros Hl Hne. unfold tail_quantile_result.
  assert (E : tail_n K ceil lr cnt p = 0%nat).
  { apply (tail_n_ceil K ceil HCeil). rewrite Hl. split.
    - apply leb_kle. cbn. replace (mul K (ofnat K cnt) (zero K)) with (zero K); [apply (kle_refl K HO)|].
      Add Field KfieldL : (fl_field K (ord_field K HO)). ring.
    - intros; lia. }
  rewrite E. destruct tl; [congruence|]. reflexivity.
Qed.

(** variate means: entries (sample, variate vector) *)
Lemma tvm_run (k d : nat) (dA : T) (dV : list T) (ops : list (tail_op T (list T))) (hist : list (T * list T)) :
  (0 < k)%nat -> pushes ops = map (fun e => (fst e, [snd e])) hist ->
  Forall (fun e => length (snd e) = d) hist ->
  exists s tl tv, tail_run H pr (tail_init k 1 dA dV) ops = Ok s /\ tail_result H pr s = Ok tl /\
    tail_variate_result H pr s 0 = Ok tv /\
  forall p r, in01 p -> IsCeil K (mul K (ofnat K (length hist)) (level K lr p)) r ->
    (r < Nat.min k (length hist))%nat ->
    exists a, MostExtreme (fun x y => pr (fst x) (fst y)) hist r a /\
      non_coherent_tail_mean_result K ceil lr (length hist) tl p = Ok (average K fst a) /\
      (exists ms, tail_variate_means_result K ceil lr false (length hist) tl tv p = Ok ms /\ length ms = d /\
         forall i, (i < d)%nat -> nth i ms (zero K) = average K (fun e => nth i (snd e) (zero K)) a) /\
      (total K fst a <> zero K ->
       exists ms, tail_variate_means_result K ceil lr true (length hist) tl tv p = Ok ms /\ length ms = d /\
         (forall i, (i < d)%nat -> nth i ms (zero K)
            = div K (average K (fun e => nth i (snd e) (zero K)) a) (average K fst a)) /\
         (Forall (fun e => total K (fun x => x) (snd e) = fst e) hist -> total K (fun x => x) ms = one K)).
Proof.
  intros Hk HE Hd.
  assert (HW : WellFormed 1 ops).
  { unfold WellFormed. rewrite HE, Forall_map. apply Forall_forall. reflexivity. }
  destruct (run_entries (list T) (T * list T) (fun e => (fst e, [snd e])) k 1 dA dV ops hist Hk HW HE)
    as (s & es & E1 & HT & E2 & E3).
  destruct (E3 0%nat ltac:(lia)) as (tv & E4 & E5).
  apply (vals_map _ _ tv (fun e => snd e)) in E5; [|reflexivity].
  exists s, (map (fun e => fst e) es), tv. split; [exact E1|]. split; [exact E2|]. split; [exact E4|].
  intros p r Hp HI Hr. subst tv.
  assert (Hl := in01_level p Hp).
  destruct (tvm_ok K HO ceil HCeil lr _ (fun e => fst e) k hist es HT (fun e => snd e) d Hd false p r Hl HI Hr)
    as (ms & M1 & M2 & M3 & M4 & M5); [discriminate|].
  exists (firstn r es). split; [exact M3|]. assert (La : length (firstn r es) = r) by apply M3.
  split; [rewrite M4; unfold average; rewrite La; reflexivity|]. split.
  - exists ms. split; [exact M1|]. split; [exact M2|]. intros i Hi. rewrite (M5 i Hi). unfold average. rewrite La. reflexivity.
  - intros Hne.
    destruct (tvm_ok K HO ceil HCeil lr _ (fun e => fst e) k hist es HT (fun e => snd e) d Hd true p r Hl HI Hr (fun _ => Hne))
      as (ms' & N1 & N2 & N3 & N4 & N5).
    exists ms'. split; [exact N1|]. split; [exact N2|]. split.
    + intros i Hi. rewrite (N5 i Hi). unfold average. rewrite La.
      assert (Hr0 : ofnat K r <> zero K).
      { assert (Hr1 := r_pos K HO lr (length hist) p r ltac:(lia) Hl HI). destruct r; [lia|].
        apply (ofnat_S_neq0 K (ord_field K HO)). }
      change (fun e : T * list T => fst e) with (@fst T (list T)) in *.
      field. split; assumption.
    + intros Hs.
      destruct (tvm_relative_sum K HO ceil HCeil lr _ (fun e => fst e) k hist es HT (fun e => snd e) d Hd p r Hl HI Hr Hs Hne)
        as (ms2 & P1 & P2). rewrite N1 in P1. injection P1 as <-. exact P2.
Qed.

(** weighted *)
Lemma wq_run (k : nat) (dA dV : T) (ops : list (tail_op T T)) (hist : list (T * T)) :
  (0 < k)%nat -> pushes ops = map (fun e => (fst e, [snd e])) hist ->
  exists s tl ws, tail_run H pr (tail_init k 1 dA dV) ops = Ok s /\ tail_result H pr s = Ok tl /\
    tail_variate_result H pr s 0 = Ok ws /\
  forall p, let thr := mul K (TotalWeight K hist) (level K lr p) in ltb K (zero K) thr = true ->
    ((exists a v, ReachesAt K (fun x y => pr (fst x) (fst y)) snd hist thr a v /\
        weighted_tail_quantile_result K lr (TotalWeight K hist) tl ws p = Ok (fst v) /\
        non_coherent_weighted_tail_mean_result K lr (TotalWeight K hist) tl ws p = Ok (WMean K (a ++ [v])))
     \/ (weighted_tail_quantile_result K lr (TotalWeight K hist) tl ws p = NotANumber /\
         non_coherent_weighted_tail_mean_result K lr (TotalWeight K hist) tl ws p = NotANumber /\
         ltb K (total K (fun x => x) ws) thr = true)).
Proof.
  intros Hk HE.
  assert (HW : WellFormed 1 ops).
  { unfold WellFormed. rewrite HE, Forall_map. apply Forall_forall. reflexivity. }
  destruct (run_entries T (T * T) (fun e => (fst e, [snd e])) k 1 dA dV ops hist Hk HW HE)
    as (s & es & E1 & HT & E2 & E3).
  destruct (E3 0%nat ltac:(lia)) as (ws & E4 & E5).
  apply (vals_map _ _ ws (fun e => snd e)) in E5; [|reflexivity].
  exists s, (map (fun e => fst e) es), ws. split; [exact E1|]. split; [exact E2|]. split; [exact E4|].
  intros p thr Hthr. subst ws.
  assert (HWq := weighted_core K HO lr _ (fun e => fst e) k hist es HT (fun e => snd e) thr Hthr).
  unfold weighted_tail_quantile_result, non_coherent_weighted_tail_mean_result.
  change (tail_level K lr p) with (level K lr p). fold thr.
  destruct (weight_loop K thr (zero K) 0 (map (fun e : T * T => snd e) es)) as [[m sm]|].
  - left. destruct HWq as (a & v & HR & -> & -> & Hf & Hn). exists a, v. split; [exact HR|]. split.
    + rewrite nth_error_map, Hn. reflexivity.
    + f_equal. rewrite firstn_map, (map_firstn_split K _ (fun e => snd e) (S (length a)) es).
      rewrite (inner_total K HO _ (fun e : T * T => fst e) (fun e : T * T => snd e)), Hf.
      unfold WMean, waverage, TotalWeight.
      change (fun e : T * T => snd e) with (@snd T T).
      assert (E' : forall x y, x = y -> div K x (total K snd (a ++ [v])) = div K y (total K snd (a ++ [v]))) by (intros; subst; reflexivity).
      apply E'. rewrite (total_ext K (fun e : T * T => mul K (fst e) (snd e)) (fun p => mul K (snd p) (fst p))) by (intros; ring).
      ring.
  - right. split; [reflexivity|]. split; [reflexivity|]. rewrite (total_map K).
    exact (HWq es [] (eq_sym (app_nil_r es))).
Qed.

Lemma wvm_run (k d : nat) (dA : T) (dV : T + list T) (ops : list (tail_op T (T + list T))) (hist : list (T * T * list T)) :
  (0 < k)%nat -> pushes ops = map (fun e => (fst (fst e), [inl (snd (fst e)); inr (snd e)])) hist ->
  Forall (fun e => length (snd e) = d) hist ->
  let wtot := total K (fun e => snd (fst e)) hist in
  exists s tl ws tv, tail_run H pr (tail_init k 2 dA dV) ops = Ok s /\ tail_result H pr s = Ok tl /\
    tail_variate_result H pr s 0 = Ok (map inl ws) /\ tail_variate_result H pr s 1 = Ok (map inr tv) /\
  forall p, let thr := mul K wtot (level K lr p) in ltb K (zero K) thr = true ->
    (ltb K (total K (fun x => x) ws) thr = false ->
      exists a v, ReachesAt K (fun x y => pr (fst (fst x)) (fst (fst y))) (fun e => snd (fst e)) hist thr a v /\
      (exists ms, (forall fuel, (k < fuel)%nat ->
          weighted_tail_variate_means_result K lr fuel false wtot tl ws tv p = Some (Ok ms)) /\ length ms = d /\
        forall i, (i < d)%nat -> nth i ms (zero K) =
          div K (total K (fun e => mul K (nth i (snd e) (zero K)) (snd (fst e))) (a ++ [v]))
                (total K (fun e => snd (fst e)) (a ++ [v]))) /\
      (total K (fun e => mul K (fst (fst e)) (snd (fst e))) (a ++ [v]) <> zero K ->
       exists ms, (forall fuel, (k < fuel)%nat ->
          weighted_tail_variate_means_result K lr fuel true wtot tl ws tv p = Some (Ok ms)) /\ length ms = d /\
        forall i, (i < d)%nat -> nth i ms (zero K) =
          div K (total K (fun e => mul K (nth i (snd e) (zero K)) (snd (fst e))) (a ++ [v]))
                (total K (fun e => mul K (fst (fst e)) (snd (fst e))) (a ++ [v])))) /\
    ((forall n, ltb K (total K (fun x => x) (firstn n ws)) thr = true) ->
      forall fuel relative, weighted_tail_variate_means_result K lr fuel relative wtot tl ws tv p = None).
Proof.
  intros Hk HE Hd wtot.
  assert (HW : WellFormed 2 ops).
  { unfold WellFormed. rewrite HE, Forall_map. apply Forall_forall. reflexivity. }
  destruct (run_entries (T + list T) (T * T * list T) (fun e => (fst (fst e), [inl (snd (fst e)); inr (snd e)])) k 2 dA dV ops hist Hk HW HE)
    as (s & es & E1 & HT & E2 & E3).
  destruct (E3 0%nat ltac:(lia)) as (w0 & E4 & E5).
  apply (vals_map _ _ w0 (fun e => inl (snd (fst e)))) in E5; [|reflexivity].
  destruct (E3 1%nat ltac:(lia)) as (v0 & E6 & E7).
  apply (vals_map _ _ v0 (fun e => inr (snd e))) in E7; [|reflexivity].
  exists s, (map (fun e => fst (fst e)) es), (map (fun e => snd (fst e)) es), (map (fun e => snd e) es).
  split; [exact E1|]. split; [exact E2|]. rewrite !map_map, E4, E6, E5, E7. split; [reflexivity|]. split; [reflexivity|].
  intros p thr Hthr.
  assert (Hles : (length es <= k)%nat) by (destruct HT as [-> _]; lia).
  split.
  - intros Hreach. rewrite (total_map K) in Hreach.
    destruct (wvariate_ok K HO lr _ (fun e => fst (fst e)) k hist es HT (fun e => snd e) d Hd (fun e => snd (fst e)) wtot p Hthr Hreach)
      as (a & v & HR & HM). exists a, v. split; [exact HR|]. split.
    + destruct (HM false ltac:(discriminate)) as (ms & M1 & M2 & M3). exists ms. split; [|split; [exact M2|exact M3]].
      intros fuel Hf. apply M1. lia.
    + intros Hne.
      destruct (HM true (fun _ => Hne)) as (ms & M1 & M2 & M3). exists ms. split; [|split; [exact M2|exact M3]].
      intros fuel Hf. apply M1. lia.
  - intros Hno fuel relative.
    apply (wvariate_diverges K HO lr _ (fun e => fst (fst e)) k hist es HT (fun e => snd e) (fun e => snd (fst e)) relative wtot p Hthr).
    intros a b ->. specialize (Hno (length a)). rewrite map_app, firstn_app in Hno.
    rewrite map_length, Nat.sub_diag, <- (map_length (fun e : T * T * list T => snd (fst e)) a), firstn_all in Hno. cbn in Hno. rewrite app_nil_r in Hno.
    rewrite (total_map K) in Hno. exact Hno.
Qed.
End Num.


(** the left coherent tail mean exceeds the documented value by (quantile / count) *)
Section LeftMean.
Variable K : Num.
Hypothesis HO : OrderedLaws K.
Add Field KfieldLeft : (fl_field K (ord_field K HO)).
Lemma ctm_left_run (H : HeapOps) (HC : HeapContract H)
  (ceil : car K -> nat) (HCeil : CeilSpec K ceil) (k : nat) (dA : car K) (dV : unit) (ops : list (tail_op (car K) unit)) :
  (0 < k)%nat -> WellFormed 0 ops ->
  exists s tl, tail_run H (tail_pred K Left) (tail_init k 0 dA dV) ops = Ok s /\ tail_result H (tail_pred K Left) s = Ok tl /\
  let xs := map fst (pushes ops) in
  forall p r, in01 K p -> IsCeil K (mul K (ofnat K (length xs)) p) r ->
    (r < Nat.min k (length xs))%nat ->
       exists a q, MostExtreme (tail_pred K Left) xs r a /\ OrderStat (tail_pred K Left) xs r q /\
         coherent_tail_mean_result K ceil Left (length xs) tl p
         = Ok (add K (add K (Mean K a) (mul K (div K q (ofnat K r)) (sub K p (div K (ofnat K r) (ofnat K (length xs))))))
                   (div K q (ofnat K (length xs)))).
Proof.
  intros Hk HW. destruct (ctm_run K HO H HC Left ceil HCeil k dA dV ops Hk HW) as (s & tl & E1 & E2 & E3).
  exists s, tl. split; [exact E1|]. split; [exact E2|]. intros xs p r Hp HI Hr.
  destruct (E3 p r Hp HI Hr) as (a & q & HM & HQ & HR). exists a, q. split; [exact HM|]. split; [exact HQ|].
  cbn zeta in HR. fold xs in HR. rewrite HR. f_equal.
  assert (Hr1 := r_pos K HO Left (length xs) p r ltac:(lia) (in01_level K HO Left p Hp) HI).
  field. split; [destruct xs|destruct r]; [cbn in Hr; lia | | lia |]; apply (ofnat_S_neq0 K (ord_field K HO)).
Qed.
End LeftMean.

(** ** Witnesses over the rationals *)
Definition ex_ops : list (tail_op Qc unit) :=
  [TPush (Q2Qc 3) []; TPush (Q2Qc 1) []; TExtract; TPush (Q2Qc 4) []; TPush (Q2Qc 2) []; TExtract].
Definition ex_state (lr : side) (k : nat) : outcome (tail_state Qc unit) :=
  tail_run sorting_heap (tail_pred QcN lr) (tail_init k 0 (Q2Qc 0) tt) ex_ops.
Definition obind {A B} (o : outcome A) (f : A -> outcome B) : outcome B :=
  match o with Ok a => f a | NotANumber => NotANumber | UB => UB end.
Definition ex_with {B} lr k (f : list Qc -> outcome B) : outcome B :=
  obind (ex_state lr k) (fun s => obind (tail_result sorting_heap (tail_pred QcN lr) s) f).
Definition shown (o : outcome Qc) : outcome Q := obind o (fun x => Ok (this x)).
Definition shownl (o : outcome (list Qc)) : outcome (list Q) := obind o (fun x => Ok (map this x)).

Lemma ex_tail_right : shownl (ex_with Right 3 (fun t => Ok t)) = Ok [4#1; 3#1; 2#1].
Proof. vm_compute. reflexivity. Qed.
Lemma ex_wf : WellFormed 0 ex_ops.
Proof. repeat constructor. Qed.
Lemma ex_half : in01 QcN (Q2Qc (1#2)).
Proof. split; reflexivity. Qed.
Lemma ex_ceil : IsCeil QcN (mul QcN (ofnat QcN 4) (Q2Qc (1#2))) 2.
Proof.
  assert (E : Qc_ceil (mul QcN (ofnat QcN 4) (Q2Qc (1#2))) = 2%nat) by (vm_compute; reflexivity).
  rewrite <- E. apply Qc_ceil_spec.
Qed.
Lemma ex_quantile : shown (ex_with Left 3 (fun t => tail_quantile_result QcN Qc_ceil Left 4 t (Q2Qc (1#2)))) = Ok (2#1).
Proof. vm_compute. reflexivity. Qed.
Lemma ex_exact_cache :
  exists (k r : nat) (ops : list (tail_op Qc unit)) (p : Qc) s tl,
    (0 < k)%nat /\ WellFormed 0 ops /\ in01 QcN p /\
    tail_run sorting_heap (tail_pred QcN Left) (tail_init k 0 (Q2Qc 0) tt) ops = Ok s /\
    tail_result sorting_heap (tail_pred QcN Left) s = Ok tl /\
    let n := length (pushes ops) in
    IsCeil QcN (mul QcN (ofnat QcN n) p) r /\ (r <= Nat.min k n)%nat /\ length tl = r /\
    tail_quantile_result QcN Qc_ceil Left n tl p = NotANumber.
Proof.
  destruct (quantile_run QcN QcN_ordered sorting_heap sorting_heap_ok Left Qc_ceil Qc_ceil_spec 2 (Q2Qc 0) tt ex_ops ltac:(lia) ex_wf)
    as (s & tl & E1 & E2 & E3).
  destruct (E3 (Q2Qc (1#2)) 2%nat ex_half ex_ceil) as [_ E4].
  exists 2%nat, 2%nat, ex_ops, (Q2Qc (1#2)), s, tl.
  split; [lia|]. split; [exact ex_wf|]. split; [exact ex_half|]. split; [exact E1|]. split; [exact E2|].
  split; [exact ex_ceil|]. split; [reflexivity|]. split; [|apply E4; reflexivity].
  destruct (tail_samples_spec sorting_heap sorting_heap_ok Qc unit (tail_pred QcN Left) (pred_sw QcN QcN_ordered Left) 2 0 (Q2Qc 0) tt ex_ops ltac:(lia) ex_wf)
    as (s' & t' & F1 & F2 & F3). assert (G1 := eq_trans (eq_sym E1) F1). injection G1 as <-. assert (G2 := eq_trans (eq_sym E2) F2). injection G2 as <-.
  apply F3.
Qed.
Lemma ex_level0 : shown (ex_with Left 3 (fun t => tail_quantile_result QcN Qc_ceil Left 4 t (Q2Qc 0))) = UB.
Proof. vm_compute. reflexivity. Qed.
Lemma ex_nctm : shown (ex_with Right 3 (fun t => non_coherent_tail_mean_result QcN Qc_ceil Right 4 t (Q2Qc (1#2)))) = Ok (7#2).
Proof. vm_compute. reflexivity. Qed.
Lemma ex_ctm_left : shown (ex_with Left 3 (fun t => coherent_tail_mean_result QcN Qc_ceil Left 4 t (Q2Qc (1#2)))) = Ok (2#1).
Proof. vm_compute. reflexivity. Qed.

Definition ex_vops : list (tail_op Qc (list Qc)) :=
  [TPush (Q2Qc 3) [[Q2Qc 1; Q2Qc 2]]; TPush (Q2Qc 1) [[Q2Qc 5; Q2Qc (-4)]]; TPush (Q2Qc 5) [[Q2Qc 2; Q2Qc 3]]].
Definition ex_vhist : list (Qc * list Qc) := [(Q2Qc 3, [Q2Qc 1; Q2Qc 2]); (Q2Qc 1, [Q2Qc 5; Q2Qc (-4)]); (Q2Qc 5, [Q2Qc 2; Q2Qc 3])].
Lemma ex_vhist_ok : pushes ex_vops = map (fun e => (fst e, [snd e])) ex_vhist /\ Forall (fun e => length (snd e) = 2%nat) ex_vhist.
Proof. split; [reflexivity|repeat constructor]. Qed.
Definition ex_vwith {B} lr k (f : list Qc -> list (list Qc) -> outcome B) : outcome B :=
  obind (tail_run sorting_heap (tail_pred QcN lr) (tail_init k 1 (Q2Qc 0) []) ex_vops) (fun s =>
   obind (tail_result sorting_heap (tail_pred QcN lr) s) (fun tl =>
   obind (tail_variate_result sorting_heap (tail_pred QcN lr) s 0) (f tl))).
Lemma ex_variates : obind (ex_vwith Right 2 (fun _ tv => Ok tv)) (fun tv => Ok (map (map this) tv)) = Ok [[2#1;3#1]; [1#1;2#1]].
Proof. vm_compute. reflexivity. Qed.
Lemma ex_tvm : shownl (ex_vwith Right 3 (fun tl tv => tail_variate_means_result QcN Qc_ceil Right true 3 tl tv (Q2Qc (1#3)))) = Ok [3#8; 5#8].
Proof. vm_compute. reflexivity. Qed.

Definition ex_whist : list (Qc * Qc) := [(Q2Qc 3, Q2Qc 1); (Q2Qc 1, Q2Qc (1#2)); (Q2Qc 5, Q2Qc 1)].
Definition ex_wops : list (tail_op Qc Qc) := map (fun e => TPush (fst e) [snd e]) ex_whist.
Lemma ex_wops_ok : pushes ex_wops = map (fun e => (fst e, [snd e])) ex_whist.
Proof. reflexivity. Qed.
Definition ex_wwith {B} lr k (f : list Qc -> list Qc -> outcome B) : outcome B :=
  obind (tail_run sorting_heap (tail_pred QcN lr) (tail_init k 1 (Q2Qc 0) (Q2Qc 0)) ex_wops) (fun s =>
   obind (tail_result sorting_heap (tail_pred QcN lr) s) (fun tl =>
   obind (tail_variate_result sorting_heap (tail_pred QcN lr) s 0) (f tl))).
Lemma ex_wq : shown (ex_wwith Right 3 (fun tl ws => weighted_tail_quantile_result QcN Right (TotalWeight QcN ex_whist) tl ws (Q2Qc (1#2)))) = Ok (3#1).
Proof. vm_compute. reflexivity. Qed.
Lemma ex_wq0 : shown (ex_wwith Right 3 (fun tl ws => weighted_tail_quantile_result QcN Right (TotalWeight QcN ex_whist) tl ws (Q2Qc 1))) = UB.
Proof. vm_compute. reflexivity. Qed.

Definition ex_w3 : list (Qc * Qc * list Qc) := [(Q2Qc 3, Q2Qc 1, [Q2Qc 7]); (Q2Qc 1, Q2Qc 1, [Q2Qc 8])].
Definition ex_w3ops : list (tail_op Qc (Qc + list Qc)) := map (fun e => TPush (fst (fst e)) [inl (snd (fst e)); inr (snd e)]) ex_w3.
Lemma ex_w3_ok : pushes ex_w3ops = map (fun e => (fst (fst e), [inl (snd (fst e)); inr (snd e)])) ex_w3 /\
  Forall (fun e => length (snd e) = 1%nat) ex_w3.
Proof. split; [reflexivity|repeat constructor]. Qed.
Lemma ex_diverge :
  exists (k : nat) (ops : list (tail_op Qc (Qc + list Qc))) (hist : list (Qc * Qc * list Qc)) (p : Qc) s tl ws tv,
    (0 < k)%nat /\ pushes ops = map (fun e => (fst (fst e), [inl (snd (fst e)); inr (snd e)])) hist /\ in01 QcN p /\
    tail_run sorting_heap (tail_pred QcN Left) (tail_init k 2 (Q2Qc 0) (inl (Q2Qc 0))) ops = Ok s /\
    tail_result sorting_heap (tail_pred QcN Left) s = Ok tl /\
    tail_variate_result sorting_heap (tail_pred QcN Left) s 0 = Ok (map inl ws) /\
    tail_variate_result sorting_heap (tail_pred QcN Left) s 1 = Ok (map inr tv) /\
    forall fuel relative,
      weighted_tail_variate_means_result QcN Left fuel relative (total QcN (fun e => snd (fst e)) hist) tl ws tv p = None.
Proof.
  destruct (wvm_run QcN QcN_ordered sorting_heap sorting_heap_ok Left 1 1 (Q2Qc 0) (inl (Q2Qc 0)) ex_w3ops ex_w3
     ltac:(lia) (proj1 ex_w3_ok) (proj2 ex_w3_ok)) as (s & tl & ws & tv & E1 & E2 & E3 & E4 & E5).
  exists 1%nat, ex_w3ops, ex_w3, (Q2Qc (3#4)), s, tl, ws, tv.
  split; [lia|]. split; [reflexivity|]. split; [split; reflexivity|].
  split; [exact E1|]. split; [exact E2|]. split; [exact E3|]. split; [exact E4|].
  destruct (E5 (Q2Qc (3#4))) as [_ E6]; [reflexivity|]. apply E6.
  assert (Hws : ws = [Q2Qc 1]).
  { set (g := fun o : outcome (tail_state Qc (Qc + list Qc)) => obind o
      (fun s => obind (tail_variate_result sorting_heap (tail_pred QcN Left) s 0)
         (fun l => Ok (map (fun v => match v with inl x => this x | inr _ => 0%Q end) l)))).
    assert (F : g (tail_run sorting_heap (tail_pred QcN Left) (tail_init 1 2 (Q2Qc 0) (inl (Q2Qc 0))) ex_w3ops) = Ok [1#1]%Q) by (vm_compute; reflexivity).
    assert (F2 := eq_trans (eq_sym (f_equal g E1)) F).
    assert (F3 := f_equal (fun o => obind o (fun l => Ok (map (fun v => match v with inl x => this x | inr _ => 0%Q end) l))) E3).
    assert (F4 := eq_trans (eq_sym F3) F2).
    cbn [obind] in F4. clear F. injection F4 as F. rewrite map_map in F.
    destruct ws as [|w [|w' ws]]; try discriminate. injection F as F. f_equal. apply Qc_is_canon. rewrite F. reflexivity. }
  subst ws. intros [|[|n]]; vm_compute; reflexivity.
Qed.
Lemma ex_quantile_all : shown (ex_with Left 3 (fun t => tail_quantile_result QcN Qc_ceil Left 4 t (Q2Qc (1#2)))) = Ok (2#1)
  /\ WellFormed 0 ex_ops /\ in01 QcN (Q2Qc (1#2)) /\ IsCeil QcN (mul QcN (ofnat QcN 4) (Q2Qc (1#2))) 2.
Proof. exact (conj ex_quantile (conj ex_wf (conj ex_half ex_ceil))). Qed.
Lemma ex_tvm_all : shownl (ex_vwith Right 3 (fun tl tv => tail_variate_means_result QcN Qc_ceil Right true 3 tl tv (Q2Qc (1#3)))) = Ok [3#8; 5#8]
  /\ pushes ex_vops = map (fun e => (fst e, [snd e])) ex_vhist /\ Forall (fun e => length (snd e) = 2%nat) ex_vhist.
Proof. exact (conj ex_tvm ex_vhist_ok). Qed.
Lemma ex_wq_all : shown (ex_wwith Right 3 (fun tl ws => weighted_tail_quantile_result QcN Right (TotalWeight QcN ex_whist) tl ws (Q2Qc (1#2)))) = Ok (3#1)
  /\ pushes ex_wops = map (fun e => (fst e, [snd e])) ex_whist.
Proof. exact (conj ex_wq ex_wops_ok). Qed.
Lemma ex_antisym : StrictWeak (tail_pred QcN Right) /\
  forall a b, tail_pred QcN Right a b = false -> tail_pred QcN Right b a = false -> a = b.
Proof. split; [exact (pred_sw QcN QcN_ordered Right)|exact (pred_antisym QcN QcN_ordered Right)]. Qed.
Lemma twice : forall (H : HeapOps) (A V : Type) (pred : A -> A -> bool) (s s' : tail_state A V),
  tail_run H pred s [TExtract] = Ok s' ->
  tail_result H pred s' = tail_result H pred s /\
  forall j, tail_variate_result H pred s' j = tail_variate_result H pred s j.
Proof.
  intros H A V pred s s' E. cbn in E. injection E as <-. unfold tail_result, tail_variate_result, tail_sort.
  destruct (tl_sorted s) eqn:Es; cbn; rewrite ?Es; auto.
Qed.
Section Level0.
Variable K : Num.
Hypothesis HO : OrderedLaws K.
Add Field KfieldW0 : (fl_field K (ord_field K HO)).
Lemma wquantile_level0 (lr : side) (wtot : car K) (tl ws : list (car K)) (p : car K) :
  TailShare K lr p = zero K -> weighted_tail_quantile_result K lr wtot tl ws p = UB.
Proof.
  intros E. unfold weighted_tail_quantile_result. change (tail_level K lr p) with (TailShare K lr p). rewrite E.
  replace (mul K wtot (zero K)) with (zero K) by ring.
  destruct ws; cbn [weight_loop]; rewrite (ord_irrefl K HO); reflexivity.
Qed.
End Level0.

Lemma tail_sides : forall (K : Num), OrderedLaws K -> forall (H : HeapOps), HeapContract H ->
  forall (V : Type) (lr : side) (k nv : nat) (dA : car K) (dV : V) (ops : list (tail_op (car K) V)),
  (0 < k)%nat -> WellFormed nv ops ->
  exists s t, tail_run H (tail_pred K lr) (tail_init k nv dA dV) ops = Ok s /\
    tail_result H (tail_pred K lr) s = Ok t /\ IsTail (MoreExtreme K lr) k (map fst (pushes ops)) t.
Proof.
  intros K HO H HC V lr k nv dA dV ops Hk HW.
  exact (tail_samples_spec H HC (car K) V (tail_pred K lr) (pred_sw K HO lr) k nv dA dV ops Hk HW).
Qed.
