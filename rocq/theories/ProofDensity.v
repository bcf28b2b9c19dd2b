(** Proofs about histograms. *)
From Coq Require Import List Arith Bool Lia Field Permutation.
From Verif Require Import Num NumFacts ModelMinMax ModelRolling ModelDensity SpecStats SpecDensity ProofMinMax ProofBasic ProofRolling ProofRollingBuf SpecTail ProofOrder.
Import ListNotations.

Section Dens.
Variable K : Num.
Hypothesis HO : OrderedLaws K.
Let HK : FieldLaws K := ord_field K HO.
Local Notation T := (car K).
Local Notation "0" := (zero K) : num_scope.
Local Notation "1" := (one K) : num_scope.
Local Notation "x + y" := (add K x y) : num_scope.
Local Notation "x - y" := (sub K x y) : num_scope.
Local Notation "x * y" := (mul K x y) : num_scope.
Local Notation "x / y" := (div K x y) : num_scope.
Local Notation "x < y" := (klt K x y) : num_scope.
Local Notation "x <= y" := (kle K x y) : num_scope.
Local Notation "# n" := (ofnat K n) (at level 2) : num_scope.
Local Open Scope num_scope.
Add Field KfieldD : (fl_field K HK).

(** ** Bins *)
Lemma bin_mono m M b i j : m <= M -> (1 <= b)%nat -> (i <= j)%nat -> BinPosition K m M b i <= BinPosition K m M b j.
Proof.
  intros Hm Hb Hij. unfold BinPosition.
  assert (Hs : 0 <= (M - m) / #b).
  { apply (kdiv_nonneg K HO); [apply (ksub_nonneg K HO); exact Hm|]. destruct b; [lia|apply (kofnat_pos K HO)]. }
  apply (ksub_nonneg K HO).
  replace (m + (#j - 1) * ((M - m) / #b) - (m + (#i - 1) * ((M - m) / #b))) with ((#j - #i) * ((M - m) / #b)) by ring.
  apply (kmul_nonneg K HO); [|exact Hs]. apply (ksub_nonneg K HO). apply (kofnat_le K HO). exact Hij.
Qed.
Lemma bin_strict m M b i j : m < M -> (1 <= b)%nat -> (i < j)%nat -> BinPosition K m M b i < BinPosition K m M b j.
Proof.
  intros Hm Hb Hij. unfold BinPosition.
  assert (Hs : 0 < (M - m) / #b).
  { apply (kdiv_pos K HO); [apply (ksub_pos K HO); exact Hm|]. destruct b; [lia|apply (kofnat_pos K HO)]. }
  apply (ksub_pos K HO).
  replace (m + (#j - 1) * ((M - m) / #b) - (m + (#i - 1) * ((M - m) / #b))) with ((#j - #i) * ((M - m) / #b)) by ring.
  apply (kmul_pos K HO); [|exact Hs]. apply (ksub_pos K HO). apply (kofnat_lt K HO). exact Hij.
Qed.
Lemma bin_first m M b : BinPosition K m M b 1 = m.
Proof. unfold BinPosition. rewrite (ofnat_1 K HK). ring. Qed.
Lemma bin_last m M b : (1 <= b)%nat -> BinPosition K m M b (b + 1) = M.
Proof.
  intros Hb. unfold BinPosition. rewrite (ofnat_add K HK), (ofnat_1 K HK). field.
  destruct b; [lia|]. apply (ofnat_S_neq0 K HK).
Qed.
Lemma InBin_iff m M b i x : InBin K m M b i x = true <->
  (i = 0%nat \/ BinPosition K m M b i <= x) /\ (i = (b + 1)%nat \/ x < BinPosition K m M b (i + 1)).
Proof.
  unfold InBin. rewrite andb_true_iff, !orb_true_iff, !Nat.eqb_eq. rewrite leb_kle. reflexivity.
Qed.
Lemma InBin_unique m M b x i j : m <= M -> (1 <= b)%nat -> (i <= b + 1)%nat -> (j <= b + 1)%nat ->
  InBin K m M b i x = true -> InBin K m M b j x = true -> i = j.
Proof.
  intros Hm Hb Hi Hj HI HJ. apply InBin_iff in HI, HJ.
  assert (G : forall i j, (i <= b + 1)%nat -> (j <= b + 1)%nat -> (i < j)%nat ->
    (i = (b + 1)%nat \/ x < BinPosition K m M b (i + 1)) -> (j = 0%nat \/ BinPosition K m M b j <= x) -> False).
  { intros i' j' Hi' Hj' Hij [C|H1] [C'|H2]; try lia.
    apply (klt_irrefl K HO x). eapply (klt_le_trans K HO); [exact H1|].
    eapply (kle_trans K HO); [|exact H2]. apply bin_mono; auto; lia. }
  destruct (lt_eq_lt_dec i j) as [[C|C]|C]; [|exact C|]; exfalso.
  - apply (G i j Hi Hj C); tauto.
  - apply (G j i Hj Hi C); tauto.
Qed.

Lemma upper_bound_spec f x n a : exists k, upper_bound K (map f (seq a n)) x = k /\ (k <= n)%nat /\
  (forall i, (i < k)%nat -> f (a + i)%nat <= x) /\ ((k < n)%nat -> x < f (a + k)%nat).
Proof.
  revert a. induction n as [|n IH]; intros a; cbn [seq map upper_bound].
  - exists 0%nat. repeat split; try lia.
  - destruct (ltb K x (f a)) eqn:E.
    + exists 0%nat. repeat split; try lia. intros _. rewrite Nat.add_0_r. exact E.
    + destruct (IH (S a)) as (k & -> & Hk & H1 & H2). exists (S k). repeat split; try lia.
      * intros [|i] Hi; [rewrite Nat.add_0_r; exact E|]. rewrite <- plus_n_Sm. apply (H1 i). lia.
      * intros Hk'. rewrite <- plus_n_Sm. apply H2. lia.
Qed.
Lemma nth_error_map_seq {B} (f : nat -> B) n i : (i < n)%nat -> nth_error (map f (seq 0 n)) i = Some (f i).
Proof.
  intros Hi. rewrite nth_error_map. rewrite (nth_error_nth' _ 0%nat) by (rewrite seq_length; exact Hi).
  cbn. rewrite seq_nth by exact Hi. reflexivity.
Qed.
Lemma bin_index_spec m M b x : m <= M -> (1 <= b)%nat ->
  exists i, bin_index K b (bin_positions K b m M) x = Ok i /\ (i <= b + 1)%nat /\ InBin K m M b i x = true.
Proof.
  intros Hm Hb. unfold bin_index, bin_positions. fold (BinPosition K m M b).
  change (fun i : nat => m + (#i - 1) * ((M - m) / #b)) with (BinPosition K m M b).
  rewrite !nth_error_map_seq by lia.
  destruct (ltb K x (BinPosition K m M b 1)) eqn:E1.
  { exists 0%nat. split; [reflexivity|]. split; [lia|]. apply InBin_iff. split; [left; reflexivity|right; exact E1]. }
  destruct (leb K (BinPosition K m M b (b + 1)) x) eqn:E2.
  { exists (b + 1)%nat. split; [reflexivity|]. split; [lia|]. apply InBin_iff.
    split; [right; apply leb_kle; exact E2|left; reflexivity]. }
  destruct (upper_bound_spec (BinPosition K m M b) x (b + 2) 0) as (k & -> & Hk & H1 & H2).
  assert (E2' : x < BinPosition K m M b (b + 1)).
  { apply (knot_le K). intros C. apply leb_kle in C. congruence. }
  assert (Hkb : (k < b + 2)%nat).
  { destruct (Nat.lt_ge_cases k (b + 2)) as [C|C]; [exact C|]. exfalso.
    specialize (H1 (b + 1)%nat ltac:(lia)). apply (knot_lt K) in H1. contradiction. }
  destruct k as [|k].
  { exfalso. specialize (H2 ltac:(lia)). cbn in H2. apply (klt_irrefl K HO x).
    eapply (klt_le_trans K HO); [exact H2|]. eapply (kle_trans K HO); [|exact E1]. apply bin_mono; auto. }
  exists k. split; [reflexivity|]. split; [lia|]. apply InBin_iff. split.
  - right. apply (H1 k). lia.
  - right. rewrite Nat.add_1_r. apply H2. exact Hkb.
Qed.

Lemma set_nth_map_seq {B} (g : nat -> B) n i v : (i < n)%nat ->
  set_nth i v (map g (seq 0 n)) = map (fun j => if Nat.eqb i j then v else g j) (seq 0 n).
Proof.
  intros Hi. apply nth_ext with (d := v) (d' := v).
  - rewrite set_nth_length, !map_length. reflexivity.
  - intros j Hj. rewrite set_nth_length, map_length, seq_length in Hj.
    rewrite nth_set_nth by (rewrite map_length, seq_length; exact Hi).
    assert (H : forall (h : nat -> B), nth j (map h (seq 0 n)) v = h j).
    { intros h. apply nth_error_nth. apply nth_error_map_seq. exact Hj. }
    rewrite !H. reflexivity.
Qed.

Section Entries.
Variable E : Type.
Variable val amt : E -> T.
Variable den : nat -> T -> T.
Variable lo hi : T.
Variable c b : nat.
Hypothesis Hc : (1 <= c)%nat.
Hypothesis Hb : (1 <= b)%nat.

Definition in_bin m M i (e : E) : bool := InBin K m M b i (val e).
Definition bin_mass m M (es : list E) (i : nat) : T := total K amt (filter (in_bin m M i) es).

Lemma bin_mass_snoc m M es e i :
  bin_mass m M (es ++ [e]) i = if in_bin m M i e then bin_mass m M es i + amt e else bin_mass m M es i.
Proof.
  unfold bin_mass. rewrite filter_app, (total_app K HK). cbn [filter].
  destruct (in_bin m M i e); [rewrite (total_one K HK)|rewrite total_nil]; ring.
Qed.
Lemma bin_add_spec m M es e : m <= M ->
  bin_add K E val amt b (bin_positions K b m M) (map (bin_mass m M es) (seq 0 (b + 2))) e
  = Ok (map (bin_mass m M (es ++ [e])) (seq 0 (b + 2))).
Proof.
  intros Hm. unfold bin_add. destruct (bin_index_spec m M b (val e) Hm Hb) as (i & -> & Hi & HI).
  rewrite nth_error_map_seq by lia. rewrite set_nth_map_seq by lia. f_equal. apply map_ext_in.
  intros j Hj. apply in_seq in Hj. rewrite bin_mass_snoc. unfold in_bin. destruct (Nat.eqb_spec i j) as [->|Hn].
  - rewrite HI. reflexivity.
  - destruct (InBin K m M b j (val e)) eqn:EJ; [|reflexivity].
    exfalso. apply Hn. eapply InBin_unique; eauto. lia.
Qed.
Lemma bin_mass_nil m M : map (bin_mass m M []) (seq 0 (b + 2)) = repeat 0 (b + 2).
Proof.
  assert (G : forall n a, map (bin_mass m M []) (seq a n) = repeat 0 n).
  { induction n as [|n IH]; intros a; cbn [seq map repeat]; [reflexivity|]. rewrite IH. reflexivity. }
  apply G.
Qed.
Lemma bin_add_all_spec m M es : m <= M ->
  bin_add_all K E val amt b (bin_positions K b m M) (repeat 0 (b + 2)) es
  = Ok (map (bin_mass m M es) (seq 0 (b + 2))).
Proof.
  intros Hm. unfold bin_add_all. induction es as [|e es IH] using rev_ind.
  - cbn [fold_left]. rewrite bin_mass_nil. reflexivity.
  - rewrite fold_left_app, IH. cbn [fold_left]. apply bin_add_spec. exact Hm.
Qed.

(** every sample is in exactly one bin *)
Lemma total_indicator (l : list nat) (p : nat -> bool) a i : NoDup l -> In i l -> p i = true ->
  (forall j, In j l -> p j = true -> j = i) -> total K (fun j => if p j then a else 0) l = a.
Proof.
  induction l as [|k l IH]; intros HN Hi Hp Hu; [destruct Hi|].
  inversion_clear HN as [|? ? Hk HN']. rewrite total_cons. destruct Hi as [->|Hi].
  - rewrite Hp. replace (total K (fun j => if p j then a else 0) l) with 0; [ring|].
    symmetry. rewrite (total_ext K _ (fun _ => 0)).
    + rewrite (total_const K HK). ring.
    + intros j Hj. destruct (p j) eqn:Ej; [|reflexivity]. exfalso.
      assert (j = i) by (apply Hu; [right; exact Hj|exact Ej]). subst j. contradiction.
  - rewrite IH; auto; [|intros; apply Hu; auto; right; auto].
    destruct (p k) eqn:Ek; [|ring]. exfalso. assert (k = i) by (apply Hu; [left; reflexivity|exact Ek]). subst k. contradiction.
Qed.
Lemma bins_conserve m M es : m <= M -> total K (bin_mass m M es) (seq 0 (b + 2)) = total K amt es.
Proof.
  intros Hm. induction es as [|e es IH] using rev_ind.
  - rewrite total_nil. rewrite (total_ext K _ (fun _ => 0)) by (intros; reflexivity). rewrite (total_const K HK). ring.
  - rewrite (total_ext K _ (fun i => bin_mass m M es i + (if in_bin m M i e then amt e else 0))).
    2:{ intros i _. rewrite bin_mass_snoc. destruct (in_bin m M i e); ring. }
    rewrite (total_add K HK), IH, (total_snoc K HK). f_equal.
    destruct (bin_index_spec m M b (val e) Hm Hb) as (i & _ & Hi & HI).
    apply total_indicator with i; [apply seq_NoDup|apply in_seq; lia|exact HI|].
    intros j Hj HJ. apply in_seq in Hj. eapply InBin_unique; eauto; lia.
Qed.

(** ** Runs *)
Definition lims := dens_limits K lo hi.
Lemma lims_ok : OrderLaws lims.
Proof. constructor; cbn; [apply (ord_irrefl K HO)|apply (ord_trans K HO)|apply (ord_total K HO)]. Qed.
Definition cmin (es : list E) : T := min_run lims (map val es).
Definition cmax (es : list E) : T := max_run lims (map val es).
Lemma cmin_le_cmax es : es <> [] -> cmin es <= cmax es.
Proof.
  intros Hne. destruct es as [|e es]; [congruence|].
  destruct (min_fold lims lims_ok (map val (e :: es)) (highest lims)) as (_ & _ & H1).
  destruct (max_fold lims lims_ok (map val (e :: es)) (lowest lims)) as (_ & _ & H2).
  specialize (H1 (val e) (or_introl eq_refl)). specialize (H2 (val e) (or_introl eq_refl)).
  apply (kle_trans K HO) with (val e); [exact H1|exact H2].
Qed.

Definition hist_of (es : list E) : list (T * T) :=
  let m := cmin (firstn c es) in let M := cmax (firstn c es) in
  map (fun i => (BinPosition K m M b i, bin_mass m M es i / den (length es) (total K amt es))) (seq 0 (b + 2)).
Record dens_inv (es : list E) (s : dens K E) : Prop := {
  di_count : de_count K E s = length es;
  di_wsum : de_wsum K E s = total K amt es;
  di_min : de_min K E s = cmin es;
  di_max : de_max K E s = cmax es;
  di_cache_len : length (de_cache K E s) = c;
  di_cache : (length es <= c)%nat -> firstn (length es) (de_cache K E s) = es;
  di_before : (length es < c)%nat -> de_bins K E s = repeat 0 (b + 2) /\ de_pos K E s = repeat 0 (b + 2);
  di_after : (c <= length es)%nat ->
    let m := cmin (firstn c es) in let M := cmax (firstn c es) in
    de_pos K E s = bin_positions K b m M /\ de_bins K E s = map (bin_mass m M es) (seq 0 (b + 2));
  di_clean : de_dirty K E s = false ->
    de_hist K E s = map (fun pc => (fst pc, snd pc / den (length es) (total K amt es))) (combine (de_pos K E s) (de_bins K E s))
}.
Lemma set_nth_app {B} (l : list B) x r n v : length l = n -> set_nth n v (l ++ x :: r) = l ++ v :: r.
Proof. intros <-. induction l; cbn; [reflexivity|]. f_equal. exact IHl. Qed.
Lemma cache_step (cache : list E) es e : length cache = c -> (length es < c)%nat -> firstn (length es) cache = es ->
  firstn (length (es ++ [e])) (set_nth (length es) e cache) = es ++ [e].
Proof.
  intros HL Hn HF. rewrite <- (firstn_skipn (length es) cache) at 1. rewrite HF.
  destruct (skipn (length es) cache) as [|x r] eqn:ES.
  - assert (length (skipn (length es) cache) = 0%nat) by (rewrite ES; reflexivity).
    rewrite skipn_length in H. lia.
  - rewrite set_nth_app by reflexivity. change (es ++ e :: r) with (es ++ [e] ++ r). rewrite app_assoc.
    rewrite firstn_app, firstn_all, Nat.sub_diag. cbn [firstn]. apply app_nil_r.
Qed.
Lemma init_inv s0 e0 : dens_inv [] (dens_init K E lo hi c b s0 e0).
Proof.
  constructor; cbn; try reflexivity; intros; try lia; try discriminate; auto; apply repeat_length.
Qed.
Lemma push_inv es s e : dens_inv es s ->
  exists s', dens_push K E val amt lo hi c b s e = Ok s' /\ dens_inv (es ++ [e]) s'.
Proof.
  intros I. destruct I as [I1 I2 I3 I4 I5 I6 I7 I8 I9].
  assert (Hlen : length (es ++ [e]) = S (length es)) by (rewrite app_length; cbn; lia).
  assert (Hmin : min_assign (dens_limits K lo hi) (cmin es) (val e) = cmin (es ++ [e])).
  { unfold cmin, min_run. rewrite map_app, fold_left_app. reflexivity. }
  assert (Hmax : max_assign (dens_limits K lo hi) (cmax es) (val e) = cmax (es ++ [e])).
  { unfold cmax, max_run. rewrite map_app, fold_left_app. reflexivity. }
  unfold dens_push, dens_operate. rewrite I1, I2, I3, I4, Hmin, Hmax.
  assert (Hsub : (S (length es) - 1 = length es)%nat) by lia. rewrite Hsub.
  destruct (lt_eq_lt_dec (S (length es)) c) as [[Hlt|Heq]|Hgt].
  - (* still filling *)
    rewrite (proj2 (Nat.leb_le _ _)) by lia. rewrite (proj2 (Nat.eqb_neq _ _)) by lia.
    rewrite (proj2 (Nat.ltb_ge _ _)) by lia.
    eexists; split; [reflexivity|]. destruct (I7 ltac:(lia)) as [J1 J2].
    constructor; cbn; rewrite ?Hlen; auto; try lia; try discriminate.
    + rewrite (total_snoc K HK). reflexivity.
    + rewrite set_nth_length. exact I5.
    + intros _. rewrite <- Hlen. apply cache_step; auto; [lia|apply I6; lia].
  - (* full now *)
    rewrite (proj2 (Nat.leb_le _ _)) by lia. rewrite (proj2 (Nat.eqb_eq _ _)) by lia.
    destruct (I7 ltac:(lia)) as [J1 J2].
    assert (HC : set_nth (length es) e (de_cache K E s) = es ++ [e]).
    { assert (G := cache_step (de_cache K E s) es e I5 ltac:(lia) (I6 ltac:(lia))).
      rewrite firstn_all2 in G by (rewrite set_nth_length, I5, Hlen; lia). exact G. }
    rewrite HC, J1.
    assert (Hne : es ++ [e] <> []) by (destruct es; discriminate).
    rewrite bin_add_all_spec by (apply cmin_le_cmax; exact Hne).
    eexists; split; [reflexivity|].
    assert (HF : firstn c (es ++ [e]) = es ++ [e]) by (apply firstn_all2; lia).
    constructor; cbn; rewrite ?Hlen, ?HF; auto; try lia; try discriminate.
    + rewrite (total_snoc K HK). reflexivity.
    + intros _. rewrite <- Hlen. apply firstn_all.
  - (* later *)
    rewrite (proj2 (Nat.leb_gt _ _)) by lia. rewrite (proj2 (Nat.eqb_neq _ _)) by lia.
    rewrite (proj2 (Nat.ltb_lt _ _)) by lia.
    destruct (I8 ltac:(lia)) as [J1 J2]. rewrite J1, J2.
    assert (Hne : firstn c es <> []).
    { intros C. assert (length (firstn c es) = 0%nat) by (rewrite C; reflexivity). rewrite firstn_length in H. lia. }
    rewrite bin_add_spec by (apply cmin_le_cmax; exact Hne).
    eexists; split; [reflexivity|].
    assert (HF : firstn c (es ++ [e]) = firstn c es).
    { rewrite firstn_app. replace (c - length es)%nat with 0%nat by lia. cbn [firstn]. apply app_nil_r. }
    constructor; cbn; rewrite ?Hlen, ?HF; auto; try lia; try discriminate.
    rewrite (total_snoc K HK). reflexivity.
Qed.
Lemma extract_inv es s : dens_inv es s -> dens_inv es (dens_extract K E den s).
Proof.
  intros [I1 I2 I3 I4 I5 I6 I7 I8 I9]. unfold dens_extract. destruct (de_dirty K E s) eqn:Ed; constructor; auto.
  cbn. intros _. rewrite I1, I2. reflexivity.
Qed.
Lemma run_inv s0 e0 ops : exists s, dens_run K E val amt den lo hi c b (dens_init K E lo hi c b s0 e0) ops = Ok s
  /\ dens_inv (dens_pushes ops) s.
Proof.
  unfold dens_run. induction ops as [|o ops IH] using rev_ind.
  - eexists. split; [reflexivity|apply init_inv].
  - destruct IH as (s & E1 & I). rewrite fold_left_app, E1. cbn [fold_left dens_step].
    unfold dens_pushes. rewrite flat_map_app. fold (dens_pushes ops). destruct o as [e|]; cbn [flat_map].
    + rewrite app_nil_r. destruct (push_inv _ _ e I) as (s' & E2 & I'). exists s'. auto.
    + rewrite !app_nil_r. eexists; split; [reflexivity|]. apply extract_inv; assumption.
Qed.
Lemma combine_map2 {A B C} (f : A -> B) (g : A -> C) l : combine (map f l) (map g l) = map (fun x => (f x, g x)) l.
Proof. induction l; cbn; [reflexivity|]. f_equal. exact IHl. Qed.
Lemma extract_hist es s : dens_inv es s -> (c <= length es)%nat -> de_hist K E (dens_extract K E den s) = hist_of es.
Proof.
  intros I Hn. assert (I' := extract_inv _ _ I). destruct I' as [J1 J2 _ _ _ _ _ J8 J9].
  rewrite J9. 2:{ unfold dens_extract. destruct (de_dirty K E s) eqn:Ed; [reflexivity|exact Ed]. }
  destruct (J8 Hn) as [-> ->]. unfold bin_positions. rewrite combine_map2, map_map. reflexivity.
Qed.

Definition bounded (l : list T) : Prop := Forall (fun x => lo <= x /\ x <= hi) l.
Lemma cmin_spec es : es <> [] -> bounded (map val es) -> IsMin K (map val es) (cmin es).
Proof.
  intros Hne HB. destruct es as [|e es]; [congruence|].
  apply (min_run_spec lims lims_ok). exists (val e). split; [left; reflexivity|].
  unfold bounded in HB. rewrite Forall_forall in HB. apply (HB (val e)). left; reflexivity.
Qed.
Lemma cmax_spec es : es <> [] -> bounded (map val es) -> IsMax K (map val es) (cmax es).
Proof.
  intros Hne HB. destruct es as [|e es]; [congruence|].
  apply (max_run_spec lims lims_ok). exists (val e). split; [left; reflexivity|].
  unfold bounded in HB. rewrite Forall_forall in HB. apply (HB (val e)). left; reflexivity.
Qed.
Lemma firstn_ne (es : list E) : (c <= length es)%nat -> firstn c es <> [].
Proof. intros Hn C. assert (length (firstn c es) = 0%nat) by (rewrite C; reflexivity). rewrite firstn_length in H. lia. Qed.
Lemma bounded_firstn es : bounded (map val es) -> bounded (map val (firstn c es)).
Proof.
  unfold bounded. rewrite !Forall_forall. intros H x Hx. apply H. rewrite <- firstn_map in Hx.
  rewrite <- (firstn_skipn c (map val es)). apply in_or_app. left; exact Hx.
Qed.

Lemma density_main s0 e0 ops : let es := dens_pushes ops in (c <= length es)%nat -> bounded (map val es) ->
  exists s m M, dens_run K E val amt den lo hi c b (dens_init K E lo hi c b s0 e0) ops = Ok s /\
    IsMin K (map val (firstn c es)) m /\ IsMax K (map val (firstn c es)) M /\ m <= M /\
    dens_result K E den s =
      map (fun i => (BinPosition K m M b i,
                     total K amt (filter (fun e => InBin K m M b i (val e)) es) / den (length es) (total K amt es)))
          (seq 0 (b + 2)).
Proof.
  intros es Hn HB. destruct (run_inv s0 e0 ops) as (s & E1 & I). fold es in I.
  exists s, (cmin (firstn c es)), (cmax (firstn c es)). split; [exact E1|].
  split; [apply cmin_spec; [apply firstn_ne; exact Hn|apply bounded_firstn; exact HB]|].
  split; [apply cmax_spec; [apply firstn_ne; exact Hn|apply bounded_firstn; exact HB]|].
  split; [apply cmin_le_cmax, firstn_ne; exact Hn|].
  exact (extract_hist es s I Hn).
Qed.
Lemma density_before s0 e0 ops : let es := dens_pushes ops in (length es < c)%nat ->
  den (length es) (total K amt es) <> 0 ->
  exists s, dens_run K E val amt den lo hi c b (dens_init K E lo hi c b s0 e0) ops = Ok s /\
    dens_result K E den s = repeat (0, 0) (b + 2).
Proof.
  intros es Hn Hd. destruct (run_inv s0 e0 ops) as (s & E1 & I). fold es in I. exists s. split; [exact E1|].
  unfold dens_result. assert (I' := extract_inv _ _ I). destruct I' as [J1 J2 _ _ _ _ J7 _ J9].
  rewrite J9. 2:{ unfold dens_extract. destruct (de_dirty K E s) eqn:Ed; [reflexivity|exact Ed]. }
  destruct (J7 Hn) as [-> ->]. generalize (b + 2)%nat. induction n as [|n IH]; [reflexivity|].
  cbn [repeat combine map]. rewrite IH. f_equal. cbn. f_equal. field. exact Hd.
Qed.
Lemma fractions_sum es m M : m <= M -> den (length es) (total K amt es) = total K amt es -> total K amt es <> 0 ->
  total K snd (map (fun i => (BinPosition K m M b i,
                     total K amt (filter (fun e => InBin K m M b i (val e)) es) / den (length es) (total K amt es)))
          (seq 0 (b + 2))) = 1.
Proof.
  intros Hm Hd Hne. rewrite (total_map K). cbn [snd]. rewrite Hd.
  rewrite (total_ext K _ (fun i => (1 / total K amt es) * bin_mass m M es i)).
  2:{ intros i _. unfold bin_mass, in_bin. field. exact Hne. }
  rewrite (total_scale K HK), bins_conserve by exact Hm. field. exact Hne.
Qed.
End Entries.
End Dens.
