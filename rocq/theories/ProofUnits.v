(** Weights whose total is at most one never move a marker of the weighted P-square estimators. *)
From Coq Require Import List Arith Bool Lia Field Permutation Sorted.
From Verif Require Import Num NumFacts ModelRolling ModelDensity ModelPSquare SpecStats SpecDensity SpecTail SpecPSquare SpecUnits
  ProofBasic ProofOrder ProofRollingBuf ProofTail ProofPSquare ProofPSquareRun ProofPSquareW ProofPSquareInst.
Import ListNotations.

Section Frozen.
Variable K : Num.
Hypothesis HO : OrderedLaws K.
Let HK : FieldLaws K := ord_field K HO.
Local Notation T := (car K).
Local Notation "0" := (zero K) : num_scope.
Local Notation "1" := (one K) : num_scope.
Local Notation "x + y" := (add K x y) : num_scope.
Local Notation "x - y" := (sub K x y) : num_scope.
Local Notation "x * y" := (mul K x y) : num_scope.
Local Notation "x / y" := (div K x y) : num_scope.
Local Notation "- x" := (opp K x) : num_scope.
Local Notation "# n" := (ofnat K n) (at level 2) : num_scope.
Local Notation "x < y" := (klt K x y) : num_scope.
Local Notation "x <= y" := (kle K x y) : num_scope.
Local Open Scope num_scope.
Add Field KfieldUnits : (fl_field K HK).
Local Notation at_ l i := (nth i l 0).

Definition nonneg (es : list (T * T)) : Prop := Forall (fun e => 0 <= snd e) es.
Lemma total_nonneg (es : list (T * T)) : nonneg es -> 0 <= total K snd es.
Proof.
  induction 1 as [|e es He _ IH]; [apply (kle_refl K HO)|]. rewrite total_cons.
  replace 0 with (0 + 0) by ring. apply (kadd_le2 K HO); assumption.
Qed.
Lemma le_add_nonneg a b w : a <= b -> 0 <= w -> a <= b + w.
Proof. intros H1 H2. replace a with (a + 0) by ring. apply (kadd_le2 K HO); assumption. Qed.

Definition inside (W : T) (p : list T) : Prop := Forall (fun y => 0 <= y /\ y <= W) p.
Lemma inside_at W p i : inside W p -> (i < length p)%nat -> 0 <= at_ p i /\ at_ p i <= W.
Proof. intros H Hi. unfold inside in H. rewrite Forall_forall in H. apply H. apply nth_In. exact Hi. Qed.

Lemma inside_weaken W w p : inside W p -> 0 <= w -> inside (W + w) p.
Proof. intros H Hw. eapply Forall_impl; [|exact H]. intros y [A B]. split; [exact A|]. apply le_add_nonneg; assumption. Qed.
Lemma inside_set W w p : inside W p -> 0 <= w -> w <= W -> inside W (set_nth 0 w p).
Proof. intros H H1 H2. destruct p as [|x p]; [exact H|]. inversion H; subst. constructor; [split; assumption|assumption]. Qed.
Lemma Forall_app_l {A} (P : A -> Prop) l m : Forall P (l ++ m) -> Forall P l /\ Forall P m.
Proof. intros H. apply Forall_app. exact H. Qed.
Lemma inside_bump W k w p : inside W p -> 0 <= w -> inside (W + w) (bump K k w p).
Proof.
  intros H Hw. unfold bump. rewrite <- (firstn_skipn k p) in H. apply Forall_app_l in H. destruct H as [H1 H2].
  apply Forall_app. split; [apply inside_weaken; assumption|].
  apply Forall_forall. intros y Hy. apply in_map_iff in Hy. destruct Hy as (x & <- & Hx).
  rewrite Forall_forall in H2. destruct (H2 x Hx) as [A B].
  split; [apply le_add_nonneg; assumption|]. apply (kadd_le K HO). exact B.
Qed.
(** A new minimum: the first position becomes the weight, the others grow by it. *)
Lemma inside_reset W w p : inside W p -> 0 <= W -> 0 <= w -> inside (W + w) (bump K 1 w (set_nth 0 w p)).
Proof.
  intros H HW Hw. destruct p as [|x p]; [constructor|]. inversion H as [|? ? [A B] H']; subst.
  unfold bump. cbn [set_nth firstn skipn app]. constructor.
  - split; [exact Hw|]. replace (W + w) with (w + W) by ring. apply le_add_nonneg; [apply (kle_refl K HO)|exact HW].
  - apply Forall_forall. intros y Hy. apply in_map_iff in Hy. destruct Hy as (z & <- & Hz).
    rewrite Forall_forall in H'. destruct (H' z Hz) as [C D].
    split; [apply le_add_nonneg; assumption|]. apply (kadd_le K HO). exact D.
Qed.

Lemma inside_cumulate_from c : forall a W l, Forall (fun y => 0 <= y) l -> 0 <= a -> a + total K (fun x => x) l <= W ->
  inside W (cumulate_from K a c l).
Proof.
  assert (TN : forall l : list T, Forall (fun y => 0 <= y) l -> 0 <= total K (fun x => x) l).
  { induction 1 as [|x l Hx _ IH]; [apply (kle_refl K HO)|]. rewrite total_cons. apply le_add_nonneg; [exact Hx|exact IH]. }
  assert (G : forall a W (l : list T), Forall (fun y => 0 <= y) l -> 0 <= a -> a + total K (fun x => x) l <= W -> inside W l).
  { intros a W l H. revert a W. induction H as [|x l Hx H IH]; intros a W Ha HW; [constructor|].
    rewrite total_cons in HW. constructor.
    - split; [exact Hx|]. apply (kle_trans K HO) with (a + (x + total K (fun y => y) l)); [|exact HW].
      replace (a + (x + total K (fun y => y) l)) with (x + (a + total K (fun y => y) l)) by ring.
      apply le_add_nonneg; [apply (kle_refl K HO)|]. apply le_add_nonneg; [exact Ha|apply TN; exact H].
    - apply (IH (a + x)); [apply le_add_nonneg; assumption|]. replace (a + x + total K (fun y => y) l) with (a + (x + total K (fun y => y) l)) by ring. exact HW. }
  induction c as [|c IH]; intros a W l H Ha HW; [destruct l; apply (G a); assumption|].
  destruct l as [|x l]; [constructor|]. cbn [cumulate_from]. inversion H; subst. rewrite total_cons in HW.
  assert (E : x + a + total K (fun y => y) l <= W).
  { replace (x + a + total K (fun y => y) l) with (a + (x + total K (fun y => y) l)) by ring. exact HW. }
  assert (P : 0 <= x + a) by (apply le_add_nonneg; assumption).
  constructor; [split; [exact P|]|apply IH; assumption].
  apply (kle_trans K HO) with (x + a + total K (fun y => y) l); [|exact E]. apply le_add_nonneg; [apply (kle_refl K HO)|apply TN; assumption].
Qed.
Lemma inside_cumulate c W l : Forall (fun y => 0 <= y) l -> total K (fun x => x) l <= W -> inside W (cumulate K c l).
Proof.
  intros H HW. destruct l as [|x l]; [constructor|]. inversion H as [|? ? Hx Hl]; subst. rewrite total_cons in HW. cbn [cumulate].
  assert (A := inside_cumulate_from 0 0 W (x :: l) H (kle_refl K HO 0)). rewrite total_cons in A.
  assert (B : 0 + (x + total K (fun y => y) l) <= W) by (replace (0 + (x + total K (fun y => y) l)) with (x + total K (fun y => y) l) by ring; exact HW).
  specialize (A B). cbn in A. inversion A; subst. constructor; [assumption|].
  apply inside_cumulate_from; [exact Hl|exact Hx|exact HW].
Qed.

(** No marker moves while all positions are within one of each other. *)
Lemma still_at (M : nat) s i W : W <= 1 -> inside W (mp K s) -> length (mh K s) = M -> length (mp K s) = M -> length (md K s) = M ->
  (1 <= i)%nat -> (S i < M)%nat -> adjust_at K s i = Ok s.
Proof.
  intros HW Hin Lh Lp Ld H1 H2. unfold adjust_at. rewrite !(nth_error_nth0 _ _ 0) by lia.
  destruct (inside_at W _ (i - 1) Hin ltac:(lia)) as [A1 A2].
  destruct (inside_at W _ i Hin ltac:(lia)) as [B1 B2].
  destruct (inside_at W _ (i + 1) Hin ltac:(lia)) as [C1 C2].
  assert (D1 : ltb K 1 (at_ (mp K s) (i + 1) - at_ (mp K s) i) = false).
  { change (at_ (mp K s) (i + 1) - at_ (mp K s) i <= 1). apply (ksub_nonneg K HO).
    replace (1 - (at_ (mp K s) (i + 1) - at_ (mp K s) i)) with ((1 - at_ (mp K s) (i + 1)) + at_ (mp K s) i) by ring.
    apply le_add_nonneg; [apply (ksub_nonneg K HO); apply (kle_trans K HO) with W; assumption|exact B1]. }
  assert (D2 : ltb K (at_ (mp K s) (i - 1) - at_ (mp K s) i) (- (1)) = false).
  { change (- (1) <= at_ (mp K s) (i - 1) - at_ (mp K s) i). apply (ksub_nonneg K HO).
    replace (at_ (mp K s) (i - 1) - at_ (mp K s) i - - (1)) with ((1 - at_ (mp K s) i) + at_ (mp K s) (i - 1)) by ring.
    apply le_add_nonneg; [apply (ksub_nonneg K HO); apply (kle_trans K HO) with W; assumption|exact A1]. }
  rewrite D1, D2, !andb_false_r. reflexivity.
Qed.
Lemma still (M : nat) s W : W <= 1 -> inside W (mp K s) -> length (mh K s) = M -> length (mp K s) = M -> length (md K s) = M ->
  adjust K M s = Ok s.
Proof.
  intros HW Hin Lh Lp Ld. unfold adjust.
  assert (G : forall l, Forall (fun i => (1 <= i)%nat /\ (S i < M)%nat) l ->
    fold_left (fun o i => obnd o (fun s => adjust_at K s i)) l (Ok s) = Ok s).
  { induction 1 as [|i l [A B] _ IH]; [reflexivity|]. cbn [fold_left obnd]. rewrite (still_at M s i W); auto. }
  apply G. apply Forall_forall. intros i Hi. apply in_seq in Hi. lia.
Qed.

Variable M cum : nat.
Variable des : T -> list T -> list T -> outcome (list T).
Variable m0 : marks K.
Hypothesis HM : (2 <= M)%nat.
Hypothesis Lh0 : length (mh K m0) = M.
Hypothesis Lp0 : length (mp K m0) = M.
Hypothesis Ld0 : length (md K m0) = M.
Hypothesis Hdes : forall W p d, length p = M -> length d = M -> exists d', des W p d = Ok d' /\ length d' = M.

Lemma frozen first rest : length first = M -> nonneg (first ++ rest) -> total K snd (first ++ rest) <= 1 ->
  exists s, psq_run K M true cum des m0 (first ++ rest) = Ok s /\
    ps_count K s = length (first ++ rest) /\ ps_wsum K s = total K snd (first ++ rest) /\
    let m := ps_marks K s in
    length (mh K m) = M /\ length (mp K m) = M /\ length (md K m) = M /\ Asc K M (mh K m) /\
    inside (total K snd (first ++ rest)) (mp K m) /\
    forall i, (1 <= i)%nat -> (S i < M)%nat -> at_ (mh K m) i = at_ (map fst (sel_sort K M first)) i.
Proof.
  intros HL. induction rest as [|e rest IH] using rev_ind; intros HN HT.
  - rewrite app_nil_r in *. eexists. split; [eapply (run_init K HO M true cum des m0); eauto|].
    cbn [ps_count ps_wsum ps_marks mh mp md]. split; [reflexivity|]. split; [reflexivity|]. cbv zeta.
    destruct (hinit_spec K HO M true m0 HM Lh0 Lp0 Ld0 first HL) as (A & B & _ & _).
    split; [exact A|]. split; [apply (pinit_length K HO M true cum m0 Lp0); exact HL|]. split; [exact Ld0|]. split; [exact B|].
    split; [|reflexivity]. unfold pinit. apply inside_cumulate.
    + assert (P := proj1 (sel_sort_spec K HO M first HL)). apply Forall_forall. intros y Hy. apply in_map_iff in Hy.
      destruct Hy as (z & <- & Hz). unfold nonneg in HN. rewrite Forall_forall in HN. apply HN.
      apply (Permutation_in z (Permutation_sym P)). exact Hz.
    + assert (P := proj1 (sel_sort_spec K HO M first HL)). rewrite (total_id K snd), <- (total_perm K HO snd _ _ P). apply (kle_refl K HO).
  - rewrite app_assoc in *.
    set (es := first ++ rest) in *.
    assert (HN' : nonneg es /\ nonneg [e]) by (apply Forall_app_l; exact HN). destruct HN' as [HNe HNl].
    assert (He : 0 <= snd e) by (inversion HNl; assumption).
    rewrite (total_snoc K HK) in HT |- *.
    assert (HT' : total K snd es <= 1).
    { apply (kle_trans K HO) with (total K snd es + snd e); [|exact HT]. apply le_add_nonneg; [apply (kle_refl K HO)|exact He]. }
    destruct (IH HNe HT') as (s & E & Hc & Hw & Lh & Lp & Ld & HA & Hin & Hh).
    rewrite (run_snoc K M true cum des m0). unfold run. rewrite E. cbn [obnd]. unfold psq_push, psq_operate. rewrite Hc, Hw.
    assert (LE : (M <= length es)%nat) by (unfold es; rewrite app_length; lia).
    destruct (Nat.leb_spec (S (length es)) M); [lia|].
    set (m := ps_marks K s) in *. unfold msync.
    destruct (locate_spec K HO M (mh K m) (fst e) HM Lh HA) as (h' & k & EL & Lh' & HA' & Hk1 & Hk2 & Hk0 & E0 & EM).
    assert (HI : forall i, (1 <= i)%nat -> (S i < M)%nat -> at_ h' i = at_ (mh K m) i).
    { intros i Hi1 Hi2. unfold locate in EL. rewrite !(nth_error_nth0 (mh K m) _ 0) in EL by lia.
      destruct (ltb K (fst e) (at_ (mh K m) 0)).
      { assert (X : h' = set_nth 0 (fst e) (mh K m)) by congruence. rewrite X, (at_set K) by lia.
        destruct (Nat.eqb_spec 0 i); [lia|reflexivity]. }
      destruct (leb K (at_ (mh K m) (M - 1)) (fst e)).
      { assert (X : h' = set_nth (M - 1) (fst e) (mh K m)) by congruence. rewrite X, (at_set K) by lia.
        destruct (Nat.eqb_spec (M - 1) i); [lia|reflexivity]. }
      congruence. }
    rewrite EL. cbn [obnd fst snd]. rewrite (nth_error_nth0 (mh K m) 0 0) by lia.
    set (p1 := bump K k (snd e) _).
    assert (Hp1 : inside (total K snd es + snd e) p1).
    { unfold p1. destruct (ltb K (fst e) (at_ (mh K m) 0)) eqn:EB; cbn [andb].
      - rewrite (Hk0 EB). apply inside_reset; auto. apply total_nonneg; exact HNe.
      - apply inside_bump; auto. }
    assert (Lp1 : length p1 = M). { unfold p1. rewrite bump_length. destruct (true && _); rewrite ?set_nth_length; exact Lp. }
    destruct (Hdes (total K snd es + snd e) p1 (md K m) Lp1 Ld) as (d' & ED & Ld'). rewrite ED. cbn [obnd].
    rewrite (still M {| mh := h'; mp := p1; md := d' |} (total K snd es + snd e)); cbn [mh mp md]; auto. cbn [obnd].
    eexists. split; [reflexivity|]. cbn [ps_count ps_wsum ps_marks mh mp md].
    split; [rewrite app_length; cbn; lia|]. split; [reflexivity|]. cbv zeta.
    split; [exact Lh'|]. split; [exact Lp1|]. split; [exact Ld'|]. split; [exact HA'|]. split; [exact Hp1|].
    intros i Hi1 Hi2. rewrite HI by assumption. apply Hh; assumption.
Qed.

Lemma frozen_ranked first rest : length first = M -> nonneg (first ++ rest) -> total K snd (first ++ rest) <= 1 ->
  exists s, psq_run K M true cum des m0 (first ++ rest) = Ok s /\ length (mh K (ps_marks K s)) = M /\
    forall i, (1 <= i)%nat -> (S i < M)%nat ->
      exists v, nth_error (mh K (ps_marks K s)) i = Some v /\ Ranked K i (map fst first) v.
Proof.
  intros HL HN HT. destruct (frozen first rest HL HN HT) as (s & E & _ & _ & Lh & _ & _ & _ & _ & Hh).
  exists s. split; [exact E|]. split; [exact Lh|]. intros i H1 H2.
  exists (at_ (mh K (ps_marks K s)) i). split; [apply nth_error_nth0; lia|]. rewrite Hh by assumption.
  destruct (sel_sort_heights K HO M first HL) as [A B].
  exists (map fst (sel_sort K M first)). split; [exact A|]. split; [exact B|].
  apply nth_error_nth0. rewrite map_length, (sel_sort_length K HO) by exact HL. lia.
Qed.
End Frozen.
