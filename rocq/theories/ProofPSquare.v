(** Proofs about the P-square markers. *)
From Coq Require Import List Arith Bool Lia Field Permutation Sorted.
From Verif Require Import Num NumFacts ModelRolling ModelDensity ModelPSquare SpecStats SpecDensity SpecTail SpecPSquare
  ProofBasic ProofOrder ProofRollingBuf ProofTail.
Import ListNotations.

Lemma nth_error_nth0 {A} (l : list A) i d : (i < length l)%nat -> nth_error l i = Some (nth i l d).
Proof. revert i; induction l as [|x l IH]; intros [|i] H; cbn in *; try lia; auto. apply IH. lia. Qed.
Lemma set_nth_same {A} (l : list A) i d : (i < length l)%nat -> set_nth i (nth i l d) l = l.
Proof. revert i; induction l as [|x l IH]; intros [|i] H; cbn in *; try lia; auto. f_equal. apply IH. lia. Qed.

Section PS.
Variable K : Num.
Hypothesis HO : OrderedLaws K.
Let HK : FieldLaws K := ord_field K HO.
Local Notation T := (car K).
Local Notation "0" := (zero K) : num_scope.
Local Notation "1" := (one K) : num_scope.
Local Notation "x + y" := (add K x y) : num_scope.
Local Notation "x - y" := (sub K x y) : num_scope.
Local Notation "x * y" := (mul K x y) : num_scope.
Local Notation "x / y" := (div K x y) : num_scope.
Local Notation "- x" := (opp K x) : num_scope.
Local Notation "# n" := (ofnat K n) (at level 2) : num_scope.
Local Notation "x < y" := (klt K x y) : num_scope.
Local Notation "x <= y" := (kle K x y) : num_scope.
Local Open Scope num_scope.
Add Field KfieldPS : (fl_field K HK).
Local Notation at_ l i := (nth i l 0).

Lemma keqb_true x y : keqb K x y = true <-> x = y.
Proof.
  unfold keqb. rewrite andb_true_iff, !negb_true_iff. split.
  - intros [A B]. apply (ord_total K HO); assumption.
  - intros ->. rewrite (ord_irrefl K HO). auto.
Qed.

(** *** One adjustment *)
Definition Moved (pl pc pr p' : T) : Prop :=
  p' = pc \/ (p' = pc + 1 /\ pc + 1 < pr) \/ (p' = pc - 1 /\ pl < pc - 1).

Lemma lin_up hc hr dp : hc <= hr -> 1 < dp -> hc <= hc + (hr - hc) / dp /\ hc + (hr - hc) / dp <= hr.
Proof.
  intros H1 H2. assert (P : 0 < dp) by (apply (klt_trans K HO) with 1; [apply (kone_pos K HO)|exact H2]).
  assert (N := kpos_neq0 K HO _ P).
  assert (A : 0 <= (hr - hc) / dp) by (apply (kdiv_nonneg K HO); [apply (ksub_nonneg K HO); exact H1|exact P]).
  split.
  - apply (ksub_nonneg K HO). replace (hc + (hr - hc) / dp - hc) with ((hr - hc) / dp) by ring. exact A.
  - apply (ksub_nonneg K HO). replace (hr - (hc + (hr - hc) / dp)) with ((hr - hc) / dp * (dp - 1)) by (field; exact N).
    apply (kmul_nonneg K HO); [exact A|]. apply (ksub_nonneg K HO), (klt_le K HO). exact H2.
Qed.
Lemma lin_down hl hc dm : hl <= hc -> dm < - (1) -> hl <= hc - (hl - hc) / dm /\ hc - (hl - hc) / dm <= hc.
Proof.
  intros H1 H2.
  assert (P : 1 < - dm).
  { apply (ksub_pos K HO). replace (- dm - 1) with (- (1) - dm) by ring. apply (ksub_pos K HO). exact H2. }
  assert (P0 : 0 < - dm) by (apply (klt_trans K HO) with 1; [apply (kone_pos K HO)|exact P]).
  assert (N : dm <> 0). { intros E. rewrite E in P0. apply (klt_irrefl K HO 0). replace 0 with (- 0) at 2 by ring. exact P0. }
  assert (A : 0 <= (hc - hl) / - dm) by (apply (kdiv_nonneg K HO); [apply (ksub_nonneg K HO); exact H1|exact P0]).
  assert (N' := kpos_neq0 K HO _ P0).
  replace (hc - (hl - hc) / dm) with (hc - (hc - hl) / - dm) by (field; split; assumption).
  split.
  - apply (ksub_nonneg K HO). replace (hc - (hc - hl) / - dm - hl) with ((hc - hl) / - dm * (- dm - 1)) by (field; exact N').
    apply (kmul_nonneg K HO); [exact A|]. apply (ksub_nonneg K HO), (klt_le K HO). exact P.
  - apply (ksub_nonneg K HO). replace (hc - (hc - (hc - hl) / - dm)) with ((hc - hl) / - dm) by ring. exact A.
Qed.

Lemma adjust_at_spec (M : nat) s i :
  length (mh K s) = M -> length (mp K s) = M -> length (md K s) = M -> (1 <= i)%nat -> (S i < M)%nat ->
  exists h' p',
    adjust_at K s i = Ok {| mh := set_nth i h' (mh K s); mp := set_nth i p' (mp K s); md := md K s |} /\
    (at_ (mh K s) (i - 1) <= at_ (mh K s) i -> at_ (mh K s) i <= at_ (mh K s) (S i) ->
     at_ (mh K s) (i - 1) <= h' /\ h' <= at_ (mh K s) (S i)) /\
    Moved (at_ (mp K s) (i - 1)) (at_ (mp K s) i) (at_ (mp K s) (S i)) p'.
Proof.
  intros Lh Lp Ld Hi HM. unfold adjust_at. replace (i + 1)%nat with (S i) by lia.
  rewrite !(nth_error_nth0 (mh K s) _ 0) by (rewrite Lh; lia).
  rewrite !(nth_error_nth0 (mp K s) _ 0) by (rewrite Lp; lia).
  rewrite (nth_error_nth0 (md K s) _ 0) by (rewrite Ld; lia).
  set (hl := at_ (mh K s) (i - 1)). set (hc := at_ (mh K s) i). set (hr := at_ (mh K s) (S i)).
  set (pl := at_ (mp K s) (i - 1)). set (pc := at_ (mp K s) i). set (pr := at_ (mp K s) (S i)).
  set (d := at_ (md K s) i - pc). cbv zeta.
  destruct ((leb K 1 d && ltb K 1 (pr - pc)) || (leb K d (- (1)) && ltb K (pl - pc) (- (1)))) eqn:G.
  - apply orb_true_iff in G.
    set (h := hc + _ / _ * _). set (reg := negb _ && negb _ && negb _).
    destruct G as [G|G]; apply andb_true_iff in G; destruct G as [G1 G2]; apply (leb_kle K) in G1.
    + assert (D : 0 < d) by (apply (klt_le_trans K HO) with 1; [apply (kone_pos K HO)|exact G1]).
      assert (D' : ltb K d 0 = false) by (apply (klt_le K HO); exact D).
      unfold klt in D. rewrite D, D'. eexists _, _. split; [reflexivity|]. split.
      * intros O1 O2. destruct (reg && ltb K hl h && ltb K h hr) eqn:R.
        -- apply andb_true_iff in R. destruct R as [R R2]. apply andb_true_iff in R. destruct R as [_ R1].
           split; apply (klt_le K HO); assumption.
        -- destruct (lin_up hc hr (pr - pc) O2 G2) as [A B]. split; [|exact B]. apply (kle_trans K HO) with hc; assumption.
      * right; left. split; [reflexivity|]. apply (ksub_pos K HO). replace (pr - (pc + 1)) with (pr - pc - 1) by ring.
        apply (ksub_pos K HO). exact G2.
    + assert (M1 : - (1) < 0). { apply (ksub_pos K HO). replace (0 - - (1)) with 1 by ring. apply (kone_pos K HO). }
      assert (D : d < 0) by (apply (kle_lt_trans K HO) with (- (1)); assumption).
      assert (D' : ltb K 0 d = false) by (apply (klt_le K HO); exact D).
      unfold klt in D. rewrite D, D'. eexists _, _. split; [reflexivity|]. split.
      * intros O1 O2. destruct (reg && ltb K hl h && ltb K h hr) eqn:R.
        -- apply andb_true_iff in R. destruct R as [R R2]. apply andb_true_iff in R. destruct R as [_ R1].
           split; apply (klt_le K HO); assumption.
        -- destruct (lin_down hl hc (pl - pc) O1 G2) as [A B]. split; [exact A|]. apply (kle_trans K HO) with hc; assumption.
      * right; right. split; [ring|]. apply (ksub_pos K HO). replace (pc - 1 - pl) with (- (1) - (pl - pc)) by ring.
        apply (ksub_pos K HO). exact G2.
  - exists hc, pc. split.
    + unfold hc, pc. rewrite !set_nth_same by (rewrite ?Lh, ?Lp; lia). destruct s; reflexivity.
    + split; [auto|left; reflexivity].
Qed.

(** *** The loop *)
Definition Asc (M : nat) (h : list T) : Prop := forall i, (S i < M)%nat -> at_ h i <= at_ h (S i).
Definition SAsc (L : nat) (p : list T) : Prop := forall i, (S i < L)%nat -> at_ p i < at_ p (S i).

Lemma at_set (l : list T) i v j : (i < length l)%nat -> at_ (set_nth i v l) j = if Nat.eqb i j then v else at_ l j.
Proof. apply nth_set_nth. Qed.

Lemma adjust_inv (M : nat) (P : list T -> Prop) s :
  (forall p i p', length p = M -> (1 <= i)%nat -> (S i < M)%nat ->
     Moved (at_ p (i - 1)) (at_ p i) (at_ p (S i)) p' -> P p -> P (set_nth i p' p)) ->
  length (mh K s) = M -> length (mp K s) = M -> length (md K s) = M -> Asc M (mh K s) -> P (mp K s) -> (2 <= M)%nat ->
  exists s', adjust K M s = Ok s' /\ length (mh K s') = M /\ length (mp K s') = M /\ md K s' = md K s /\
    Asc M (mh K s') /\ P (mp K s') /\
    at_ (mh K s') 0 = at_ (mh K s) 0 /\ at_ (mh K s') (M - 1) = at_ (mh K s) (M - 1).
Proof.
  intros HP Lh Lp Ld HA HPs HM. unfold adjust.
  assert (G : forall n a s, (1 <= a)%nat -> (a + n <= M - 1)%nat ->
    length (mh K s) = M -> length (mp K s) = M -> length (md K s) = M -> Asc M (mh K s) -> P (mp K s) ->
    exists s', fold_left (fun o i => obnd o (fun s => adjust_at K s i)) (seq a n) (Ok s) = Ok s' /\
      length (mh K s') = M /\ length (mp K s') = M /\ md K s' = md K s /\ Asc M (mh K s') /\ P (mp K s') /\
      at_ (mh K s') 0 = at_ (mh K s) 0 /\ at_ (mh K s') (M - 1) = at_ (mh K s) (M - 1)).
  { clear s Lh Lp Ld HA HPs. induction n as [|n IH]; intros a s Ha Hn Lh Lp Ld HA HPs.
    - exists s. cbn. repeat split; auto.
    - cbn [seq fold_left obnd]. destruct (adjust_at_spec M s a Lh Lp Ld Ha ltac:(lia)) as (h' & p' & E & Hh & Hp).
      rewrite E. destruct (IH (S a) {| mh := set_nth a h' (mh K s); mp := set_nth a p' (mp K s); md := md K s |}) as (s' & E' & R);
        cbn [mh mp md]; rewrite ?set_nth_length; auto; try lia.
      + destruct Hh as [H1 H2].
        { assert (Q := HA (a - 1)%nat ltac:(lia)). replace (S (a - 1)) with a in Q by lia. exact Q. }
        { apply HA. lia. }
        intros j Hj. rewrite !at_set by lia. destruct (Nat.eqb_spec a j) as [<-|N1].
        * destruct (Nat.eqb_spec a (S a)); [lia|]. exact H2.
        * destruct (Nat.eqb_spec a (S j)) as [->|N2].
          -- replace (S j - 1)%nat with j in H1 by lia. exact H1.
          -- apply HA. exact Hj.
      + apply HP; auto. lia.
      + cbn [mh mp md] in R. exists s'. destruct R as (R1 & R2 & R3 & R4 & R5 & R6 & R7).
        rewrite !at_set in R6, R7 by lia.
        destruct (Nat.eqb_spec a 0); [lia|]. destruct (Nat.eqb_spec a (M - 1)); [lia|]. repeat split; auto. }
  apply G; auto; lia.
Qed.

(** *** Locating a sample *)
Lemma Asc_le M h i j : Asc M h -> (i <= j)%nat -> (j < M)%nat -> at_ h i <= at_ h j.
Proof.
  intros HA Hij Hj. induction j as [|j IH].
  - replace i with O by lia. apply (kle_refl K HO).
  - destruct (Nat.eq_dec i (S j)) as [->|N]; [apply (kle_refl K HO)|].
    apply (kle_trans K HO) with (at_ h j); [apply IH; lia|apply HA; lia].
Qed.

Lemma upper_bound_pos h x n : (1 <= n)%nat -> length h = n -> at_ h 0 <= x -> (1 <= upper_bound K h x)%nat.
Proof. destruct h as [|a h]; cbn; intros; [lia|]. unfold kle in *. rewrite H1. lia. Qed.
Lemma upper_bound_lt (h : list T) x n : (S n = length h)%nat -> x < at_ h n -> (upper_bound K h x <= n)%nat.
Proof.
  revert n. induction h as [|a h IH]; cbn [length upper_bound]; intros n Hn Hx; [lia|].
  destruct (ltb K x a) eqn:E; [lia|]. destruct n as [|n].
  - cbn in Hx. unfold klt in Hx. congruence.
  - cbn in Hx. assert (upper_bound K h x <= n)%nat by (apply IH; [lia|exact Hx]). lia.
Qed.

Lemma locate_spec (M : nat) h x : (2 <= M)%nat -> length h = M -> Asc M h ->
  exists h' k, locate K M h x = Ok (h', k) /\ length h' = M /\ Asc M h' /\ (1 <= k)%nat /\ (k <= M - 1)%nat /\
    (x < at_ h 0 -> k = 1%nat) /\
    at_ h' 0 = (if ltb K x (at_ h 0) then x else at_ h 0) /\
    at_ h' (M - 1) = (if ltb K x (at_ h (M - 1)) then at_ h (M - 1) else x).
Proof.
  intros HM Lh HA. unfold locate. rewrite !(nth_error_nth0 h _ 0) by lia.
  assert (A0 := Asc_le M h 0 (M - 1) HA ltac:(lia) ltac:(lia)).
  destruct (ltb K x (at_ h 0)) eqn:E0.
  - exists (set_nth 0 x h), 1%nat. rewrite set_nth_length. repeat split; auto; try lia.
    + intros j Hj. rewrite !at_set by lia. destruct (Nat.eqb_spec 0 j) as [<-|N].
      * cbn [Nat.eqb]. apply (kle_trans K HO) with (at_ h 0); [apply (klt_le K HO); exact E0|apply HA; lia].
      * destruct (Nat.eqb_spec 0 (S j)); [lia|]. apply HA. exact Hj.
    + rewrite at_set by lia. reflexivity.
    + rewrite at_set by lia. destruct (Nat.eqb_spec 0 (M - 1)); [lia|].
      assert (F : ltb K x (at_ h (M - 1)) = true) by (eapply (klt_le_trans K HO); [exact E0|exact A0]). rewrite F. reflexivity.
  - destruct (leb K (at_ h (M - 1)) x) eqn:E1.
    + apply (leb_kle K) in E1. exists (set_nth (M - 1) x h), (M - 1)%nat. rewrite set_nth_length. repeat split; auto; try lia.
      * intros j Hj. rewrite !at_set by lia. destruct (Nat.eqb_spec (M - 1) j) as [<-|N]; [lia|].
        destruct (Nat.eqb_spec (M - 1) (S j)) as [Q|N2].
        -- apply (kle_trans K HO) with (at_ h (M - 1)); [|exact E1]. rewrite Q. apply HA. exact Hj.
        -- apply HA. exact Hj.
      * intros C. unfold klt in C. congruence.
      * rewrite at_set by lia. destruct (Nat.eqb_spec (M - 1) 0); [lia|]. reflexivity.
      * rewrite at_set by lia. rewrite Nat.eqb_refl. unfold kle in E1. rewrite E1. reflexivity.
    + assert (E2 : ltb K x (at_ h (M - 1)) = true). { unfold leb in E1. apply negb_false_iff in E1. exact E1. }
      exists h, (upper_bound K h x). repeat split; auto.
      * apply (upper_bound_pos h x M); auto. lia.
      * apply upper_bound_lt; [lia|exact E2].
      * intros C. unfold klt in C. congruence.
      * rewrite E2. reflexivity.
Qed.

(** *** Moving the positions *)
Lemma bump_length k w p : length (bump K k w p) = length p.
Proof. unfold bump. rewrite app_length, map_length, firstn_length, skipn_length. lia. Qed.
Lemma bump_at k w p i : (i < length p)%nat -> at_ (bump K k w p) i = if Nat.ltb i k then at_ p i else at_ p i + w.
Proof.
  revert k i. induction p as [|a p IH]; intros k i Hi; [cbn in Hi; lia|]. unfold bump in *.
  destruct k as [|k].
  - cbn [firstn skipn app]. change (0) with (0) at 1. destruct (Nat.ltb_spec i 0); [lia|].
    rewrite (nth_indep _ 0 (0 + w)) by (rewrite map_length; exact Hi). rewrite map_nth with (f := fun y => y + w). reflexivity.
  - cbn [firstn skipn app]. destruct i as [|i]; [reflexivity|]. cbn [nth]. cbn in Hi. rewrite IH by lia.
    change (Nat.ltb (S i) (S k)) with (Nat.ltb i k). reflexivity.
Qed.
Lemma bump_SAsc L k w p : 0 < w -> SAsc L p -> (L <= length p)%nat -> SAsc L (bump K k w p).
Proof.
  intros Hw HS HL i Hi. rewrite !bump_at by lia. assert (H := HS i Hi).
  destruct (Nat.ltb_spec i k), (Nat.ltb_spec (S i) k); try lia.
  - exact H.
  - apply (klt_trans K HO) with (at_ p (S i)); [exact H|]. apply (ksub_pos K HO).
    replace (at_ p (S i) + w - at_ p (S i)) with w by ring. exact Hw.
  - apply (kadd_lt K HO). exact H.
Qed.

(** *** The initial sorting *)
Lemma std_sort_sort_by l : std_sort K l = sort_by (ltb K) l.
Proof.
  unfold std_sort, sort_by. induction l as [|x l IH]; [reflexivity|]. cbn [fold_right]. rewrite IH. clear IH.
  generalize (fold_right (insert_by (ltb K)) [] l). intros m. induction m as [|y m IH]; [reflexivity|]. cbn. rewrite IH. reflexivity.
Qed.
Lemma ltb_weak : StrictWeak (ltb K).
Proof.
  split.
  - apply (ord_irrefl K HO).
  - intros a b c. apply (ord_trans K HO).
  - intros a b c H1 H2. exact (kle_trans K HO c b a H2 H1).
Qed.
Lemma std_sort_perm l : Permutation l (std_sort K l).
Proof. rewrite std_sort_sort_by. apply sort_by_perm. Qed.
Lemma std_sort_sorted l : NonDecreasing K (std_sort K l).
Proof. rewrite std_sort_sort_by. apply (sort_by_sorted (ltb K) ltb_weak). Qed.

Lemma nondec_Asc h : NonDecreasing K h -> Asc (length h) h.
Proof.
  intros HS i. revert i. induction HS as [|a l HS IH HF]; intros i Hi; [cbn in Hi; lia|].
  cbn in Hi. destruct i as [|i].
  - cbn. destruct l as [|b l]; [cbn in Hi; lia|]. inversion_clear HF. assumption.
  - cbn [nth]. apply IH. lia.
Qed.
Lemma Asc_nondec h : Asc (length h) h -> NonDecreasing K h.
Proof.
  induction h as [|a l IH]; intros HA; [constructor|]. constructor.
  - apply IH. intros i Hi. apply (HA (S i)). cbn. lia.
  - apply Forall_forall. intros x Hx. destruct (In_nth l x 0 Hx) as (j & Hj & <-).
    apply (Asc_le (length (a :: l)) (a :: l) 0 (S j) HA); cbn; lia.
Qed.
Lemma SAsc_inc h : SAsc (length h) h <-> Increasing K h.
Proof.
  split.
  - induction h as [|a l IH]; intros HA; [constructor|].
    assert (HS : Increasing K l) by (apply IH; intros i Hi; apply (HA (S i)); cbn; lia).
    constructor; [exact HS|]. destruct l as [|b l]; [constructor|].
    assert (H0 := HA 0%nat ltac:(cbn; lia)). cbn in H0. constructor; [exact H0|].
    inversion_clear HS as [|? ? _ HF]. apply Forall_forall. intros x Hx. rewrite Forall_forall in HF.
    apply (klt_trans K HO) with b; [exact H0|apply HF; exact Hx].
  - intros HS i. revert i. induction HS as [|a l HS IH HF]; intros i Hi; [cbn in Hi; lia|].
    cbn in Hi. destruct i as [|i].
    + cbn. destruct l as [|b l]; [cbn in Hi; lia|]. inversion_clear HF. assumption.
    + cbn [nth]. apply IH. lia.
Qed.
Lemma sorted_min h : h <> [] -> NonDecreasing K h -> IsMin K h (at_ h 0) /\ IsMax K h (at_ h (length h - 1)).
Proof.
  intros Hne HS. assert (L : (0 < length h)%nat) by (destruct h; [congruence|cbn; lia]).
  assert (HA := nondec_Asc h HS). split; split.
  - apply nth_In. lia.
  - intros x Hx. destruct (In_nth h x 0 Hx) as (j & Hj & <-). apply (Asc_le (length h) h 0 j HA); lia.
  - apply nth_In. lia.
  - intros x Hx. destruct (In_nth h x 0 Hx) as (j & Hj & <-). apply (Asc_le (length h) h j (length h - 1) HA); lia.
Qed.
Lemma IsMin_perm l l' m : Permutation l l' -> IsMin K l m -> IsMin K l' m.
Proof.
  intros HP [A B]. split; [eapply Permutation_in; eauto|]. intros x Hx. apply B. eapply Permutation_in; [symmetry; exact HP|exact Hx].
Qed.
Lemma IsMax_perm l l' m : Permutation l l' -> IsMax K l m -> IsMax K l' m.
Proof.
  intros HP [A B]. split; [eapply Permutation_in; eauto|]. intros x Hx. apply B. eapply Permutation_in; [symmetry; exact HP|exact Hx].
Qed.
Lemma IsMin_snoc l m x : IsMin K l m -> IsMin K (l ++ [x]) (if ltb K x m then x else m).
Proof.
  intros [A B]. destruct (ltb K x m) eqn:E; split.
  - apply in_or_app. right; left; reflexivity.
  - intros y Hy. apply in_app_or in Hy. destruct Hy as [Hy|[<-|[]]]; [|apply (kle_refl K HO)].
    apply (kle_trans K HO) with m; [apply (klt_le K HO); exact E|apply B; exact Hy].
  - apply in_or_app. left. exact A.
  - intros y Hy. apply in_app_or in Hy. destruct Hy as [Hy|[<-|[]]]; [apply B; exact Hy|exact E].
Qed.
Lemma IsMax_snoc l m x : IsMax K l m -> IsMax K (l ++ [x]) (if ltb K x m then m else x).
Proof.
  intros [A B]. destruct (ltb K x m) eqn:E; split.
  - apply in_or_app. left. exact A.
  - intros y Hy. apply in_app_or in Hy. destruct Hy as [Hy|[<-|[]]]; [apply B; exact Hy|]. apply (klt_le K HO). exact E.
  - apply in_or_app. right; left; reflexivity.
  - intros y Hy. apply in_app_or in Hy. destruct Hy as [Hy|[<-|[]]]; [|apply (kle_refl K HO)].
    apply (kle_trans K HO) with m; [apply B; exact Hy|exact E].
Qed.

(** Selection sort. *)
Lemma min_element_from_spec l : forall i bi b, (bi < i)%nat ->
  let r := min_element_from K l i bi b in
  (r = bi /\ Forall (fun x => b <= fst x) l) \/
  (exists j x, r = (i + j)%nat /\ nth_error l j = Some x /\ fst x < b /\ Forall (fun y => fst x <= fst y) l).
Proof.
  induction l as [|x l IH]; intros i bi b Hb; cbn [min_element_from]; [left; auto|].
  destruct (ltb K (fst x) b) eqn:E.
  - destruct (IH (S i) i (fst x) ltac:(lia)) as [[H1 H2]|(j & y & H1 & H2 & H3 & H4)]; cbv zeta in *; right.
    + exists 0%nat, x. rewrite H1. split; [lia|]. split; [reflexivity|]. split; [exact E|].
      constructor; [apply (kle_refl K HO)|exact H2].
    + exists (S j), y. rewrite H1. split; [lia|]. split; [exact H2|]. split; [eapply (klt_trans K HO); eauto|].
      constructor; [apply (klt_le K HO); exact H3|exact H4].
  - destruct (IH (S i) bi b ltac:(lia)) as [[H1 H2]|(j & y & H1 & H2 & H3 & H4)]; cbv zeta in *.
    + left. split; [exact H1|]. constructor; [exact E|exact H2].
    + right. exists (S j), y. rewrite H1. split; [lia|]. split; [exact H2|]. split; [exact H3|].
      constructor; [|exact H4]. apply (kle_trans K HO) with b; [apply (klt_le K HO); exact H3|exact E].
Qed.
Lemma set_nth_perm {A} (l : list A) d x y : nth_error l d = Some y -> Permutation (x :: l) (y :: set_nth d x l).
Proof.
  revert d. induction l as [|a l IH]; intros [|d] H; try discriminate; cbn in H.
  - injection H as ->. cbn. apply perm_swap.
  - cbn [set_nth]. rewrite perm_swap. rewrite (IH d H). apply perm_swap.
Qed.
Lemma sel_sort_spec n : forall l, length l = n ->
  Permutation l (sel_sort K n l) /\ StronglySorted (fun a b => fst a <= fst b) (sel_sort K n l).
Proof.
  induction n as [|n IH]; intros l Hl.
  - destruct l; [|discriminate]. cbn. split; constructor.
  - destruct l as [|x t]; [discriminate|]. cbn [sel_sort]. cbn in Hl.
    destruct (min_element_from_spec t 1 0 (fst x) ltac:(lia)) as [[H1 H2]|(j & y & H1 & H2 & H3 & H4)]; cbv zeta in *.
    + rewrite H1. destruct (IH t ltac:(lia)) as [P S]. split; [constructor; exact P|].
      constructor; [exact S|]. apply Forall_forall. intros z Hz. rewrite Forall_forall in H2. apply H2.
      eapply Permutation_in; [symmetry; exact P|exact Hz].
    + rewrite H1. cbn [Nat.add]. destruct (IH (set_nth j x t) ltac:(rewrite set_nth_length; lia)) as [P S].
      rewrite (nth_error_nth t j x H2).
      assert (Q := set_nth_perm t j x y H2). split.
      * rewrite Q. constructor. exact P.
      * constructor; [exact S|]. apply Forall_forall. intros z Hz.
        apply (Permutation_in _ (Permutation_sym P)) in Hz.
        assert (Hz' : In z (x :: t)). { eapply Permutation_in; [symmetry; exact Q|right; exact Hz]. }
        destruct Hz' as [<-|Hz']; [apply (klt_le K HO); exact H3|]. rewrite Forall_forall in H4. apply H4. exact Hz'.
Qed.
Lemma sel_sort_length n l : length l = n -> length (sel_sort K n l) = n.
Proof. intros H. destruct (sel_sort_spec n l H) as [P _]. rewrite <- (Permutation_length P). exact H. Qed.
Lemma sel_sort_heights n l : length l = n ->
  Permutation (map fst l) (map fst (sel_sort K n l)) /\ NonDecreasing K (map fst (sel_sort K n l)).
Proof.
  intros H. destruct (sel_sort_spec n l H) as [P S]. split; [apply Permutation_map; exact P|].
  apply (StronglySorted_map fst (fun a b => ltb K b a = false)). exact S.
Qed.

(** Summation of the initial weights. *)
Lemma cumulate_from_length a c l : length (cumulate_from K a c l) = length l.
Proof. revert a l; induction c as [|c IH]; intros a [|x l]; cbn; auto. Qed.
Lemma cumulate_length c l : length (cumulate K c l) = length l.
Proof. destruct l; cbn; [reflexivity|]. rewrite cumulate_from_length. reflexivity. Qed.
Lemma cumulate_from_at c : forall a l i, (i < length l)%nat ->
  at_ (cumulate_from K a c l) i = if Nat.ltb i c then a + total K (fun x => x) (firstn (S i) l) else at_ l i.
Proof.
  induction c as [|c IH]; intros a l i Hi.
  - destruct l; reflexivity.
  - destruct l as [|x l]; [cbn in Hi; lia|]. cbn [cumulate_from]. destruct i as [|i].
    + change (Nat.ltb 0 (S c)) with true. cbn [nth]. rewrite firstn_cons, firstn_O, total_cons, total_nil. ring.
    + cbn [nth]. cbn in Hi. rewrite IH by lia. change (Nat.ltb (S i) (S c)) with (Nat.ltb i c).
      destruct (Nat.ltb i c); [|reflexivity]. rewrite (firstn_cons (S i)), total_cons. ring.
Qed.
Lemma cumulate_at c l i : (1 <= c)%nat -> (i < length l)%nat ->
  at_ (cumulate K c l) i = if Nat.ltb i c then total K (fun x => x) (firstn (S i) l) else at_ l i.
Proof.
  intros Hc Hi. destruct l as [|x l]; [cbn in Hi; lia|]. cbn [cumulate]. destruct i as [|i].
  - destruct (Nat.ltb_spec 0 c); [|lia]. cbn [nth]. rewrite firstn_cons, firstn_O, total_cons, total_nil. ring.
  - cbn [nth]. cbn in Hi. rewrite cumulate_from_at by lia.
    destruct (Nat.ltb_spec i (c - 1)), (Nat.ltb_spec (S i) c); try lia; [|reflexivity].
    rewrite (firstn_cons (S i)), total_cons. reflexivity.
Qed.
End PS.
