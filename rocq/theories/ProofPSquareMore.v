(** Weighted cumulative distribution, interpolation between extended P-square estimates, the median from
    the cumulative distribution, and extractions interleaved with pushes. *)
From Coq Require Import List Arith Bool Lia Field Permutation Sorted.
From Verif Require Import Num NumFacts ModelRolling ModelDensity ModelPSquare SpecStats SpecDensity SpecTail SpecPSquare
  ProofBasic ProofOrder ProofRollingBuf ProofTail ProofDensityMed ProofPSquare ProofPSquareRun ProofPSquareTop ProofPSquareW ProofPSquareInst.
Import ListNotations.

Section More.
Variable K : Num.
Hypothesis HO : OrderedLaws K.
Let HK : FieldLaws K := ord_field K HO.
Local Notation T := (car K).
Local Notation "0" := (zero K) : num_scope.
Local Notation "1" := (one K) : num_scope.
Local Notation "x + y" := (add K x y) : num_scope.
Local Notation "x - y" := (sub K x y) : num_scope.
Local Notation "x * y" := (mul K x y) : num_scope.
Local Notation "x / y" := (div K x y) : num_scope.
Local Notation "- x" := (opp K x) : num_scope.
Local Notation "# n" := (ofnat K n) (at level 2) : num_scope.
Local Notation "x < y" := (klt K x y) : num_scope.
Local Notation "x <= y" := (kle K x y) : num_scope.
Local Open Scope num_scope.
Add Field KfieldPSM : (fl_field K HK).
Local Notation at_ l i := (nth i l 0).

(** *** weighted_p_square_cumulative_distribution *)
Definition cP (b : nat) (es : list (T * T)) (p : list T) : Prop :=
  SAsc K b p /\ (forall i, (i < b + 1)%nat -> 0 < at_ p i /\ at_ p i <= total K snd es) /\
  exists v w, In (v, w) (firstn (b + 1) es) /\ IsMax K (map fst (firstn (b + 1) es)) v /\
    at_ p b = total K snd es - (total K snd (firstn (b + 1) es) - w).

Lemma total_nonneg es : positive K es -> 0 <= total K snd es.
Proof.
  intros H. rewrite <- (total_id K). apply (nonneg_total K HO). rewrite Forall_map. exact H.
Qed.
Lemma total_part es n : positive K es -> total K snd (firstn n es) <= total K snd es.
Proof.
  intros H. rewrite <- (firstn_skipn n es) at 2. rewrite (total_app K HK). apply (ksub_nonneg K HO).
  replace (total K snd (firstn n es) + total K snd (skipn n es) - total K snd (firstn n es)) with (total K snd (skipn n es)) by ring.
  apply total_nonneg. unfold positive in *. rewrite Forall_forall in *. intros e He. apply H.
  rewrite <- (firstn_skipn n es). apply in_or_app. right. exact He.
Qed.
Lemma le_add a w : 0 <= w -> a <= a + w.
Proof. intros H. apply (ksub_nonneg K HO). replace (a + w - a) with w by ring. exact H. Qed.
Lemma in_total es e : positive K es -> In e es -> snd e <= total K snd es.
Proof.
  intros H He. apply in_split in He. destruct He as (a & c & ->). apply Forall_app in H. destruct H as [Ha Hc]. inversion_clear Hc.
  rewrite (total_app K HK), total_cons. assert (A := total_nonneg a Ha). assert (C := total_nonneg c H0).
  apply (kle_trans K HO) with (snd e + total K snd c); [apply le_add; exact C|].
  replace (total K snd a + (snd e + total K snd c)) with (snd e + total K snd c + total K snd a) by ring. apply le_add. exact A.
Qed.

Lemma wcd_des_ok b W pos d : length pos = (b + 1)%nat -> length d = (b + 1)%nat -> exists d', wcd_des K b W pos d = Ok d' /\ length d' = (b + 1)%nat.
Proof.
  intros Lp Ld. unfold wcd_des. rewrite (nth_error_nth0 pos 0 0), (nth_error_nth0 d 0 0) by lia.
  eexists. split; [reflexivity|]. cbn [length]. rewrite map_length, seq_length. lia.
Qed.
Lemma wcd_run_main b es : (1 <= b)%nat -> (b < length es)%nat -> Forall (fun e => ltb K 0 (snd e) = true) es ->
  exists s, wcd_run K b es = Ok s /\ ps_wsum K s = TotalWeight K es /\
  MarkerHeights K (b + 1) (map fst es) (mh K (ps_marks K s)) /\ length (mp K (ps_marks K s)) = (b + 1)%nat /\ cP b es (mp K (ps_marks K s)).
Proof.
  intros Hb HL HG.
  destruct (run_main K HO (b + 1) true b (wcd_des K b) (wcd_init K b)) with (Good := positive K) (Pinv := cP b) (Dinv := fun (_ : list (T * T)) (_ : T) (_ : list T) => True) (es := es)
    as (s & E & Hc & Hw & A1 & A2 & A3 & A4 & A5 & A6 & A7 & _).
  - lia.
  - apply repeat_length.
  - apply repeat_length.
  - apply repeat_length.
  - apply positive_prefix.
  - (* initial positions *)
    clear es HL HG. intros es HL HG.
    destruct (pinit_SAsc K HO (b + 1) b (wcd_init K b) es HL HG Hb ltac:(lia)) as [[A B]|C]; [|lia].
    assert (HP := sel_positive K HO (b + 1) es HL HG). assert (Lsel := sel_sort_length K HO (b + 1) es HL).
    destruct (sel_sort_spec K HO (b + 1) es HL) as [P S].
    split; [exact A|]. split.
    + intros i Hi. rewrite (pinit_at K HO) by lia. destruct (Nat.ltb_spec i b) as [L|L].
      * split.
        -- assert (Q := A). clear -HO HP Lsel Hi L B. rewrite <- (total_id K snd), <- firstn_map, (firstn_S_total K HO) by (rewrite map_length; lia).
           apply (kle_lt_trans K HO) with (total K (fun x => x) (firstn i (map snd (sel_sort K (b + 1) es)))).
           { apply (nonneg_total K HO). apply Forall_firstn. rewrite Forall_map. exact HP. }
           apply (lt_add_pos K HO). apply (positive_at K); [exact HP|lia].
        -- rewrite (total_perm K HO snd _ _ P). apply total_part. exact HP.
      * split; [apply (positive_at K); [exact HP|lia]|].
        rewrite (total_perm K HO snd _ _ P). rewrite (nth_indep _ 0 (snd (0, 0))) by (rewrite map_length; lia). rewrite map_nth.
        apply in_total; [exact HP|]. apply nth_In. lia.
    + set (e := nth b (sel_sort K (b + 1) es) (0, 0)). exists (fst e), (snd e).
      rewrite firstn_all2 by lia. assert (He : In e (sel_sort K (b + 1) es)) by (apply nth_In; lia).
      split; [destruct e; eapply Permutation_in; [symmetry; exact P|exact He]|]. split.
      * destruct (sel_sort_heights K HO (b + 1) es HL) as [P1 S1].
        apply (IsMax_perm K (map fst (sel_sort K (b + 1) es))); [symmetry; exact P1|].
        destruct (sorted_min K HO (map fst (sel_sort K (b + 1) es))) as [_ X];
          [intros C; apply (f_equal (@length _)) in C; rewrite map_length in C; cbn in C; lia|exact S1|].
        rewrite map_length, Lsel in X. replace (b + 1 - 1)%nat with b in X by lia.
        rewrite (nth_indep _ 0 (fst (0, 0))) in X by (rewrite map_length; lia). rewrite map_nth in X. exact X.
      * rewrite (pinit_at K HO) by lia. destruct (Nat.ltb_spec b b); [lia|].
        rewrite (nth_indep _ 0 (snd (0, 0))) by (rewrite map_length; lia). rewrite map_nth. fold e. ring.
  - (* bump *)
    clear es HL HG. intros es e p k c HG HL Lp (H1 & H2 & v & w & H3 & H4 & H5) Hk1 Hk2 Hc.
    assert (We := positive_last K es e HG).
    assert (W0 : 0 <= total K snd es) by (apply total_nonneg; eapply positive_prefix; exact HG).
    destruct (reset_SAsc K HO b (b + 1) (snd e) p k c) as [A B]; auto; try lia; [apply (H2 0%nat); lia|intros C; apply Hc in C; apply C|].
    split; [exact A|]. split.
    + intros i Hi. destruct i as [|i].
      * split; [exact B|]. rewrite (total_snoc K HK). rewrite (bump_at K) by (destruct c; rewrite ?set_nth_length; lia).
        destruct (Nat.ltb_spec 0 k); [|lia]. destruct c.
        -- rewrite (at_set K) by lia. cbn [Nat.eqb]. replace (total K snd es + snd e) with (snd e + total K snd es) by ring. apply le_add. exact W0.
        -- apply (kle_trans K HO) with (total K snd es); [apply H2; lia|]. apply le_add. apply (klt_le K HO). exact We.
      * rewrite (bump_at K) by (destruct c; rewrite ?set_nth_length; lia).
        assert (EQ : at_ (if c then set_nth 0 (snd e) p else p) (S i) = at_ p (S i)).
        { destruct c; [|reflexivity]. rewrite (at_set K) by lia. reflexivity. }
        rewrite EQ. destruct (H2 (S i) Hi) as [G1 G2]. rewrite (total_snoc K HK). destruct (Nat.ltb (S i) k).
        -- split; [exact G1|]. apply (kle_trans K HO) with (total K snd es); [exact G2|]. apply le_add. apply (klt_le K HO). exact We.
        -- split; [apply (pos_add K HO); assumption|]. apply (kadd_le K HO). exact G2.
    + exists v, w. rewrite firstn_app. replace (b + 1 - length es)%nat with 0%nat by lia. rewrite firstn_O, app_nil_r.
      split; [exact H3|]. split; [exact H4|].
      assert (RL := reset_last K (b + 1) (snd e) p k c ltac:(lia) Lp Hk2). replace (b + 1 - 1)%nat with b in RL by lia.
      rewrite RL, H5, (total_snoc K HK). ring.
  - (* adjust *)
    clear es HL HG. intros es p i p' HG Lp Hi1 Hi2 HMv (H1 & H2 & H3). split; [eapply SAsc_adj; eauto|]. split.
    + intros j Hj. rewrite (at_set K) by lia. destruct (Nat.eqb_spec i j) as [<-|N]; [|apply H2; exact Hj].
      destruct HMv as [->|[[-> M1]|[-> M1]]]; [apply H2; exact Hj| |].
      * destruct (H2 i Hj) as [G1 G2]. split; [apply (pos_add K HO); [exact G1|apply (kone_pos K HO)]|].
        apply (kle_trans K HO) with (at_ p (S i)); [apply (klt_le K HO); exact M1|apply H2; lia].
      * destruct (H2 i Hj) as [G1 G2]. split; [eapply (klt_trans K HO); [|exact M1]; apply H2; lia|].
        apply (kle_trans K HO) with (at_ p i); [|exact G2]. apply (ksub_nonneg K HO). replace (at_ p i - (at_ p i - 1)) with 1 by ring.
        apply (klt_le K HO), (kone_pos K HO).
    + rewrite (at_set K) by lia. destruct (Nat.eqb_spec i b); [lia|exact H3].
  - intros; exact I.
  - intros es' e p q d _ _ Lp Ld _ _. destruct (wcd_des_ok b (total K snd (es' ++ [e])) p d Lp Ld) as (d' & E1 & E2). exists d'. auto.
  - lia.
  - exact HG.
  - exists s. split; [exact E|]. split; [exact Hw|]. split; [apply (heights_spec K HO); auto; lia|]. split; [exact A2|exact A7].
Qed.

Lemma StronglySorted_firstn {A} (R : A -> A -> Prop) n l : StronglySorted R l -> StronglySorted R (firstn n l).
Proof.
  intros H. revert n. induction H as [|a l HS IH HF]; intros [|n]; cbn; constructor; auto. apply Forall_firstn. exact HF.
Qed.
Lemma SAsc_firstn b p : SAsc K b p -> (b <= length p)%nat -> Increasing K (firstn b p).
Proof.
  intros H L. apply (SAsc_inc K HO). rewrite firstn_length_le by exact L. intros i Hi.
  assert (G : forall j, (j < b)%nat -> at_ (firstn b p) j = at_ p j).
  { intros j Hj. rewrite <- (firstn_skipn b p) at 2. rewrite app_nth1; [reflexivity|]. rewrite firstn_length_le; assumption. }
  rewrite !G by lia. apply H. exact Hi.
Qed.
Lemma wcd_main b es : (1 <= b)%nat -> (b < length es)%nat -> Forall (fun e => ltb K 0 (snd e) = true) es ->
  exists s ps, wcd_run K b es = Ok s /\ wcd_pairs K s = ps /\
    MarkerHeights K (b + 1) (map fst es) (map fst ps) /\
    Increasing K (firstn b (map snd ps)) /\
    Forall (fun y => ltb K 0 y = true /\ ltb K 1 y = false) (map snd ps) /\
    exists v w, In (v, w) (firstn (b + 1) es) /\ IsMax K (map fst (firstn (b + 1) es)) v /\
      nth_error (map snd ps) b = Some (1 - (TotalWeight K (firstn (b + 1) es) - w) / TotalWeight K es).
Proof.
  intros Hb HL HG. destruct (wcd_run_main b es Hb HL HG) as (s & E & Hw & HH & Lp & (H1 & H2 & v & w & H3 & H4 & H5)).
  exists s, (wcd_pairs K s). split; [exact E|]. split; [reflexivity|].
  assert (LL : length (mh K (ps_marks K s)) = length (mp K (ps_marks K s))) by (destruct HH as [L _]; congruence).
  assert (WP : 0 < TotalWeight K es).
  { destruct (H2 0%nat ltac:(lia)) as [A B]. eapply (klt_le_trans K HO); [exact A|exact B]. }
  assert (WN := kpos_neq0 K HO _ WP).
  assert (MS : map snd (wcd_pairs K s) = map (fun y => y / TotalWeight K es) (mp K (ps_marks K s))).
  { unfold wcd_pairs. rewrite map_map. cbn [snd]. rewrite <- (map_map snd (fun y => y / ps_wsum K s)), map_snd_combine by exact LL. rewrite Hw. reflexivity. }
  split; [|split; [|split]].
  - unfold wcd_pairs. rewrite map_map. cbn [fst]. rewrite map_fst_combine by exact LL. exact HH.
  - rewrite MS, firstn_map. apply (StronglySorted_map (fun y => y / TotalWeight K es)).
    eapply StronglySorted_impl; [|apply SAsc_firstn; [exact H1|lia]]. intros x y _ _ Hxy. apply (kdiv_lt K HO); assumption.
  - rewrite MS, Forall_map. apply Forall_forall. intros y Hy. destruct (In_nth _ y 0 Hy) as (j & Hj & <-).
    destruct (H2 j ltac:(lia)) as [A B]. split; [apply (kdiv_pos K HO); assumption|].
    apply (ksub_nonneg K HO). replace (1 - at_ (mp K (ps_marks K s)) j / TotalWeight K es) with ((TotalWeight K es - at_ (mp K (ps_marks K s)) j) / TotalWeight K es) by (field; exact WN).
    apply (kdiv_nonneg K HO); [apply (ksub_nonneg K HO); exact B|exact WP].
  - exists v, w. split; [exact H3|]. split; [exact H4|]. rewrite MS. rewrite (map_nth_error _ b (mp K (ps_marks K s)) (d := at_ (mp K (ps_marks K s)) b)).
    + f_equal. rewrite H5. unfold TotalWeight. field. exact WN.
    + apply nth_error_nth0. lia.
Qed.

(** *** extended_p_square_quantile *)
Lemma lower_bound_is l x i : (i <= length l)%nat -> (forall j, (j < i)%nat -> at_ l j < x) -> ((i < length l)%nat -> x <= at_ l i) ->
  lower_bound K l x = i.
Proof.
  revert i. induction l as [|a l IH]; intros i Hi H1 H2; cbn [lower_bound length] in *; [lia|].
  destruct i as [|i].
  - assert (A := H2 ltac:(lia)). cbn in A. unfold kle in A. rewrite A. reflexivity.
  - assert (A := H1 0%nat ltac:(lia)). cbn in A. unfold klt in A. rewrite A. f_equal. apply IH; [lia| |].
    + intros j Hj. apply (H1 (S j)). lia.
    + intros Hl. apply H2. lia.
Qed.
Lemma Increasing_SAsc l : Increasing K l -> SAsc K (length l) l.
Proof. apply (SAsc_inc K HO). Qed.
Lemma SAsc_le l i j : SAsc K (length l) l -> (i <= j)%nat -> (j < length l)%nat -> at_ l i <= at_ l j.
Proof.
  intros H Hij Hj. destruct (Nat.eq_dec i j) as [->|N]; [apply (kle_refl K HO)|]. apply (klt_le K HO), (SAsc_lt K HO (length l)); auto. lia.
Qed.
Lemma nth_error_at l i x : nth_error l i = Some x -> (i < length l)%nat /\ at_ l i = x.
Proof.
  intros H. assert (L : (i < length l)%nat) by (apply nth_error_Some; congruence). split; [exact L|].
  rewrite (nth_error_nth0 l i 0 L) in H. congruence.
Qed.
Lemma eps_stored ip probs hs i p h : Increasing K probs -> length hs = length probs ->
  nth_error probs i = Some p -> nth_error hs i = Some h -> eps_quantile K ip probs hs p = Ok h.
Proof.
  intros HI HL Hp Hh. destruct (nth_error_at _ _ _ Hp) as [Li Ei]. apply Increasing_SAsc in HI.
  unfold eps_quantile. rewrite !(nth_error_nth0 probs _ 0) by lia.
  rewrite (lower_bound_is probs p i); [|lia| |].
  - assert (A : ltb K p (at_ probs 0) = false) by (rewrite <- Ei; apply SAsc_le; auto; lia).
    assert (B : ltb K (at_ probs (length probs - 1)) p = false) by (rewrite <- Ei; apply SAsc_le; auto; lia).
    rewrite A, B. cbn [orb]. rewrite Hp. rewrite (proj2 (keqb_true K HO p p) eq_refl), Hh. reflexivity.
  - intros j Hj. rewrite <- Ei. apply (SAsc_lt K HO (length probs)); auto.
  - intros _. rewrite Ei. apply (kle_refl K HO).
Qed.
Lemma eps_outside ip probs hs first last p : nth_error probs 0 = Some first -> nth_error probs (length probs - 1) = Some last ->
  ltb K p first = true \/ ltb K last p = true -> eps_quantile K ip probs hs p = NotANumber.
Proof.
  intros H1 H2 H3. unfold eps_quantile. rewrite H1, H2. destruct H3 as [->| ->]; cbn [orb]; [reflexivity|]. rewrite orb_true_r. reflexivity.
Qed.
(** The position of a probability strictly inside a cell. *)
Lemma eps_inside probs i p p0 p1 : Increasing K probs -> nth_error probs i = Some p0 -> nth_error probs (S i) = Some p1 ->
  p0 < p -> p < p1 -> lower_bound K probs p = S i /\
    ltb K p (at_ probs 0) = false /\ ltb K (at_ probs (length probs - 1)) p = false /\ keqb K p1 p = false.
Proof.
  intros HI H0 H1 L0 L1. destruct (nth_error_at _ _ _ H0) as [Li Ei]. destruct (nth_error_at _ _ _ H1) as [Li1 Ei1]. apply Increasing_SAsc in HI.
  split; [|split; [|split]].
  - apply lower_bound_is; [lia| |].
    + intros j Hj. apply (kle_lt_trans K HO) with p0; [|exact L0]. rewrite <- Ei. apply SAsc_le; auto. lia.
    + intros _. rewrite Ei1. apply (klt_le K HO). exact L1.
  - apply (kle_trans K HO) with p0; [|apply (klt_le K HO); exact L0]. rewrite <- Ei. apply SAsc_le; auto. lia.
  - apply (kle_trans K HO) with p1; [apply (klt_le K HO); exact L1|]. rewrite <- Ei1. apply SAsc_le; auto; lia.
  - apply not_true_iff_false. intros C. apply (keqb_true K HO) in C. rewrite C in L1. exact (klt_irrefl K HO p L1).
Qed.
Lemma line_between p0 p1 h0 h1 p : p0 < p1 -> p0 <= p -> p <= p1 -> h0 <= h1 ->
  h0 <= Line K p0 h0 p1 h1 p /\ Line K p0 h0 p1 h1 p <= h1.
Proof.
  intros L A B H. assert (P : 0 < p1 - p0) by (apply (ksub_pos K HO); exact L). assert (N := kpos_neq0 K HO _ P). unfold Line. split.
  - apply le_add. apply (kdiv_nonneg K HO); [|exact P]. apply (kmul_nonneg K HO); apply (ksub_nonneg K HO); assumption.
  - apply (ksub_nonneg K HO). replace (h1 - (h0 + (h1 - h0) * (p - p0) / (p1 - p0))) with ((h1 - h0) * (p1 - p) / (p1 - p0)) by (field; exact N).
    apply (kdiv_nonneg K HO); [|exact P]. apply (kmul_nonneg K HO); apply (ksub_nonneg K HO); assumption.
Qed.
Lemma line_mono p0 p1 h0 h1 p p' : p0 < p1 -> h0 <= h1 -> p <= p' -> Line K p0 h0 p1 h1 p <= Line K p0 h0 p1 h1 p'.
Proof.
  intros L H A. assert (P : 0 < p1 - p0) by (apply (ksub_pos K HO); exact L). assert (N := kpos_neq0 K HO _ P). unfold Line.
  apply (ksub_nonneg K HO). replace (h0 + (h1 - h0) * (p' - p0) / (p1 - p0) - (h0 + (h1 - h0) * (p - p0) / (p1 - p0))) with ((h1 - h0) * (p' - p) / (p1 - p0)) by (field; exact N).
  apply (kdiv_nonneg K HO); [|exact P]. apply (kmul_nonneg K HO); apply (ksub_nonneg K HO); assumption.
Qed.
Lemma eps_linear probs hs i p p0 p1 h0 h1 : Increasing K probs -> NonDecreasing K hs ->
  nth_error probs i = Some p0 -> nth_error probs (S i) = Some p1 -> nth_error hs i = Some h0 -> nth_error hs (S i) = Some h1 ->
  ltb K p0 p = true -> ltb K p p1 = true ->
  eps_quantile K Linear probs hs p = Ok (Line K p0 h0 p1 h1 p) /\ Between K h0 (Line K p0 h0 p1 h1 p) h1.
Proof.
  intros HI HN E0 E1 F0 F1 L0 L1. destruct (eps_inside probs i p p0 p1 HI E0 E1 L0 L1) as (A & B & C & D).
  assert (L01 : p0 < p1) by (eapply (klt_trans K HO); [exact L0|exact L1]).
  destruct (nth_error_at _ _ _ E0) as [Li Ei]. split.
  - unfold eps_quantile. rewrite A, (nth_error_nth0 probs 0 0) by lia. rewrite (nth_error_nth0 probs (length probs - 1) 0) by lia.
    rewrite B, C. cbn [orb]. rewrite E1, D. unfold before_at. cbn [Nat.leb]. replace (S i - 1)%nat with i by lia. rewrite E0, F0, F1.
    f_equal. unfold linear_at, Line. field. apply (kpos_neq0 K HO). apply (ksub_pos K HO). exact L01.
  - apply line_between; [exact L01|apply (klt_le K HO); exact L0|apply (klt_le K HO); exact L1|].
    destruct (nth_error_at _ _ _ F0) as [Lf Ef]. destruct (nth_error_at _ _ _ F1) as [Lf1 Ef1]. rewrite <- Ef, <- Ef1.
    apply (nondec_Asc K hs HN). exact Lf1.
Qed.
(** Any p of the range: it is stored or strictly inside a cell. *)
Lemma eps_cases probs first last p : Increasing K probs -> nth_error probs 0 = Some first -> nth_error probs (length probs - 1) = Some last ->
  first <= p -> p <= last -> (exists i, nth_error probs i = Some p) \/
    (exists i p0 p1, nth_error probs i = Some p0 /\ nth_error probs (S i) = Some p1 /\ p0 < p /\ p < p1).
Proof.
  intros HI. revert first. induction HI as [|a l HI IH HF]; intros first E0 El Ha Hl; [discriminate|]. cbn in E0. injection E0 as ->.
  destruct (klt_cases K HO first p) as [C|[C|C]].
  - destruct l as [|c l].
    + cbn in El. injection El as ->. exfalso. apply (klt_irrefl K HO p). eapply (kle_lt_trans K HO); [exact Hl|exact C].
    + destruct (klt_cases K HO p c) as [D|[D|D]].
      * right. exists 0%nat, first, c. auto.
      * left. exists 1%nat. cbn. congruence.
      * assert (El' : nth_error (c :: l) (length (c :: l) - 1) = Some last).
        { rewrite <- El. cbn [length]. replace (S (S (length l)) - 1)%nat with (S (S (length l) - 1)) by lia. reflexivity. }
        destruct (IH c eq_refl El' (klt_le K HO _ _ D) Hl) as [[i Hi]|(i & p0 & p1 & H1 & H2 & H3)].
        -- left. exists (S i). exact Hi.
        -- right. exists (S i), p0, p1. auto.
  - left. exists 0%nat. cbn. congruence.
  - exfalso. apply (klt_irrefl K HO p). eapply (klt_le_trans K HO); [exact C|exact Ha].
Qed.
(** The value of the linear version with the cell it lies in. *)
Definition Cell (probs hs : list T) (p v : T) (i j : nat) : Prop :=
  exists p0 p1 h0 h1, nth_error probs i = Some p0 /\ nth_error probs j = Some p1 /\ nth_error hs i = Some h0 /\ nth_error hs j = Some h1 /\
    p0 <= p /\ p <= p1 /\ h0 <= v /\ v <= h1.
Lemma eps_cell probs hs first last p : Increasing K probs -> NonDecreasing K hs -> length hs = length probs ->
  nth_error probs 0 = Some first -> nth_error probs (length probs - 1) = Some last -> first <= p -> p <= last ->
  exists v, eps_quantile K Linear probs hs p = Ok v /\
    ((exists i, nth_error probs i = Some p /\ nth_error hs i = Some v) \/
     (exists i p0 p1 h0 h1, nth_error probs i = Some p0 /\ nth_error probs (S i) = Some p1 /\ nth_error hs i = Some h0 /\ nth_error hs (S i) = Some h1 /\
        p0 < p /\ p < p1 /\ v = Line K p0 h0 p1 h1 p /\ h0 <= v /\ v <= h1)).
Proof.
  intros HI HN HL E0 El Hf Hl. destruct (eps_cases probs first last p HI E0 El Hf Hl) as [[i Hi]|(i & p0 & p1 & H0 & H1 & L0 & L1)].
  - destruct (nth_error_at _ _ _ Hi) as [Li _]. exists (at_ hs i). assert (Eh : nth_error hs i = Some (at_ hs i)) by (apply nth_error_nth0; lia).
    split; [eapply eps_stored; eauto|]. left. eauto.
  - destruct (nth_error_at _ _ _ H0) as [Li _]. destruct (nth_error_at _ _ _ H1) as [Li1 _].
    assert (F0 : nth_error hs i = Some (at_ hs i)) by (apply nth_error_nth0; lia).
    assert (F1 : nth_error hs (S i) = Some (at_ hs (S i))) by (apply nth_error_nth0; lia).
    destruct (eps_linear probs hs i p p0 p1 _ _ HI HN H0 H1 F0 F1 L0 L1) as [E [B1 B2]].
    eexists. split; [exact E|]. right. exists i, p0, p1, (at_ hs i), (at_ hs (S i)). repeat split; auto.
Qed.
Lemma eps_monotone probs hs first last p p' : Increasing K probs -> NonDecreasing K hs -> length hs = length probs ->
  nth_error probs 0 = Some first -> nth_error probs (length probs - 1) = Some last ->
  ltb K p first = false -> ltb K p' p = false -> ltb K last p' = false ->
  exists v v', eps_quantile K Linear probs hs p = Ok v /\ eps_quantile K Linear probs hs p' = Ok v' /\ ltb K v' v = false.
Proof.
  intros HI HN HL E0 El Hf Hpp Hl.
  assert (Hl' : p <= last) by (eapply (kle_trans K HO); [exact Hpp|exact Hl]).
  assert (Hf' : first <= p') by (eapply (kle_trans K HO); [exact Hf|exact Hpp]).
  destruct (eps_cell probs hs first last p HI HN HL E0 El Hf Hl') as (v & Ev & Cv).
  destruct (eps_cell probs hs first last p' HI HN HL E0 El Hf' Hl) as (v' & Ev' & Cv').
  exists v, v'. split; [exact Ev|]. split; [exact Ev'|].
  assert (HS := Increasing_SAsc _ HI). assert (HA := nondec_Asc K hs HN).
  assert (ORD : forall i j a b, nth_error probs i = Some a -> nth_error probs j = Some b -> a <= b -> (i <= j)%nat).
  { intros i j a b Ha Hb Hab. destruct (le_lt_dec i j) as [L|L]; [exact L|]. exfalso.
    destruct (nth_error_at _ _ _ Ha) as [La Ea]. destruct (nth_error_at _ _ _ Hb) as [Lb Eb].
    assert (Q := SAsc_lt K HO (length probs) probs j i HS L La). rewrite Ea, Eb in Q.
    apply (klt_irrefl K HO b). eapply (klt_le_trans K HO); [exact Q|exact Hab]. }
  assert (ORDS : forall i j a b, nth_error probs i = Some a -> nth_error probs j = Some b -> a < b -> (i < j)%nat).
  { intros i j a b Ha Hb Hab. assert (Q := ORD i j a b Ha Hb (klt_le K HO _ _ Hab)). destruct (Nat.eq_dec i j) as [->|N]; [|lia].
    rewrite Ha in Hb. injection Hb as ->. exfalso. exact (klt_irrefl K HO b Hab). }
  assert (HGT : forall i j a b, nth_error hs i = Some a -> nth_error hs j = Some b -> (i <= j)%nat -> a <= b).
  { intros i j a b Ha Hb Hij. destruct (nth_error_at _ _ _ Ha) as [La Ea]. destruct (nth_error_at _ _ _ Hb) as [Lb Eb].
    rewrite <- Ea, <- Eb. apply (Asc_le K HO (length hs)); auto. }
  fold (kle K v v').
  destruct Cv as [(i & P1 & P2)|(i & p0 & p1 & h0 & h1 & P0 & P1 & H0 & H1 & L0 & L1 & EV & B0 & B1)];
  destruct Cv' as [(j & Q1 & Q2)|(j & q0 & q1 & g0 & g1 & Q0 & Q1 & G0 & G1 & M0 & M1 & EV' & D0 & D1)].
  - apply (HGT i j); auto. apply (ORD i j p p'); auto.
  - apply (kle_trans K HO) with g0; [|exact D0]. apply (HGT i j); auto.
    assert (i < S j)%nat by (apply (ORDS i (S j) p q1); auto; eapply (kle_lt_trans K HO); [exact Hpp|exact M1]). lia.
  - apply (kle_trans K HO) with h1; [exact B1|]. apply (HGT (S i) j); auto.
    apply (ORDS i j p0 p'); auto. eapply (klt_le_trans K HO); [exact L0|exact Hpp].
  - assert (IJ : (i < S j)%nat).
    { apply (ORDS i (S j) p0 q1); auto. eapply (klt_trans K HO); [exact L0|]. eapply (kle_lt_trans K HO); [exact Hpp|exact M1]. }
    destruct (Nat.eq_dec i j) as [<-|N].
    + rewrite P0 in Q0. rewrite P1 in Q1. rewrite H0 in G0. rewrite H1 in G1. injection Q0 as <-. injection Q1 as <-. injection G0 as <-. injection G1 as <-.
      rewrite EV, EV'. apply line_mono; [eapply (klt_trans K HO); eauto|apply (HGT i (S i)); auto|exact Hpp].
    + apply (kle_trans K HO) with h1; [exact B1|]. apply (kle_trans K HO) with g0; [|exact D0]. apply (HGT (S i) j); auto. lia.
Qed.

Lemma quadratic_parabola p0 p1 p2 h0 h1 h2 p : p0 < p1 -> p1 < p2 ->
  quadratic_at K p0 p1 p2 h0 h1 h2 p = Parabola K p0 h0 p1 h1 p2 h2 p.
Proof.
  intros L1 L2. assert (L3 : p0 < p2) by (eapply (klt_trans K HO); eauto).
  assert (N1 := kpos_neq0 K HO _ (proj2 (ksub_pos K HO _ _) L1)).
  assert (N2 := kpos_neq0 K HO _ (proj2 (ksub_pos K HO _ _) L2)).
  assert (N3 := kpos_neq0 K HO _ (proj2 (ksub_pos K HO _ _) L3)).
  assert (Y1 : p0 - p1 <> 0). { intros C. apply N1. replace (p1 - p0) with (0 - (p0 - p1)) by ring. rewrite C. ring. }
  assert (Y2 : p1 - p2 <> 0). { intros C. apply N2. replace (p2 - p1) with (0 - (p1 - p2)) by ring. rewrite C. ring. }
  assert (Y3 : p0 - p2 <> 0). { intros C. apply N3. replace (p2 - p0) with (0 - (p0 - p2)) by ring. rewrite C. ring. }
  unfold quadratic_at, Parabola.
  replace ((p2 * p2 - p1 * p1) / (p2 - p1)) with (p2 + p1) by (field; exact N2).
  replace ((p1 * p1 - p0 * p0) / (p1 - p0)) with (p1 + p0) by (field; exact N1).
  replace (p2 + p1 - (p1 + p0)) with (p2 - p0) by ring. field. repeat split; assumption.
Qed.
Lemma eps_quadratic probs hs i p p0 p1 : Increasing K probs -> length hs = length probs -> (3 <= length probs)%nat ->
  nth_error probs i = Some p0 -> nth_error probs (S i) = Some p1 -> ltb K p0 p = true -> ltb K p p1 = true ->
  exists j a b c ha hb hc, (j <= i)%nat /\ (i <= j + 1)%nat /\
    nth_error probs j = Some a /\ nth_error probs (j + 1) = Some b /\ nth_error probs (j + 2) = Some c /\
    nth_error hs j = Some ha /\ nth_error hs (j + 1) = Some hb /\ nth_error hs (j + 2) = Some hc /\
    eps_quantile K Quadratic probs hs p = Ok (Parabola K a ha b hb c hc p).
Proof.
  intros HI HL H3 E0 E1 L0 L1. destruct (eps_inside probs i p p0 p1 HI E0 E1 L0 L1) as (A & B & C & D).
  assert (HS := Increasing_SAsc _ HI). destruct (nth_error_at _ _ _ E0) as [Li Ei]. destruct (nth_error_at _ _ _ E1) as [Li1 Ei1].
  unfold eps_quantile. rewrite A, (nth_error_nth0 probs 0 0) by lia. rewrite (nth_error_nth0 probs (length probs - 1) 0) by lia.
  rewrite B, C. cbn [orb]. rewrite E1, D. unfold before_at. cbn [Nat.leb]. replace (S i - 1)%nat with i by lia. rewrite E0.
  assert (G : forall j, (j + 2 < length probs)%nat -> (j <= i)%nat -> (i <= j + 1)%nat ->
    match three K probs (Some j), three K hs (Some j) with
    | Some (p0, p1, p2), Some (h0, h1, h2) => Ok (quadratic_at K p0 p1 p2 h0 h1 h2 p)
    | _, _ => UB end = Ok (Parabola K (at_ probs j) (at_ hs j) (at_ probs (j + 1)) (at_ hs (j + 1)) (at_ probs (j + 2)) (at_ hs (j + 2)) p)).
  { intros j Hj _ _. unfold three. rewrite !(nth_error_nth0 probs _ 0), !(nth_error_nth0 hs _ 0) by lia.
    f_equal. apply quadratic_parabola; apply (SAsc_lt K HO (length probs)); auto; lia. }
  set (u := (Nat.eqb (S i) 1 || leb K (p1 - p) (p - p0)) && negb (Nat.eqb (S i) (length probs - 1))).
  destruct u eqn:U.
  - apply andb_true_iff in U. destruct U as [_ U]. apply negb_true_iff, Nat.eqb_neq in U.
    exists i, (at_ probs i), (at_ probs (i + 1)), (at_ probs (i + 2)), (at_ hs i), (at_ hs (i + 1)), (at_ hs (i + 2)).
    rewrite !(nth_error_nth0 probs _ 0), !(nth_error_nth0 hs _ 0) by lia.
    do 8 (split; [lia || reflexivity|]). apply G; lia.
  - assert (Hi : (1 <= i)%nat).
    { destruct i as [|i]; [|lia]. unfold u in U. change (Nat.eqb 1 1) with true in U. rewrite orb_true_l, andb_true_l in U. apply negb_false_iff, Nat.eqb_eq in U. lia. }
    destruct i as [|i']; [lia|]. set (i := S i') in *. replace (S i - 2)%nat with (i - 1)%nat by lia.
    exists (i - 1)%nat, (at_ probs (i - 1)), (at_ probs (i - 1 + 1)), (at_ probs (i - 1 + 2)), (at_ hs (i - 1)), (at_ hs (i - 1 + 1)), (at_ hs (i - 1 + 2)).
    rewrite !(nth_error_nth0 probs _ 0), !(nth_error_nth0 hs _ 0) by lia.
    do 8 (split; [lia || reflexivity|]). apply G; lia.
Qed.
(** Two probabilities: the quadratic version reads outside. *)
Lemma eps_quadratic_two p0 p1 h0 h1 p : ltb K p0 p = true -> ltb K p p1 = true -> eps_quantile K Quadratic [p0; p1] [h0; h1] p = UB.
Proof.
  intros L0 L1. assert (L01 : p0 < p1) by (eapply (klt_trans K HO); [exact L0|exact L1]).
  assert (HI : Increasing K [p0; p1]) by (repeat constructor; exact L01).
  destruct (eps_inside [p0; p1] 0 p p0 p1 HI eq_refl eq_refl L0 L1) as (A & B & C & D). cbn in B, C.
  unfold eps_quantile. rewrite A. cbn [nth_error length Nat.sub]. rewrite B, C. cbn [orb]. rewrite D.
  unfold before_at. cbn. rewrite ?andb_false_r. reflexivity.
Qed.

(** *** The median from the cumulative distribution *)
Lemma half_gt0 : 0 < half K.
Proof. unfold half. apply (half_pos K HO). Qed.
Lemma half_index_spec h : forall j, (j < length h)%nat -> half K <= at_ (map snd h) j ->
  exists i, half_index K h = Ok i /\ (i <= j)%nat /\ half K <= at_ (map snd h) i /\ forall k, (k < i)%nat -> at_ (map snd h) k < half K.
Proof.
  induction h as [|a h IH]; intros j Hj H; [cbn in Hj; lia|]. cbn [half_index]. destruct (ltb K (snd a) (half K)) eqn:E.
  - destruct j as [|j].
    { cbn in H. unfold kle in H. congruence. }
    cbn in Hj. destruct (IH j ltac:(lia) H) as (i & E1 & E2 & E3 & E4). exists (S i). rewrite E1. cbn [obnd]. split; [reflexivity|].
    split; [lia|]. split; [exact E3|]. intros [|k] Hk; [exact E|]. apply E4. lia.
  - exists 0%nat. split; [reflexivity|]. split; [lia|]. split; [exact E|]. intros k Hk. lia.
Qed.
Lemma convex_between x x' o : x <= x' -> 0 <= o -> o <= 1 -> x <= x * o + x' * (1 - o) /\ x * o + x' * (1 - o) <= x'.
Proof.
  intros H H0 H1. split; apply (ksub_nonneg K HO).
  - replace (x * o + x' * (1 - o) - x) with ((x' - x) * (1 - o)) by ring. apply (kmul_nonneg K HO); apply (ksub_nonneg K HO); assumption.
  - replace (x' - (x * o + x' * (1 - o))) with ((x' - x) * o) by ring. apply (kmul_nonneg K HO); [apply (ksub_nonneg K HO); assumption|exact H0].
Qed.
Lemma cd_median b xs : (1 <= b)%nat -> (b < length xs)%nat -> (3 <= length xs)%nat ->
  exists s i x0 y0 x1 y1, cd_run K b xs = Ok s /\ (i < b)%nat /\
    nth_error (cd_pairs K s) i = Some (x0, y0) /\ nth_error (cd_pairs K s) (S i) = Some (x1, y1) /\
    ltb K y0 (half K) = true /\ ltb K y1 (half K) = false /\
    (S i = b -> cdmed_value K (cd_pairs K s) = UB) /\
    ((S i < b)%nat -> exists m x2 y2, nth_error (cd_pairs K s) (S (S i)) = Some (x2, y2) /\ cdmed_value K (cd_pairs K s) = Ok m /\ Between K x1 m x2).
Proof.
  intros Hb HL H3. destruct (cd_main K HO b xs Hb HL) as (s & lo & hi & E & Lps & _ & _ & P0 & Pb & ND & INC & _).
  assert (NX : 0 < #(length xs)). { destruct (length xs); [lia|]. apply (kofnat_pos K HO). }
  assert (NN := kpos_neq0 K HO _ NX). assert (T2 := two_neq0 K HO).
  set (ps := cd_pairs K s) in *.
  assert (SN : forall i, (i < b + 1)%nat -> nth_error ps i = Some (at_ (map fst ps) i, at_ (map snd ps) i)).
  { intros i Hi. rewrite (nth_error_nth0 ps i (0, 0)) by lia. f_equal.
    rewrite (nth_indep (map fst ps) 0 (fst (0, 0))) by (rewrite map_length; lia). rewrite (nth_indep (map snd ps) 0 (snd (0, 0))) by (rewrite map_length; lia).
    rewrite !map_nth. destruct (nth i ps (0, 0)); reflexivity. }
  assert (Y0 : at_ (map snd ps) 0 = 1 / #(length xs)). { assert (Q := SN 0%nat ltac:(lia)). congruence. }
  assert (Yb : at_ (map snd ps) b = 1). { assert (Q := SN b ltac:(lia)). congruence. }
  assert (H1 : half K <= 1). { apply (klt_le K HO). unfold half. apply (half_lt1 K HO). }
  destruct (half_index_spec ps b ltac:(lia) ltac:(rewrite Yb; exact H1)) as (k & Ek & Kb & K1 & K2).
  assert (K0 : at_ (map snd ps) 0 < half K).
  { rewrite Y0. apply (ksub_pos K HO). unfold half.
    assert (L2 : 1 + 1 < #(length xs)). { replace (1 + 1) with #2%nat by (cbn [ofnat]; ring). apply (kofnat_lt K HO). lia. }
    replace (1 / (1 + 1) - 1 / #(length xs)) with ((#(length xs) - (1 + 1)) / ((1 + 1) * #(length xs))) by (field; split; assumption).
    apply (kdiv_pos K HO); [apply (ksub_pos K HO); exact L2|]. apply (kmul_pos K HO); [|exact NX].
    apply (pos_add K HO); apply (kone_pos K HO). }
  destruct k as [|i]. { exfalso. unfold kle in K1. unfold klt in K0. congruence. }
  exists s, i, (at_ (map fst ps) i), (at_ (map snd ps) i), (at_ (map fst ps) (S i)), (at_ (map snd ps) (S i)). fold ps.
  split; [exact E|]. split; [lia|]. split; [apply SN; lia|]. split; [apply SN; lia|]. assert (K3 := K2 i ltac:(lia)). split; [exact K3|]. split; [exact K1|].
  split.
  - intros Hi. unfold cdmed_value. rewrite Ek. cbn [obnd]. rewrite (SN (S i)), (SN i) by lia.
    assert (Q : nth_error ps (S (S i)) = None) by (apply nth_error_None; lia). rewrite Q. reflexivity.
  - intros Hi. assert (Q := SN (S (S i)) ltac:(lia)). unfold cdmed_value. rewrite Ek. cbn [obnd]. rewrite (SN (S i)), (SN i), Q by lia. cbv zeta.
    eexists _, (at_ (map fst ps) (S (S i))), (at_ (map snd ps) (S (S i))). split; [reflexivity|]. split; [reflexivity|].
    set (y1 := at_ (map snd ps) (S i)) in *. set (y0 := at_ (map snd ps) i) in *.
    assert (Y01 : y0 < y1) by (eapply (klt_le_trans K HO); [exact K3|exact K1]).
    assert (D : 0 < y1 - y0) by (apply (ksub_pos K HO); exact Y01). assert (DN := kpos_neq0 K HO _ D).
    apply convex_between.
    + assert (A := nondec_Asc K _ ND). apply A. rewrite map_length. lia.
    + apply (kdiv_nonneg K HO); [apply (ksub_nonneg K HO); exact K1|exact D].
    + apply (ksub_nonneg K HO). replace (1 - (y1 - half K) / (y1 - y0)) with ((half K - y0) / (y1 - y0)) by (field; exact DN).
      apply (kdiv_nonneg K HO); [apply (ksub_nonneg K HO), (klt_le K HO); exact K3|exact D].
Qed.
Lemma cd_median_two xs : length xs = 2%nat -> exists s, cd_run K 1 xs = Ok s /\ cdmed_value K (cd_pairs K s) = UB.
Proof.
  intros HL. destruct (cd_main K HO 1 xs ltac:(lia) ltac:(lia)) as (s & lo & hi & E & Lps & _ & _ & P0 & _).
  exists s. split; [exact E|]. unfold cdmed_value. destruct (cd_pairs K s) as [|[x y] ps]; [discriminate|]. cbn in P0. injection P0 as -> ->.
  cbn [half_index snd]. rewrite HL. replace (1 / #2%nat) with (half K).
  - rewrite (ord_irrefl K HO). reflexivity.
  - unfold half. f_equal. cbn [ofnat]. ring.
Qed.

(** *** Extractions interleaved with pushes *)
Section Session.
Variable pairs : psq K -> list (T * T).
Variable push : psq K -> T -> T -> outcome (psq K).
Definition prun (q0 : psq K) (es : list (T * T)) : outcome (psq K) :=
  fold_left (fun o e => obnd o (fun s => push s (fst e) (snd e))) es (Ok q0).
Lemma cd_pushes_app (a c : list (cd_op K)) : cd_pushes (a ++ c) = cd_pushes a ++ cd_pushes c.
Proof. apply flat_map_app. Qed.
Lemma prun_snoc q0 es e : prun q0 (es ++ [e]) = obnd (prun q0 es) (fun s => push s (fst e) (snd e)).
Proof. unfold prun. rewrite fold_left_app. reflexivity. Qed.
Lemma session_inv q0 h0 ops c m out : cd_session K pairs push q0 h0 ops = Ok (c, m, out) ->
  prun q0 (cd_pushes ops) = Ok (cs_psq K c) /\ (cs_dirty K c = true \/ cs_hist K c = pairs (cs_psq K c)) /\
  (cm_dirty K m = true \/ exists r, cm_median K m = Some r /\ cdmed_value K (pairs (cs_psq K c)) = Ok r).
Proof.
  revert c m out. induction ops as [|op ops IH] using rev_ind; intros c m out H.
  - cbn in H. injection H as <- <- <-. cbn. auto.
  - unfold cd_session in H. rewrite fold_left_app in H. cbn [fold_left] in H. fold (cd_session K pairs push q0 h0 ops) in H.
    destruct (cd_session K pairs push q0 h0 ops) as [[[c1 m1] out1]| |]; [|discriminate H|discriminate H].
    destruct (IH c1 m1 out1 eq_refl) as (A & B & C). cbn [cd_step obnd] in H. rewrite cd_pushes_app.
    destruct op as [x w| |]; cbn [cd_pushes flat_map app] in *.
    + unfold cdist_push in H. rewrite prun_snoc, A. cbn [obnd fst snd].
      destruct (push (cs_psq K c1) x w) as [q| |]; [|discriminate H|discriminate H]. cbn [obnd] in H. injection H as <- <- <-. split; [reflexivity|]. split; left; reflexivity.
    + rewrite app_nil_r. injection H as <- <- <-. unfold cdist_extract. destruct (cs_dirty K c1) eqn:E; cbn [cs_psq cs_hist cs_dirty]; (split; [exact A|]); (split; [|exact C]); [right; reflexivity|rewrite E; exact B].
    + rewrite app_nil_r. destruct (cm_dirty K m1) eqn:E.
      * destruct (cdmed_value K (cs_hist K (cdist_extract K pairs c1))) as [r| |] eqn:EV; [|discriminate H|discriminate H]. cbn [obnd] in H. injection H as <- <- <-.
        unfold cdist_extract in *. destruct (cs_dirty K c1) eqn:E'; cbn [cs_psq cs_hist cs_dirty cm_dirty cm_median] in *.
        -- split; [exact A|]. split; [auto|]. right. eauto.
        -- destruct B as [B|B]; [discriminate|]. rewrite E'. split; [exact A|]. split; [auto|]. right. rewrite <- B. eauto.
      * destruct C as [C|(r & C1 & C2)]; [discriminate|]. rewrite C1 in H. injection H as <- <- <-. rewrite E. split; [exact A|]. split; [exact B|]. right. eauto.
Qed.
Lemma session_extract q0 h0 ops c m out : cd_session K pairs push q0 h0 ops = Ok (c, m, out) ->
  exists q c', prun q0 (cd_pushes ops) = Ok q /\
    cd_session K pairs push q0 h0 (ops ++ [CExtract K]) = Ok (c', m, out ++ [inl (pairs q)]).
Proof.
  intros H. destruct (session_inv q0 h0 ops c m out H) as (A & B & _). exists (cs_psq K c), (cdist_extract K pairs c). split; [exact A|].
  unfold cd_session. rewrite fold_left_app. fold (cd_session K pairs push q0 h0 ops). rewrite H. cbn [fold_left cd_step obnd].
  do 5 f_equal. unfold cdist_extract. destruct (cs_dirty K c); [reflexivity|]. destruct B as [B|B]; [discriminate|exact B].
Qed.
Lemma session_median q0 h0 ops c m out : cd_session K pairs push q0 h0 ops = Ok (c, m, out) ->
  exists q, prun q0 (cd_pushes ops) = Ok q /\
    match cdmed_value K (pairs q) with
    | Ok r => exists c' m', cd_session K pairs push q0 h0 (ops ++ [CMedian K]) = Ok (c', m', out ++ [inr r])
    | NotANumber => cd_session K pairs push q0 h0 (ops ++ [CMedian K]) = NotANumber
    | UB => cd_session K pairs push q0 h0 (ops ++ [CMedian K]) = UB
    end.
Proof.
  intros H. destruct (session_inv q0 h0 ops c m out H) as (A & B & C). exists (cs_psq K c). split; [exact A|].
  assert (EX : cs_hist K (cdist_extract K pairs c) = pairs (cs_psq K c)).
  { unfold cdist_extract. destruct (cs_dirty K c); [reflexivity|]. destruct B as [B|B]; [discriminate|exact B]. }
  unfold cd_session. rewrite fold_left_app. fold (cd_session K pairs push q0 h0 ops). rewrite H. cbn [fold_left cd_step obnd].
  destruct (cm_dirty K m) eqn:E.
  - rewrite EX. destruct (cdmed_value K (pairs (cs_psq K c))) as [r| |]; cbn [obnd]; eauto.
  - destruct C as [C|(r & C1 & C2)]; [discriminate|]. rewrite C2, C1. eauto.
Qed.
Lemma prun_prefix q0 es e q : prun q0 (es ++ [e]) = Ok q -> exists q', prun q0 es = Ok q' /\ push q' (fst e) (snd e) = Ok q.
Proof. rewrite prun_snoc. destruct (prun q0 es) as [q'| |]; cbn [obnd]; intros H; [eauto|discriminate|discriminate]. Qed.
Lemma session_ok q0 h0 ops q : Forall (fun o => o <> CMedian K) ops -> prun q0 (cd_pushes ops) = Ok q ->
  exists c m out, cd_session K pairs push q0 h0 ops = Ok (c, m, out).
Proof.
  revert q. induction ops as [|op ops IH] using rev_ind; intros q HF HR.
  - cbn. eauto.
  - apply Forall_app in HF. destruct HF as [HF H1]. inversion_clear H1. rewrite cd_pushes_app in HR.
    assert (EX : exists q', prun q0 (cd_pushes ops) = Ok q').
    { destruct op; cbn [cd_pushes flat_map app] in HR; [apply prun_prefix in HR; destruct HR as (q' & H' & _); eauto| |]; rewrite app_nil_r in HR; eauto. }
    destruct EX as (q' & Eq'). destruct (IH q' HF Eq') as (c & m & out & E). destruct (session_inv q0 h0 ops c m out E) as (A & _).
    unfold cd_session. rewrite fold_left_app. fold (cd_session K pairs push q0 h0 ops). rewrite E. cbn [fold_left cd_step obnd].
    destruct op as [x w| |]; cbn [cd_pushes flat_map app] in HR.
    + rewrite prun_snoc, A in HR. cbn [obnd fst snd] in HR. unfold cdist_push. rewrite HR. cbn [obnd]. eauto.
    + eauto.
    + congruence.
Qed.
End Session.

Lemma cd_any b xs : (1 <= b)%nat -> exists s, cd_run K b xs = Ok s.
Proof.
  intros Hb. destruct (le_lt_dec (b + 1) (length xs)) as [L|L].
  - destruct (cd_main K HO b xs Hb ltac:(lia)) as (s & _ & _ & E & _). eauto.
  - eexists. apply (run_early K HO (b + 1) false 0 (des_inc K (cd_inc K b)) (cd_init K b)).
    + lia.
    + apply repeat_length.
    + cbn [cd_init mp]. rewrite map_length, seq_length. reflexivity.
    + cbn [cd_init md]. rewrite map_length, seq_length. reflexivity.
    + rewrite units_length. exact L.
Qed.
Lemma wcd_any b es : (1 <= b)%nat -> Forall (fun e => ltb K 0 (snd e) = true) es -> exists s, wcd_run K b es = Ok s.
Proof.
  intros Hb HG. destruct (le_lt_dec (b + 1) (length es)) as [L|L].
  - destruct (wcd_main b es Hb ltac:(lia) HG) as (s & _ & E & _). eauto.
  - eexists. apply (run_early K HO (b + 1) true b (wcd_des K b) (wcd_init K b)).
    + lia.
    + apply repeat_length.
    + apply repeat_length.
    + apply repeat_length.
    + exact L.
Qed.
Lemma ones_units es : Forall (fun e => snd e = 1) es -> es = units K (map fst es).
Proof.
  unfold units. rewrite map_map. induction 1 as [|[x w] es H HF IH]; [reflexivity|]. cbn in *. rewrite <- IH, H. reflexivity.
Qed.
(** An extraction after any calls sees the distribution of the samples pushed. *)
Lemma cd_session_top b h0 ops : (1 <= b)%nat -> Forall (fun o => o <> CMedian K) ops -> Forall (fun e => snd e = 1) (cd_pushes ops) ->
  exists s c c' m out, cd_run K b (map fst (cd_pushes ops)) = Ok s /\
    cd_session K (cd_pairs K) (cd_push K b) (cd_start K b) h0 ops = Ok (c, m, out) /\
    cd_session K (cd_pairs K) (cd_push K b) (cd_start K b) h0 (ops ++ [CExtract K]) = Ok (c', m, out ++ [inl (cd_pairs K s)]).
Proof.
  intros Hb HF H1. destruct (cd_any b (map fst (cd_pushes ops)) Hb) as (s & Es).
  assert (Es' := Es). unfold cd_run in Es'. rewrite <- ones_units in Es' by exact H1.
  change (prun (cd_push K b) (cd_start K b) (cd_pushes ops) = Ok s) in Es'.
  destruct (session_ok (cd_pairs K) (cd_push K b) (cd_start K b) h0 ops s HF Es') as (c & m & out & E).
  destruct (session_extract _ _ _ _ _ _ _ _ E) as (q & c' & Eq & E').
  assert (q = s) by congruence. subst q. exists s, c, c', m, out. auto.
Qed.
Lemma wcd_session_top b h0 ops : (1 <= b)%nat -> Forall (fun o => o <> CMedian K) ops -> Forall (fun e => ltb K 0 (snd e) = true) (cd_pushes ops) ->
  exists s c c' m out, wcd_run K b (cd_pushes ops) = Ok s /\
    cd_session K (wcd_pairs K) (wcd_push K b) (wcd_start K b) h0 ops = Ok (c, m, out) /\
    cd_session K (wcd_pairs K) (wcd_push K b) (wcd_start K b) h0 (ops ++ [CExtract K]) = Ok (c', m, out ++ [inl (wcd_pairs K s)]).
Proof.
  intros Hb HF H1. destruct (wcd_any b (cd_pushes ops) Hb H1) as (s & Es).
  assert (Es' := Es). change (prun (wcd_push K b) (wcd_start K b) (cd_pushes ops) = Ok s) in Es'.
  destruct (session_ok (wcd_pairs K) (wcd_push K b) (wcd_start K b) h0 ops s HF Es') as (c & m & out & E).
  destruct (session_extract _ _ _ _ _ _ _ _ E) as (q & c' & Eq & E').
  assert (q = s) by congruence. subst q. exists s, c, c', m, out. auto.
Qed.
(** The median after any calls. *)
Lemma cd_median_session b h0 ops c m out : Forall (fun e => snd e = 1) (cd_pushes ops) ->
  cd_session K (cd_pairs K) (cd_push K b) (cd_start K b) h0 ops = Ok (c, m, out) ->
  exists s, cd_run K b (map fst (cd_pushes ops)) = Ok s /\
    match cdmed_value K (cd_pairs K s) with
    | Ok r => exists c' m', cd_session K (cd_pairs K) (cd_push K b) (cd_start K b) h0 (ops ++ [CMedian K]) = Ok (c', m', out ++ [inr r])
    | NotANumber => cd_session K (cd_pairs K) (cd_push K b) (cd_start K b) h0 (ops ++ [CMedian K]) = NotANumber
    | UB => cd_session K (cd_pairs K) (cd_push K b) (cd_start K b) h0 (ops ++ [CMedian K]) = UB
    end.
Proof.
  intros H1 E. destruct (session_median _ _ _ _ _ _ _ _ E) as (q & Eq & HM). exists q. split; [|exact HM].
  unfold cd_run. rewrite <- ones_units by exact H1. exact Eq.
Qed.
(** With one cell the median is always undefined. *)
Lemma cd_median_one xs : (2 <= length xs)%nat -> exists s, cd_run K 1 xs = Ok s /\ cdmed_value K (cd_pairs K s) = UB.
Proof.
  intros HL. destruct (Nat.eq_dec (length xs) 2) as [E|E]; [apply cd_median_two; exact E|].
  destruct (cd_median 1 xs ltac:(lia) ltac:(lia) ltac:(lia)) as (s & i & x0 & y0 & x1 & y1 & H1 & H2 & _ & _ & _ & _ & H3 & _).
  exists s. split; [exact H1|]. apply H3. lia.
Qed.
(** The last cumulative value of the weighted distribution is less than 1. *)
Lemma wcd_last b es : (1 <= b)%nat -> (b < length es)%nat -> Forall (fun e => ltb K 0 (snd e) = true) es ->
  exists s y, wcd_run K b es = Ok s /\ nth_error (map snd (wcd_pairs K s)) b = Some y /\ ltb K y 1 = true.
Proof.
  intros Hb HL HG. destruct (wcd_main b es Hb HL HG) as (s & ps & E & <- & _ & _ & _ & v & w & Hin & _ & Ey).
  exists s. eexists. split; [exact E|]. split; [exact Ey|].
  set (hd := firstn (b + 1) es) in *.
  assert (LH : length hd = (b + 1)%nat) by (unfold hd; rewrite firstn_length_le; lia).
  assert (PH : positive K hd) by (apply Forall_firstn; exact HG).
  assert (WP : 0 < TotalWeight K es).
  { apply (klt_le_trans K HO) with (TotalWeight K hd); [|apply total_part; exact HG]. unfold TotalWeight. clear -HO HK PH LH.
    destruct hd as [|e l]; [cbn in LH; lia|]. inversion_clear PH. rewrite total_cons. apply (klt_le_trans K HO) with (snd e); [exact H|]. apply le_add.
    apply total_nonneg. exact H0. }
  assert (WN := kpos_neq0 K HO _ WP).
  assert (D : 0 < TotalWeight K hd - w).
  { apply (ksub_pos K HO). apply in_split in Hin. destruct Hin as (a & c & Eh). rewrite Eh in *. unfold TotalWeight. rewrite (total_app K HK), total_cons. cbn [snd].
    apply Forall_app in PH. destruct PH as [Pa Pc]. inversion_clear Pc.
    apply (ksub_pos K HO). replace (total K snd a + (w + total K snd c) - w) with (total K snd a + total K snd c) by ring.
    rewrite app_length in LH. cbn in LH. destruct a as [|e a].
    - destruct c as [|e c]; [cbn in LH; lia|]. inversion_clear H0. rewrite total_cons. cbn [total fold_right].
      replace (0 + (snd e + total K snd c)) with (snd e + total K snd c) by ring.
      apply (klt_le_trans K HO) with (snd e); [exact H1|]. apply le_add, total_nonneg. exact H2.
    - inversion_clear Pa. rewrite total_cons. replace (snd e + total K snd a + total K snd c) with (snd e + (total K snd a + total K snd c)) by ring.
      apply (klt_le_trans K HO) with (snd e); [exact H1|]. apply le_add. rewrite <- (total_app K HK). apply total_nonneg.
      apply Forall_app. split; assumption. }
  apply (ksub_pos K HO). replace (1 - (1 - (TotalWeight K hd - w) / TotalWeight K es)) with ((TotalWeight K hd - w) / TotalWeight K es) by (field; exact WN).
  apply (kdiv_pos K HO); assumption.
Qed.

(** *** One probability: the five markers of p_square_quantile *)
Lemma ext_one_incs p : ext_incs K [p] = pq_inc K p.
Proof. assert (N := two_neq0 K HO). unfold ext_incs, pq_inc. cbn [app ext_inc]. unfold half. f_equal. f_equal; [field; exact N|]. f_equal. f_equal; field; exact N. Qed.
Lemma ext_one p xs : ext_run K [p] xs = pq_run K p xs.
Proof.
  unfold ext_run, pq_run. rewrite ext_one_incs. replace (ext_init K [p]) with (pq_init K p); [reflexivity|].
  unfold ext_init, pq_init. rewrite ext_one_incs. assert (N := two_neq0 K HO). f_equal.
  unfold pq_inc. cbn [map length ofnat]. f_equal; [ring|]. f_equal; [field; exact N|]. f_equal; [ring|]. f_equal; [field; exact N|]. f_equal. ring.
Qed.
Lemma ext_one_result p xs : exists s r, ext_run K [p] xs = Ok s /\ pq_run K p xs = Ok s /\ pq_result K s = Ok r /\ ext_result K [p] s = Ok [r].
Proof.
  rewrite ext_one. assert (E : exists s r, pq_run K p xs = Ok s /\ pq_result K s = Ok r).
  { destruct (le_lt_dec 5 (length xs)) as [L|L].
    - destruct (pq_main K HO p xs L) as (s & r & _ & _ & E & _ & _ & _ & R & _). eauto.
    - destruct (pq_few K HO p xs L) as (s & E & R). eauto. }
  destruct E as (s & r & E & R). exists s, r. split; [exact E|]. split; [exact E|]. split; [exact R|].
  unfold pq_result in R. unfold ext_result. cbn [length seq map Nat.mul Nat.add]. destruct (nth_error (mh K (ps_marks K s)) 2); [|discriminate]. injection R as ->. reflexivity.
Qed.

(** *** Which markers a sample pushes to the right *)
Lemma upper_bound_index h x i : Asc K (length h) h -> (i < length h)%nat -> Nat.ltb i (upper_bound K h x) = negb (ltb K x (at_ h i)).
Proof.
  revert i. induction h as [|a h IH]; cbn [length upper_bound]; intros i HA Hi; [lia|].
  assert (HA' : Asc K (length h) h) by (intros j Hj; apply (HA (S j)); lia).
  destruct (ltb K x a) eqn:E.
  - replace (i <? 0)%nat with false by reflexivity. symmetry. apply negb_false_iff.
    apply (klt_le_trans K HO) with a; [exact E|]. apply (Asc_le K HO (S (length h)) (a :: h) 0 i HA); lia.
  - destruct i as [|i]; [cbn; rewrite E; reflexivity|]. cbn [nth]. rewrite <- IH by (auto; lia). reflexivity.
Qed.
Lemma push_right M h p x w : (2 <= M)%nat -> length h = M -> length p = M -> NonDecreasing K h ->
  exists h' k, locate K M h x = Ok (h', k) /\ length h' = M /\ length (bump K k w p) = M /\
    forall i, (i < M)%nat ->
      at_ h' i = (if Nat.eqb i 0 then if ltb K x (at_ h 0) then x else at_ h 0
                  else if Nat.eqb i (M - 1) then if ltb K x (at_ h (M - 1)) then at_ h (M - 1) else x
                  else at_ h i) /\
      at_ (bump K k w p) i = (if Nat.eqb i 0 then at_ p i
                  else if Nat.eqb i (M - 1) then at_ p i + w
                  else if ltb K x (at_ h i) then at_ p i + w else at_ p i).
Proof.
  intros HM Lh Lp HN. assert (HA := nondec_Asc K h HN). rewrite Lh in HA.
  unfold locate. rewrite !(nth_error_nth0 h _ 0) by lia.
  destruct (ltb K x (at_ h 0)) eqn:E0; [|destruct (leb K (at_ h (M - 1)) x) eqn:E1]; eexists _, _; (split; [reflexivity|]); rewrite ?set_nth_length;
    (split; [assumption|]); (split; [rewrite (bump_length K); exact Lp|]); intros i Hi; rewrite (bump_at K) by lia; rewrite ?(at_set K) by lia; rewrite ?(Nat.eqb_sym 0 i), ?(Nat.eqb_sym (M - 1) i).
  - assert (G : forall j, (j < M)%nat -> ltb K x (at_ h j) = true).
    { intros j Hj. apply (klt_le_trans K HO) with (at_ h 0); [exact E0|]. apply (Asc_le K HO M); auto; lia. }
    split.
    + destruct (Nat.eqb_spec i 0); [reflexivity|]. destruct (Nat.eqb_spec i (M - 1)) as [->|]; [|reflexivity]. rewrite G by lia. reflexivity.
    + destruct (Nat.eqb_spec i 0) as [->|N]; [reflexivity|]. destruct (Nat.ltb_spec i 1); [lia|]. rewrite G by lia. destruct (Nat.eqb i (M - 1)); reflexivity.
  - apply (leb_kle K) in E1.
    assert (G : forall j, (j < M)%nat -> ltb K x (at_ h j) = false).
    { intros j Hj. apply (kle_trans K HO) with (at_ h (M - 1)); [|exact E1]. apply (Asc_le K HO M); auto; lia. }
    split.
    + destruct (Nat.eqb_spec i (M - 1)) as [->|N].
      * destruct (Nat.eqb_spec (M - 1) 0); [lia|]. rewrite G by lia. reflexivity.
      * destruct (Nat.eqb_spec i 0) as [->|]; reflexivity.
    + rewrite G by lia. destruct (Nat.ltb_spec i (M - 1)); destruct (Nat.eqb_spec i 0); destruct (Nat.eqb_spec i (M - 1)); try lia; reflexivity.
  - assert (E2 : ltb K x (at_ h (M - 1)) = true) by (unfold leb in E1; apply negb_false_iff in E1; exact E1).
    rewrite E2. split.
    + destruct (Nat.eqb_spec i 0) as [->|N]; [reflexivity|]. destruct (Nat.eqb_spec i (M - 1)) as [->|]; reflexivity.
    + rewrite upper_bound_index by (rewrite ?Lh; auto). destruct (Nat.eqb_spec i 0) as [->|N]; [rewrite E0; reflexivity|].
      destruct (Nat.eqb_spec i (M - 1)) as [->|]; [rewrite E2; reflexivity|]. destruct (ltb K x (at_ h i)); reflexivity.
Qed.
End More.
