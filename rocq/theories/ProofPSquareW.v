(** The weighted P-square accumulators. *)
From Coq Require Import List Arith Bool Lia Field Permutation Sorted.
From Verif Require Import Num NumFacts ModelRolling ModelDensity ModelPSquare SpecStats SpecDensity SpecTail SpecPSquare
  ProofBasic ProofOrder ProofRollingBuf ProofTail ProofPSquare ProofPSquareRun ProofPSquareTop.
Import ListNotations.

Section Top.
Variable K : Num.
Hypothesis HO : OrderedLaws K.
Let HK : FieldLaws K := ord_field K HO.
Local Notation T := (car K).
Local Notation "0" := (zero K) : num_scope.
Local Notation "1" := (one K) : num_scope.
Local Notation "x + y" := (add K x y) : num_scope.
Local Notation "x - y" := (sub K x y) : num_scope.
Local Notation "x * y" := (mul K x y) : num_scope.
Local Notation "x / y" := (div K x y) : num_scope.
Local Notation "- x" := (opp K x) : num_scope.
Local Notation "# n" := (ofnat K n) (at level 2) : num_scope.
Local Notation "x < y" := (klt K x y) : num_scope.
Local Notation "x <= y" := (kle K x y) : num_scope.
Local Open Scope num_scope.
Add Field KfieldPSW : (fl_field K HK).
Local Notation at_ l i := (nth i l 0).

Definition positive (es : list (T * T)) : Prop := Forall (fun e => 0 < snd e) es.
Lemma positive_prefix es e : positive (es ++ [e]) -> positive es.
Proof. intros H. apply Forall_app in H. apply H. Qed.
Lemma positive_last es e : positive (es ++ [e]) -> 0 < snd e.
Proof. intros H. apply Forall_app in H. destruct H as [_ H]. inversion_clear H. assumption. Qed.
Lemma lt_add_pos a w : 0 < w -> a < a + w.
Proof. intros H. apply (ksub_pos K HO). replace (a + w - a) with w by ring. exact H. Qed.
Lemma pos_add a b : 0 < a -> 0 < b -> 0 < a + b.
Proof. intros H1 H2. apply (klt_trans K HO) with a; [exact H1|apply lt_add_pos; exact H2]. Qed.
Lemma nonneg_total (l : list T) : Forall (fun x => 0 < x) l -> 0 <= total K (fun x => x) l.
Proof.
  induction 1 as [|x l Hx _ IH]; [rewrite total_nil; apply (kle_refl K HO)|]. rewrite total_cons.
  apply (kle_trans K HO) with (0 + 0); [replace (0 + 0) with 0 by ring; apply (kle_refl K HO)|].
  apply (kadd_le2 K HO); [apply (klt_le K HO); exact Hx|exact IH].
Qed.
Lemma Forall_firstn {A} (P : A -> Prop) n l : Forall P l -> Forall P (firstn n l).
Proof. intros H. revert n. induction H; intros [|n]; cbn; constructor; auto. Qed.
Lemma total_id {A} (f : A -> T) l : total K (fun x => x) (map f l) = total K f l.
Proof. induction l as [|a l IH]; [reflexivity|]. cbn [map]. rewrite !total_cons, IH. reflexivity. Qed.
Lemma total_perm {A} (f : A -> T) l l' : Permutation l l' -> total K f l = total K f l'.
Proof.
  induction 1; rewrite ?total_cons; [reflexivity|congruence|ring|congruence].
Qed.
Lemma firstn_S_total (l : list T) i : (i < length l)%nat ->
  total K (fun x => x) (firstn (S i) l) = total K (fun x => x) (firstn i l) + at_ l i.
Proof.
  revert i. induction l as [|x l IH]; intros i Hi; [cbn in Hi; lia|]. destruct i as [|i].
  - rewrite firstn_cons, !firstn_O, total_cons, total_nil. cbn. ring.
  - cbn in Hi. rewrite !firstn_cons, !total_cons, IH by lia. cbn [nth]. ring.
Qed.

(** *** The initial positions *)
Lemma pinit_at M cum m0 es i : length es = M -> (1 <= cum)%nat -> (i < M)%nat ->
  at_ (pinit K M true cum m0 es) i =
    if Nat.ltb i cum then total K snd (firstn (S i) (sel_sort K M es)) else at_ (map snd (sel_sort K M es)) i.
Proof.
  intros HL Hc Hi. unfold pinit. assert (L := sel_sort_length K HO M es HL).
  rewrite (cumulate_at K HO) by (rewrite ?map_length; lia).
  destruct (Nat.ltb i cum); [|reflexivity]. rewrite firstn_map, total_id. reflexivity.
Qed.
Lemma sel_positive M es : length es = M -> positive es -> positive (sel_sort K M es).
Proof.
  intros HL HG. destruct (sel_sort_spec K HO M es HL) as [P _]. unfold positive in *. rewrite Forall_forall in *.
  intros e He. apply HG. eapply Permutation_in; [symmetry; exact P|exact He].
Qed.
Lemma positive_at es i : positive es -> (i < length es)%nat -> 0 < at_ (map snd es) i.
Proof.
  intros HG Hi. assert (H : In (at_ (map snd es) i) (map snd es)) by (apply nth_In; rewrite map_length; exact Hi).
  apply in_map_iff in H. destruct H as (e & <- & He). unfold positive in HG. rewrite Forall_forall in HG. apply HG. exact He.
Qed.
Lemma pinit_SAsc M cum m0 es : length es = M -> positive es -> (1 <= cum)%nat -> (cum <= M)%nat ->
  SAsc K cum (pinit K M true cum m0 es) /\ 0 < at_ (pinit K M true cum m0 es) 0 \/ M = O.
Proof.
  intros HL HG Hc1 Hc2. destruct (Nat.eq_dec M 0) as [|NM]; [right; assumption|left].
  assert (L := sel_sort_length K HO M es HL). assert (HP := sel_positive M es HL HG). split.
  - intros i Hi. rewrite !pinit_at by lia. destruct (Nat.ltb_spec i cum); [|lia]. destruct (Nat.ltb_spec (S i) cum); [|lia].
    rewrite <- !(total_id snd), <- !firstn_map. rewrite (firstn_S_total _ (S i)) by (rewrite map_length; lia).
    apply lt_add_pos. apply positive_at; [exact HP|lia].
  - rewrite pinit_at by lia. destruct (Nat.ltb_spec 0 cum); [|lia].
    rewrite <- (total_id snd), <- firstn_map, firstn_S_total by (rewrite map_length; lia).
    rewrite firstn_O, total_nil. replace (0 + at_ (map snd (sel_sort K M es)) 0) with (at_ (map snd (sel_sort K M es)) 0) by ring.
    apply positive_at; [exact HP|lia].
Qed.
Lemma pinit_last M m0 es : length es = M -> (1 <= M)%nat -> at_ (pinit K M true M m0 es) (M - 1) = total K snd es.
Proof.
  intros HL HM. rewrite pinit_at by lia. destruct (Nat.ltb_spec (M - 1) M); [|lia].
  destruct (sel_sort_spec K HO M es HL) as [P _]. rewrite (total_perm snd _ _ P).
  rewrite firstn_all2; [reflexivity|]. rewrite (sel_sort_length K HO M es HL). lia.
Qed.

(** Moving the positions, with a reset of the first one at a new minimum. *)
Lemma reset_SAsc L M w p k (b : bool) : (2 <= M)%nat -> (L <= M)%nat -> length p = M -> 0 < w -> SAsc K L p -> 0 < at_ p 0 ->
  (b = true -> k = 1%nat) -> (1 <= k)%nat -> (2 <= L \/ L <= 1)%nat ->
  SAsc K L (bump K k w (if b then set_nth 0 w p else p)) /\
  0 < at_ (bump K k w (if b then set_nth 0 w p else p)) 0.
Proof.
  intros HM HLM Lp Hw HS H0 Hb Hk _. destruct b.
  - rewrite (Hb eq_refl). split.
    + intros i Hi. rewrite !(bump_at K) by (rewrite set_nth_length; lia). rewrite !(at_set K) by lia.
      destruct i as [|i].
      * cbn [Nat.ltb Nat.leb Nat.eqb]. assert (H1 := HS 0%nat Hi).
        replace (at_ p 1 + w) with (w + at_ p 1) by ring. apply lt_add_pos.
        apply (klt_trans K HO) with (at_ p 0); [exact H0|exact H1].
      * destruct (Nat.ltb_spec (S i) 1); [lia|]. destruct (Nat.ltb_spec (S (S i)) 1); [lia|].
        cbn [Nat.eqb]. apply (kadd_lt K HO). apply HS. exact Hi.
    + rewrite (bump_at K) by (rewrite set_nth_length; lia). rewrite (at_set K) by lia. cbn. exact Hw.
  - split; [apply (bump_SAsc K HO); auto; lia|]. rewrite (bump_at K) by lia. destruct (Nat.ltb_spec 0 k); [exact H0|lia].
Qed.
Lemma reset_last M w p k (b : bool) : (2 <= M)%nat -> length p = M -> (k <= M - 1)%nat ->
  at_ (bump K k w (if b then set_nth 0 w p else p)) (M - 1) = at_ p (M - 1) + w.
Proof.
  intros HM Lp Hk. rewrite (bump_at K) by (destruct b; rewrite ?set_nth_length; lia).
  destruct (Nat.ltb_spec (M - 1) k); [lia|]. destruct b; [|reflexivity]. rewrite (at_set K) by lia.
  destruct (Nat.eqb_spec 0 (M - 1)); [lia|reflexivity].
Qed.

Section Weighted.
Variable M : nat.
Variable inc : list T.
Variable des : T -> list T -> list T -> outcome (list T).
Variable m0 : marks K.
Hypothesis HM : (2 <= M)%nat.
Hypothesis Linc : length inc = M.
Hypothesis Lh0 : length (mh K m0) = M.
Hypothesis Lp0 : length (mp K m0) = M.
Hypothesis Ld0 : length (md K m0) = M.
Hypothesis Hdes : forall W p d, length p = M -> des W p d = Ok (map (fun f => at_ p 0 + (W - at_ p 0) * f) inc).

Definition wP (es : list (T * T)) (p : list T) : Prop :=
  SAsc K M p /\ 0 < at_ p 0 /\ at_ p (M - 1) = total K snd es.
Definition wD (es : list (T * T)) (p0 : T) (d : list T) : Prop :=
  length es = M \/ d = map (fun f => p0 + (total K snd es - p0) * f) inc.

Lemma weighted_main es : (M <= length es)%nat -> positive es -> exists s, psq_run K M true M des m0 es = Ok s /\
  ps_count K s = length es /\ ps_wsum K s = total K snd es /\
  let m := ps_marks K s in
  length (mh K m) = M /\ length (mp K m) = M /\ length (md K m) = M /\ Asc K M (mh K m) /\
  IsMin K (map fst es) (at_ (mh K m) 0) /\ IsMax K (map fst es) (at_ (mh K m) (M - 1)) /\
  wP es (mp K m) /\ wD es (at_ (mp K m) 0) (md K m).
Proof.
  apply (run_main K HO M true M des m0 HM Lh0 Lp0 Ld0 positive wP wD).
  - exact positive_prefix.
  - intros es' HL HG. destruct (pinit_SAsc M M m0 es' HL HG ltac:(lia) ltac:(lia)) as [[A B]|C]; [|lia].
    split; [exact A|]. split; [exact B|]. apply pinit_last; [exact HL|lia].
  - intros es' e p k b HG HL Lp (H1 & H2 & H3) Hk1 Hk2 Hb.
    destruct (reset_SAsc M M (snd e) p k b) as [A B]; auto; try lia; [eapply positive_last; exact HG|intros C; apply Hb in C; apply C|].
    split; [exact A|]. split; [exact B|]. rewrite reset_last by auto. rewrite H3, (total_snoc K HK). reflexivity.
  - intros es' p i p' HG Lp Hi1 Hi2 HMv (H1 & H2 & H3). split; [eapply SAsc_adj; eauto|].
    rewrite !(at_set K) by lia. destruct (Nat.eqb_spec i 0); [lia|]. destruct (Nat.eqb_spec i (M - 1)); [lia|]. auto.
  - intros es' HL HG. left. exact HL.
  - intros es' e p q d HG HL Lp Ld HP HD. rewrite Hdes by exact Lp. eexists. split; [reflexivity|].
    split; [rewrite map_length; exact Linc|]. right. reflexivity.
Qed.
Lemma weights_spec es p : length p = M -> wP es p -> MarkerWeights K M (total K snd es) p.
Proof.
  intros Lp (H1 & H2 & H3). split; [exact Lp|]. split; [apply (SAsc_inc K HO); rewrite Lp; exact H1|]. split.
  - apply Forall_forall. intros y Hy. destruct (In_nth p y 0 Hy) as (j & Hj & <-). destruct j as [|j]; [exact H2|].
    apply (klt_trans K HO) with (at_ p 0); [exact H2|]. apply (SAsc_lt K HO M p 0 (S j) H1); lia.
  - rewrite (nth_error_nth0 p _ 0) by lia. rewrite H3. reflexivity.
Qed.
(** Before the initialisation is complete the heights are the samples so far. *)

(** *** Unit weights *)
Variable mu : marks K.
Hypothesis Luh0 : length (mh K mu) = M.
Hypothesis Eup0 : mp K mu = map (fun i => #(S i)) (seq 0 M).
Hypothesis Eud0 : md K mu = map (fun f => 1 + #(M - 1) * f) inc.
Hypothesis Ehh : mh K mu = mh K m0.

Lemma Lup0 : length (mp K mu) = M.
Proof. rewrite Eup0, map_length, seq_length. reflexivity. Qed.
Lemma Lud0 : length (md K mu) = M.
Proof. rewrite Eud0, map_length. exact Linc. Qed.
Lemma ones_positive es : ones K es -> positive es.
Proof.
  unfold ones, positive. rewrite !Forall_forall. intros H e He. rewrite (H e He). apply (kone_pos K HO).
Qed.
Lemma ones_firstn es n : ones K es -> ones K (firstn n es).
Proof. apply Forall_firstn. Qed.

Lemma unit_init es : length es = M -> ones K es ->
  hinit K M true es = hinit K M false es /\ pinit K M true M m0 es = mp K mu.
Proof.
  intros HL HG. split.
  - unfold hinit. destruct (sel_sort_heights K HO M es HL) as [P S].
    apply (sorted_unique (ltb K)); [intros a b _ _ H1 H2; apply (ord_total K HO); assumption|exact S|apply (std_sort_sorted K HO)|].
    etransitivity; [symmetry; exact P|apply std_sort_perm].
  - assert (HS : ones K (sel_sort K M es)).
    { destruct (sel_sort_spec K HO M es HL) as [P _]. unfold ones in *. rewrite Forall_forall in *. intros e He. apply HG.
      eapply Permutation_in; [symmetry; exact P|exact He]. }
    apply nth_ext with (d := 0) (d' := 0).
    + rewrite Eup0, map_length, seq_length. apply (pinit_length K HO); auto.
    + intros i Hi. rewrite (pinit_length K HO) in Hi by auto. rewrite pinit_at by lia. destruct (Nat.ltb_spec i M); [|lia].
      rewrite (ones_total K HO) by (apply ones_firstn; exact HS). rewrite firstn_length, (sel_sort_length K HO M es HL), Eup0, at_ranks by lia.
      f_equal. lia.
Qed.

Lemma unit_weights es : (M <= length es)%nat -> ones K es ->
  exists s w, psq_run K M false 0 (des_inc K inc) mu es = Ok s /\ psq_run K M true M des m0 es = Ok w /\
    mh K (ps_marks K s) = mh K (ps_marks K w) /\ mp K (ps_marks K s) = mp K (ps_marks K w).
Proof.
  induction es as [|e es IH] using rev_ind; intros HL HG; [cbn in HL; lia|].
  destruct (Nat.eq_dec (length (es ++ [e])) M) as [E|N].
  - eexists _, _. split; [apply (run_init K HO M false 0 (des_inc K inc) mu HM Luh0 Lup0 Lud0); exact E|].
    split; [apply (run_init K HO M true M des m0 HM Lh0 Lp0 Ld0); exact E|]. cbn [ps_marks mh mp].
    destruct (unit_init _ E HG) as [A B]. rewrite A, B. split; reflexivity.
  - rewrite app_length in HL, N. cbn in HL, N. assert (HG' := ones_prefix K es e HG).
    destruct IH as (s & w & Es & Ew & Eh & Ep); [lia|exact HG'|].
    destruct (unweighted_main K HO M inc mu HM Linc Luh0 Eup0 Eud0 es ltac:(lia) HG')
      as (s1 & Es1 & Cs & Ws & Lhs & Lps & Lds & As & _ & _ & (_ & Ps & _) & Ds).
    destruct (weighted_main es ltac:(lia) (ones_positive es HG')) as (w1 & Ew1 & Cw & Ww & Lhw & Lpw & Ldw & Aw & _).
    rewrite Es in Es1. injection Es1 as <-. rewrite Ew in Ew1. injection Ew1 as <-. cbv zeta in *.
    change (psq_run K M false 0 (des_inc K inc) mu (es ++ [e])) with (run K M false 0 (des_inc K inc) mu (es ++ [e])).
    change (psq_run K M true M des m0 (es ++ [e])) with (run K M true M des m0 (es ++ [e])).
    rewrite !run_snoc. unfold run. rewrite Es, Ew. cbn [obnd]. unfold psq_push, psq_operate. rewrite Cs, Cw, Ws, Ww.
    destruct (Nat.leb_spec (S (length es)) M); [lia|]. rewrite (ones_last K es e HG).
    set (ms := ps_marks K s) in *. set (mw := ps_marks K w) in *.
    assert (EQ : msync K M true (des (total K snd es + 1)) mw (fst e) 1 = msync K M false (des_inc K inc (total K snd es + 1)) ms (fst e) 1).
    { unfold msync. rewrite <- Eh, <- Ep.
      destruct (locate_spec K HO M (mh K ms) (fst e) HM Lhs As) as (h' & k & EL & Lh' & HA' & Hk1 & Hk2 & Hk0 & E0 & EM).
      rewrite EL. cbn [obnd fst snd]. rewrite (nth_error_nth0 (mh K ms) 0 0) by lia. cbn [andb].
      assert (R : (if ltb K (fst e) (at_ (mh K ms) 0) then set_nth 0 1 (mp K ms) else mp K ms) = mp K ms).
      { destruct (ltb K _ _); [|reflexivity]. rewrite <- Ps at 1. apply set_nth_same. lia. }
      rewrite R. rewrite Hdes by (rewrite bump_length; exact Lps).
      assert (B0 : at_ (bump K k 1 (mp K ms)) 0 = 1).
      { rewrite (bump_at K) by lia. destruct (Nat.ltb_spec 0 k); [exact Ps|lia]. }
      rewrite B0. assert (ED := uD_step K HO inc es (fst e, 1) (md K ms) ltac:(lia) Ds).
      rewrite (total_snoc K HK) in ED. cbn [snd] in ED. rewrite (des_inc_pos K), ED. cbn [obnd].
      assert (EL2 : map (fun f => 1 + (total K snd es + 1 - 1) * f) inc = map (fun f => 1 + # (length (es ++ [(fst e, 1)]) - 1) * f) inc).
      { apply map_ext. intros f. rewrite (ones_total K HO es HG'), app_length.
        cbn [length]. replace (length es + 1 - 1)%nat with (length es) by lia. ring. }
      rewrite EL2. reflexivity. }
    rewrite EQ.
    destruct (unweighted_main K HO M inc mu HM Linc Luh0 Eup0 Eud0 (es ++ [e]) ltac:(rewrite app_length; cbn; lia) HG) as (s2 & Es2 & _).
    change (psq_run K M false 0 (des_inc K inc) mu (es ++ [e])) with (run K M false 0 (des_inc K inc) mu (es ++ [e])) in Es2.
    rewrite run_snoc in Es2. unfold run in Es2. rewrite Es in Es2. cbn [obnd] in Es2. unfold psq_push, psq_operate in Es2. rewrite Cs, Ws in Es2.
    destruct (Nat.leb_spec (S (length es)) M); [lia|]. rewrite (ones_last K es e HG) in Es2. fold ms in Es2.
    destruct (msync K M false (des_inc K inc (total K snd es + 1)) ms (fst e) 1) as [m'| |]; [|discriminate Es2|discriminate Es2].
    cbn [obnd]. eexists _, _. split; [reflexivity|]. split; [reflexivity|]. cbn. split; reflexivity.
Qed.
Lemma unit_weights_early es : (length es < M)%nat ->
  exists s w, psq_run K M false 0 (des_inc K inc) mu es = Ok s /\ psq_run K M true M des m0 es = Ok w /\
    mh K (ps_marks K s) = mh K (ps_marks K w).
Proof.
  intros HL. eexists _, _. split; [apply (run_early K HO M false 0 (des_inc K inc) mu HM Luh0 Lup0 Lud0); exact HL|].
  split; [apply (run_early K HO M true M des m0 HM Lh0 Lp0 Ld0); exact HL|]. cbn [ps_marks mh]. rewrite Ehh. reflexivity.
Qed.
End Weighted.
End Top.
