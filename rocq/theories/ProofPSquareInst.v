(** The P-square accumulators of the library, as instances. *)
From Coq Require Import List Arith Bool Lia Field Permutation Sorted.
From Verif Require Import Num NumFacts ModelRolling ModelDensity ModelPSquare SpecStats SpecDensity SpecTail SpecPSquare
  ProofBasic ProofOrder ProofRollingBuf ProofTail ProofPSquare ProofPSquareRun ProofPSquareTop ProofPSquareW.
Import ListNotations.

Section Inst.
Variable K : Num.
Hypothesis HO : OrderedLaws K.
Let HK : FieldLaws K := ord_field K HO.
Local Notation T := (car K).
Local Notation "0" := (zero K) : num_scope.
Local Notation "1" := (one K) : num_scope.
Local Notation "x + y" := (add K x y) : num_scope.
Local Notation "x - y" := (sub K x y) : num_scope.
Local Notation "x * y" := (mul K x y) : num_scope.
Local Notation "x / y" := (div K x y) : num_scope.
Local Notation "- x" := (opp K x) : num_scope.
Local Notation "# n" := (ofnat K n) (at level 2) : num_scope.
Local Notation "x < y" := (klt K x y) : num_scope.
Local Notation "x <= y" := (kle K x y) : num_scope.
Local Open Scope num_scope.
Add Field KfieldPSI : (fl_field K HK).
Local Notation at_ l i := (nth i l 0).
Local Notation two := (1 + 1).

Lemma two_neq0 : two <> 0.
Proof. assert (H := ofnat_S_neq0 K HK 1). cbn [ofnat] in H. intros E. apply H. replace (0 + 1 + 1) with two by ring. exact E. Qed.

(** *** One move (property of the update rule) *)
Lemma move_spec s i pl hl pc hc pr hr dc :
  (1 <= i)%nat ->
  nth_error (mh K s) (i - 1) = Some hl -> nth_error (mh K s) i = Some hc -> nth_error (mh K s) (i + 1) = Some hr ->
  nth_error (mp K s) (i - 1) = Some pl -> nth_error (mp K s) i = Some pc -> nth_error (mp K s) (i + 1) = Some pr ->
  nth_error (md K s) i = Some dc -> ltb K pl pc = true -> ltb K pc pr = true ->
  adjust_at K s i = Ok
    (if leb K 1 (dc - pc) && ltb K (pc + 1) pr then
       {| mh := set_nth i (MovedHeight K pl hl pc hc pr hr true) (mh K s); mp := set_nth i (pc + 1) (mp K s); md := md K s |}
     else if leb K 1 (pc - dc) && ltb K pl (pc - 1) then
       {| mh := set_nth i (MovedHeight K pl hl pc hc pr hr false) (mh K s); mp := set_nth i (pc - 1) (mp K s); md := md K s |}
     else s).
Proof.
  intros _ E1 E2 E3 E4 E5 E6 E7 O1 O2. unfold adjust_at. rewrite E1, E2, E3, E4, E5, E6, E7.
  set (d := dc - pc). set (dp := pr - pc). set (dm := pl - pc). cbv zeta.
  assert (P1 : 0 < dp) by (apply (ksub_pos K HO); exact O2).
  assert (P2 : dm < 0). { apply (ksub_pos K HO). unfold dm. replace (0 - (pl - pc)) with (pc - pl) by ring. apply (ksub_pos K HO). exact O1. }
  assert (P3 : dm < dp) by (eapply (klt_trans K HO); eauto).
  assert (N1 : dp <> 0) by (apply (kpos_neq0 K HO); exact P1).
  assert (N2 : dm <> 0). { intros C. rewrite C in P2. exact (klt_irrefl K HO 0 P2). }
  assert (N3 : dp <> dm). { intros C. rewrite C in P3. exact (klt_irrefl K HO dm P3). }
  assert (R : negb (keqb K dp 0) && negb (keqb K dm 0) && negb (keqb K dp dm) = true).
  { rewrite !andb_true_iff, !negb_true_iff. repeat split; apply not_true_iff_false; intros C; apply (keqb_true K HO) in C; contradiction. }
  rewrite R. cbn [andb].
  assert (Q1 : ltb K 1 dp = ltb K (pc + 1) pr).
  { apply eq_iff_eq_true. fold (klt K 1 dp) (klt K (pc + 1) pr). rewrite <- (ksub_pos K HO 1), <- (ksub_pos K HO (pc + 1)). unfold dp.
    replace (pr - (pc + 1)) with (pr - pc - 1) by ring. reflexivity. }
  assert (Q2 : ltb K dm (- (1)) = ltb K pl (pc - 1)).
  { apply eq_iff_eq_true. fold (klt K dm (- (1))) (klt K pl (pc - 1)). rewrite <- (ksub_pos K HO dm), <- (ksub_pos K HO pl). unfold dm.
    replace (pc - 1 - pl) with (- (1) - (pl - pc)) by ring. reflexivity. }
  assert (Q3 : leb K d (- (1)) = leb K 1 (pc - dc)).
  { apply eq_iff_eq_true. rewrite !(leb_kle K), <- (ksub_nonneg K HO d), <- (ksub_nonneg K HO 1). unfold d.
    replace (- (1) - (dc - pc)) with (pc - dc - 1) by ring. reflexivity. }
  rewrite Q1, Q2, Q3. clear Q1 Q2.
  assert (X1 : pr - pc <> 0) by exact N1. assert (X2 : pl - pc <> 0) by exact N2.
  assert (X3 : pr - pl <> 0). { intros C. apply N3. unfold dp, dm. replace pr with (pr - pl + pl) by ring. rewrite C. ring. }
  assert (Y1 : pc - pr <> 0). { intros C. apply X1. replace (pr - pc) with (0 - (pc - pr)) by ring. rewrite C. ring. }
  assert (Y2 : pc - pl <> 0). { intros C. apply X2. replace (pl - pc) with (0 - (pc - pl)) by ring. rewrite C. ring. }
  assert (Y3 : pl - pr <> 0). { intros C. apply X3. replace (pr - pl) with (0 - (pl - pr)) by ring. rewrite C. ring. }
  destruct (leb K 1 d && ltb K (pc + 1) pr) eqn:G1.
  - cbn [orb]. apply andb_true_iff in G1. destruct G1 as [G1 _]. apply (leb_kle K) in G1.
    assert (D : 0 < d) by (apply (klt_le_trans K HO) with 1; [apply (kone_pos K HO)|exact G1]).
    assert (D' : ltb K d 0 = false) by (apply (klt_le K HO); exact D). unfold klt in D. rewrite D, D'.
    f_equal. f_equal. f_equal. unfold MovedHeight.
    assert (EP : hc + 1 / (dp - dm) * ((1 - dm) * ((hr - hc) / dp) + (dp - 1) * ((hl - hc) / dm)) =
                 Parabola K pl hl pc hc pr hr (pc + 1)).
    { unfold Parabola, dp, dm. field. repeat split; try assumption; intros C; apply X3; rewrite <- C; ring. }
    rewrite EP. destruct (ltb K hl _ && ltb K _ hr); [reflexivity|]. unfold Line, dp. field. exact X1.
  - cbn [orb]. destruct (leb K 1 (pc - dc) && ltb K pl (pc - 1)) eqn:G2; [|reflexivity].
    apply andb_true_iff in G2. destruct G2 as [G2 _]. rewrite <- Q3 in G2. apply (leb_kle K) in G2.
    assert (D : d < 0). { apply (kle_lt_trans K HO) with (- (1)); [exact G2|]. apply (ksub_pos K HO). replace (0 - - (1)) with 1 by ring. apply (kone_pos K HO). }
    assert (D' : ltb K 0 d = false) by (apply (klt_le K HO); exact D). unfold klt in D. rewrite D, D'.
    f_equal. f_equal; [|f_equal; ring]. f_equal. unfold MovedHeight.
    assert (EP : hc + - (1) / (dp - dm) * ((- (1) - dm) * ((hr - hc) / dp) + (dp - - (1)) * ((hl - hc) / dm)) =
                 Parabola K pl hl pc hc pr hr (pc - 1)).
    { unfold Parabola, dp, dm. field. repeat split; try assumption; intros C; apply X3; rewrite <- C; ring. }
    rewrite EP. destruct (ltb K hl _ && ltb K _ hr); [reflexivity|]. unfold Line, dm. field. split; assumption.
Qed.

(** *** p_square_quantile *)
Lemma units_ones xs : ones K (units K xs).
Proof. unfold ones, units. rewrite Forall_map. apply Forall_forall. reflexivity. Qed.
Lemma units_fst xs : map fst (units K xs) = xs.
Proof. unfold units. rewrite map_map. apply map_id. Qed.
Lemma units_length xs : length (units K xs) = length xs.
Proof. unfold units. apply map_length. Qed.
Lemma pq_md p : md K (pq_init K p) = map (fun f => 1 + #(5 - 1) * f) (pq_inc K p).
Proof.
  cbn [pq_init md pq_inc map Nat.sub ofnat]. assert (N := two_neq0).
  repeat (f_equal; [field; exact N|]). f_equal. ring.
Qed.
Lemma heights_between M xs h i lo hi : MarkerHeights K M xs h -> IsMin K xs lo -> IsMax K xs hi -> (i < M)%nat ->
  exists r, nth_error h i = Some r /\ Between K lo r hi.
Proof.
  intros (L & S & lo' & hi' & E1 & E2 & H1 & H2) Hlo Hhi Hi. exists (at_ h i). split; [apply nth_error_nth0; lia|].
  assert (A := nondec_Asc K h S). rewrite L in A.
  rewrite (nth_error_nth0 h _ 0) in E1 by lia. injection E1 as E1. rewrite (nth_error_nth0 h _ 0) in E2 by lia. injection E2 as E2.
  split.
  - apply (kle_trans K HO) with lo'; [apply Hlo; apply H1|]. rewrite <- E1. apply (Asc_le K HO M); [exact A|lia|lia].
  - apply (kle_trans K HO) with hi'; [|apply Hhi; apply H2]. rewrite <- E2. apply (Asc_le K HO M); [exact A|lia|lia].
Qed.
Lemma heights_minmax M xs h : MarkerHeights K M xs h -> exists lo hi, IsMin K xs lo /\ IsMax K xs hi.
Proof. intros (_ & _ & lo & hi & _ & _ & A & B). eauto. Qed.

Lemma pq_main p xs : (5 <= length xs)%nat ->
  exists s r lo hi, pq_run K p xs = Ok s /\
    MarkerHeights K 5 xs (mh K (ps_marks K s)) /\ MarkerRanks K 5 (length xs) (mp K (ps_marks K s)) /\
    md K (ps_marks K s) = map (fun f => 1 + #(length xs - 1) * f) (pq_inc K p) /\
    pq_result K s = Ok r /\ IsMin K xs lo /\ IsMax K xs hi /\ Between K lo r hi.
Proof.
  intros HL.
  destruct (unweighted_main K HO 5 (pq_inc K p) (pq_init K p)) with (es := units K xs) as (s & E & _ & _ & A1 & A2 & A3 & A4 & A5 & A6 & A7 & A8);
    auto; [apply pq_md|rewrite units_length; exact HL|apply units_ones|]. cbv zeta in *.
  rewrite units_fst in A5, A6. unfold uD in A8. rewrite units_length in A8.
  assert (HH : MarkerHeights K 5 xs (mh K (ps_marks K s))) by (apply (heights_spec K HO); auto; lia).
  destruct (heights_minmax _ _ _ HH) as (lo & hi & Hlo & Hhi).
  destruct (heights_between 5 xs _ 2 lo hi HH Hlo Hhi ltac:(lia)) as (r & Er & Hr).
  exists s, r, lo, hi. split; [exact E|]. split; [exact HH|]. split.
  { rewrite <- (units_length xs). apply (ranks_spec K HO 5 (pq_inc K p) (pq_init K p)); auto. }
  split; [exact A8|]. split; [unfold pq_result; rewrite Er; reflexivity|]. auto.
Qed.

(** Fewer than five samples: the third one or 0. *)
Lemma pq_few p xs : (length xs < 5)%nat -> exists s, pq_run K p xs = Ok s /\ pq_result K s = Ok (nth 2 xs 0).
Proof.
  intros HL. eexists. split.
  - apply (run_early K HO 5 false 0 (des_inc K (pq_inc K p)) (pq_init K p)); auto. rewrite units_length. exact HL.
  - unfold pq_result. cbn [ps_marks mh]. rewrite units_fst, units_length.
    destruct xs as [|a [|b [|c [|d [|e xs]]]]]; cbn in *; try reflexivity; lia.
Qed.

(** *** weighted_p_square_quantile *)
Lemma wpq_des_eq p W pos d : length pos = 5%nat ->
  wpq_des K p W pos d = Ok (map (fun f => at_ pos 0 + (W - at_ pos 0) * f) (pq_inc K p)).
Proof.
  intros L. unfold wpq_des. rewrite (nth_error_nth0 pos 0 0) by lia. cbn [pq_inc map]. f_equal.
  assert (N := two_neq0). f_equal; [ring|]. f_equal; [field; exact N|]. f_equal; [ring|]. f_equal; [field; exact N|]. f_equal. ring.
Qed.
Lemma wpq_main p es : (5 <= length es)%nat -> Forall (fun e => ltb K 0 (snd e) = true) es ->
  exists s r lo hi, wpq_run K p es = Ok s /\
    MarkerHeights K 5 (map fst es) (mh K (ps_marks K s)) /\ MarkerWeights K 5 (TotalWeight K es) (mp K (ps_marks K s)) /\
    (length es = 5%nat \/ md K (ps_marks K s) = map (fun f => at_ (mp K (ps_marks K s)) 0 + (TotalWeight K es - at_ (mp K (ps_marks K s)) 0) * f) (pq_inc K p)) /\
    pq_result K s = Ok r /\ IsMin K (map fst es) lo /\ IsMax K (map fst es) hi /\ Between K lo r hi.
Proof.
  intros HL HG.
  destruct (weighted_main K HO 5 (pq_inc K p) (wpq_des K p) (wpq_init K)) with (es := es) as (s & E & _ & _ & A1 & A2 & A3 & A4 & A5 & A6 & A7 & A8);
    auto; [intros; apply wpq_des_eq; assumption|]. cbv zeta in *.
  assert (HH : MarkerHeights K 5 (map fst es) (mh K (ps_marks K s))) by (apply (heights_spec K HO); auto; lia).
  destruct (heights_minmax _ _ _ HH) as (lo & hi & Hlo & Hhi).
  destruct (heights_between 5 _ _ 2 lo hi HH Hlo Hhi ltac:(lia)) as (r & Er & Hr).
  exists s, r, lo, hi. split; [exact E|]. split; [exact HH|]. split.
  { apply (weights_spec K HO 5 (pq_inc K p) (wpq_init K)); auto. }
  split; [exact A8|]. split; [unfold pq_result; rewrite Er; reflexivity|]. auto.
Qed.
Lemma wpq_unit p xs : exists s w, pq_run K p xs = Ok s /\ wpq_run K p (units K xs) = Ok w /\
  mh K (ps_marks K s) = mh K (ps_marks K w) /\ pq_result K s = pq_result K w /\
  ((5 <= length xs)%nat -> mp K (ps_marks K s) = mp K (ps_marks K w)).
Proof.
  destruct (le_lt_dec 5 (length xs)) as [L|L].
  - destruct (unit_weights K HO 5 (pq_inc K p) (wpq_des K p) (wpq_init K)) with (mu := pq_init K p) (es := units K xs) as (s & w & E1 & E2 & E3 & E4); auto.
    + intros; apply wpq_des_eq; assumption.
    + apply pq_md.
    + rewrite units_length; exact L.
    + apply units_ones.
    + exists s, w. split; [exact E1|]. split; [exact E2|]. split; [exact E3|]. split; [unfold pq_result; rewrite E3; reflexivity|]. auto.
  - destruct (unit_weights_early K HO 5 (pq_inc K p) (wpq_des K p) (wpq_init K)) with (mu := pq_init K p) (es := units K xs) as (s & w & E1 & E2 & E3); auto.
    + apply pq_md.
    + rewrite units_length; exact L.
    + exists s, w. split; [exact E1|]. split; [exact E2|]. split; [exact E3|]. split; [unfold pq_result; rewrite E3; reflexivity|]. lia.
Qed.

(** *** p_square_cumulative_distribution *)
Lemma ofnat_neq0 b : (1 <= b)%nat -> #b <> 0.
Proof. destruct b; [lia|]. intros _. apply (ofnat_S_neq0 K HK). Qed.
Lemma cd_unweighted b xs : (1 <= b)%nat -> (b < length xs)%nat -> exists s, cd_run K b xs = Ok s /\
  ps_count K s = length xs /\ MarkerHeights K (b + 1) xs (mh K (ps_marks K s)) /\
  MarkerRanks K (b + 1) (length xs) (mp K (ps_marks K s)) /\
  md K (ps_marks K s) = map (fun f => 1 + #(length xs - 1) * f) (cd_inc K b).
Proof.
  intros Hb HL.
  destruct (unweighted_main K HO (b + 1) (cd_inc K b) (cd_init K b)) with (es := units K xs) as (s & E & Hc & _ & A1 & A2 & A3 & A4 & A5 & A6 & A7 & A8);
    [lia| | |reflexivity| |rewrite units_length; lia|apply units_ones|].
  { unfold cd_inc. rewrite map_length, seq_length. reflexivity. }
  { cbn [cd_init mh]. apply repeat_length. }
  { cbn [cd_init md]. unfold cd_inc. rewrite map_map. apply map_ext. intros i. replace (b + 1 - 1)%nat with b by lia. field. apply ofnat_neq0. exact Hb. }
  cbv zeta in *. rewrite units_fst in A5, A6. unfold uD in A8. rewrite units_length in A8, Hc.
  exists s. split; [exact E|]. split; [exact Hc|]. split; [apply (heights_spec K HO); auto; lia|]. split; [|exact A8].
  rewrite <- (units_length xs). apply (ranks_spec K HO (b + 1) (cd_inc K b) (cd_init K b)); auto; try lia.
  - unfold cd_inc. rewrite map_length, seq_length. reflexivity.
  - cbn [cd_init mh]. apply repeat_length.
Qed.

Lemma combine_map_l {A B C} (f : C -> A) (g : C -> B) l : map (fun c => (f c, g c)) l = combine (map f l) (map g l).
Proof. induction l; cbn; congruence. Qed.
Lemma map_fst_combine {A B} (l : list A) (m : list B) : length l = length m -> map fst (combine l m) = l.
Proof. revert m; induction l as [|a l IH]; intros [|b m] H; try discriminate; cbn; [reflexivity|]. rewrite IH by (injection H; auto). reflexivity. Qed.
Lemma map_snd_combine {A B} (l : list A) (m : list B) : length l = length m -> map snd (combine l m) = m.
Proof. revert m; induction l as [|a l IH]; intros [|b m] H; try discriminate; cbn; [reflexivity|]. rewrite IH by (injection H; auto). reflexivity. Qed.
Lemma nth_error_combine {A B} (l : list A) (m : list B) i a b :
  nth_error l i = Some a -> nth_error m i = Some b -> nth_error (combine l m) i = Some (a, b).
Proof. revert l m; induction i as [|i IH]; intros [|x l] [|y m] H1 H2; try discriminate; cbn in *; [congruence|auto]. Qed.
Lemma kdiv_lt x y z : 0 < z -> x < y -> x / z < y / z.
Proof.
  intros Hz H. assert (N := kpos_neq0 K HO _ Hz). apply (ksub_pos K HO). replace (y / z - x / z) with ((y - x) / z) by (field; exact N).
  apply (kdiv_pos K HO); [apply (ksub_pos K HO); exact H|exact Hz].
Qed.
Lemma cd_main b xs : (1 <= b)%nat -> (b < length xs)%nat -> exists s lo hi, cd_run K b xs = Ok s /\
  length (cd_pairs K s) = (b + 1)%nat /\
  IsMin K xs lo /\ IsMax K xs hi /\
  nth_error (cd_pairs K s) 0 = Some (lo, 1 / #(length xs)) /\ nth_error (cd_pairs K s) b = Some (hi, 1) /\
  NonDecreasing K (map fst (cd_pairs K s)) /\ Increasing K (map snd (cd_pairs K s)) /\
  exists ns, map snd (cd_pairs K s) = map (fun n => #n / #(length xs)) ns.
Proof.
  intros Hb HL. destruct (cd_unweighted b xs Hb HL) as (s & E & Hc & HH & HR & _).
  destruct HH as (L & S & lo & hi & E1 & E2 & H1 & H2). destruct HR as (ns & Ep & Ln & Sn & N1 & N2).
  exists s, lo, hi. unfold cd_pairs. rewrite Hc, Ep.
  assert (LL : length (mh K (ps_marks K s)) = length (map (ofnat K) ns)) by (rewrite map_length, L, Ln; reflexivity).
  assert (NN : #(length xs) <> 0) by (apply ofnat_neq0; lia).
  assert (NP : 0 < #(length xs)). { destruct (length xs); [lia|]. apply (kofnat_pos K HO). }
  assert (MS : map snd (map (fun hp => (fst hp, snd hp / #(length xs))) (combine (mh K (ps_marks K s)) (map (ofnat K) ns))) = map (fun n => #n / #(length xs)) ns).
  { rewrite map_map. cbn [snd]. rewrite <- (map_map snd (fun y => y / #(length xs))), map_snd_combine by exact LL. rewrite map_map. reflexivity. }
  split; [exact E|]. split; [rewrite map_length, combine_length, LL, map_length, Ln; lia|]. split; [exact H1|]. split; [exact H2|].
  replace (b + 1 - 1)%nat with b in * by lia.
  split; [|split; [|split; [|split]]].
  - rewrite (map_nth_error _ 0 _ (nth_error_combine _ _ 0 lo #1%nat E1 (map_nth_error _ _ _ N1))). cbn [fst snd]. rewrite (ofnat_1 K HK). reflexivity.
  - rewrite (map_nth_error _ b _ (nth_error_combine _ _ b hi #(length xs) E2 (map_nth_error _ _ _ N2))). cbn [fst snd].
    do 2 f_equal. field. exact NN.
  - rewrite map_map. cbn [fst]. rewrite map_fst_combine by exact LL. exact S.
  - rewrite MS. apply (StronglySorted_map (fun n => #n / #(length xs))). eapply StronglySorted_impl; [|exact Sn].
    intros x y _ _ Hxy. apply kdiv_lt; [exact NP|]. apply (kofnat_lt K HO). exact Hxy.
  - exists ns. exact MS.
Qed.

(** *** extended_p_square *)
Lemma ext_inc_length pr : pr <> [] -> length (ext_inc K pr) = (2 * length pr - 1)%nat.
Proof.
  induction pr as [|a pr IH]; [congruence|]. intros _. destruct pr as [|b pr]; [reflexivity|].
  change (ext_inc K (a :: b :: pr)) with (a :: half K * (a + b) :: ext_inc K (b :: pr)). cbn [length]. rewrite IH by discriminate. cbn [length]. lia.
Qed.
Lemma ext_incs_length probs : length (ext_incs K probs) = ext_markers K probs.
Proof.
  unfold ext_incs, ext_markers. rewrite ext_inc_length by discriminate. cbn [length]. rewrite app_length. cbn [length]. lia.
Qed.
Lemma ext_inc_even pr i : (i < length pr)%nat -> at_ (ext_inc K pr) (2 * i) = at_ pr i.
Proof.
  revert i. induction pr as [|a pr IH]; intros i Hi; [cbn in Hi; lia|]. destruct pr as [|b pr].
  - cbn in Hi. assert (i = 0%nat) by lia. subst. reflexivity.
  - change (ext_inc K (a :: b :: pr)) with (a :: half K * (a + b) :: ext_inc K (b :: pr)). destruct i as [|i]; [reflexivity|].
    replace (2 * S i)%nat with (S (S (2 * i))) by lia. cbn [nth]. apply IH. cbn in *. lia.
Qed.
Lemma ext_inc_odd pr i : (S i < length pr)%nat -> at_ (ext_inc K pr) (2 * i + 1) = half K * (at_ pr i + at_ pr (S i)).
Proof.
  revert i. induction pr as [|a pr IH]; intros i Hi; [cbn in Hi; lia|]. destruct pr as [|b pr]; [cbn in Hi; lia|].
  change (ext_inc K (a :: b :: pr)) with (a :: half K * (a + b) :: ext_inc K (b :: pr)). destruct i as [|i]; [reflexivity|].
  replace (2 * S i + 1)%nat with (S (S (2 * i + 1))) by lia. cbn [nth]. rewrite IH by (cbn in *; lia). reflexivity.
Qed.
Lemma ext_md probs : md K (ext_init K probs) = map (fun f => 1 + #(ext_markers K probs - 1) * f) (ext_incs K probs).
Proof.
  cbn [ext_init md]. apply map_ext. intros f. unfold ext_markers. replace (2 * length probs + 3 - 1)%nat with (length probs + length probs + 1 + 1)%nat by lia.
  rewrite !(ofnat_add K HK), (ofnat_1 K HK). ring.
Qed.
Lemma ext_mp probs : mp K (ext_init K probs) = map (fun i => #(S i)) (seq 0 (ext_markers K probs)).
Proof. cbn [ext_init mp]. apply map_ext. intros i. f_equal. lia. Qed.
Lemma ext_mh probs : length (mh K (ext_init K probs)) = ext_markers K probs.
Proof. cbn [ext_init mh]. apply repeat_length. Qed.

Lemma all_read_some {A} (l : list A) : all_read (map Some l) = Ok l.
Proof. induction l as [|a l IH]; [reflexivity|]. cbn. rewrite IH. reflexivity. Qed.
Lemma ext_result_spec M probs xs s : M = ext_markers K probs -> MarkerHeights K M xs (mh K (ps_marks K s)) ->
  exists rs lo hi, ext_result K probs s = Ok rs /\ length rs = length probs /\ NonDecreasing K rs /\
    IsMin K xs lo /\ IsMax K xs hi /\ Forall (fun r => Between K lo r hi) rs /\
    forall i r, nth_error rs i = Some r -> nth_error (mh K (ps_marks K s)) (2 * i + 2) = Some r.
Proof.
  intros -> HH. destruct (heights_minmax _ _ _ HH) as (lo & hi & Hlo & Hhi).
  assert (HB := fun i => heights_between _ _ _ i lo hi HH Hlo Hhi).
  destruct HH as (L & HSS & _). set (h := mh K (ps_marks K s)) in *.
  assert (A := nondec_Asc K h HSS). rewrite L in A. unfold ext_markers in *.
  exists (map (fun i => at_ h (2 * i)) (seq 1 (length probs))), lo, hi. unfold ext_result. fold h. split; [|split; [|split; [|split; [|split; [|split]]]]].
  - rewrite <- all_read_some. f_equal. rewrite map_map. apply map_ext_in. intros i Hi. apply in_seq in Hi. apply nth_error_nth0. lia.
  - rewrite map_length, seq_length. reflexivity.
  - apply (StronglySorted_map (fun i => at_ h (2 * i))). assert (G : forall n a, (1 <= a)%nat -> (a + n <= length probs + 1)%nat ->
      StronglySorted (fun x y => ltb K (at_ h (2 * y)) (at_ h (2 * x)) = false) (seq a n)).
    { induction n as [|n IH]; intros a Ha Hn; [constructor|]. cbn [seq]. constructor; [apply IH; lia|].
      apply Forall_forall. intros j Hj. apply in_seq in Hj. apply (Asc_le K HO (2 * length probs + 3)); [exact A|lia|lia]. }
    apply G; lia.
  - exact Hlo.
  - exact Hhi.
  - apply Forall_forall. intros r Hr. apply in_map_iff in Hr. destruct Hr as (i & <- & Hi). apply in_seq in Hi.
    destruct (HB (2 * i)%nat ltac:(lia)) as (r & Er & Hr). rewrite (nth_error_nth0 h _ 0) in Er by lia.
    assert (Er' : r = at_ h (2 * i)) by congruence. rewrite <- Er'. exact Hr.
  - intros i r Hr. assert (Hi : (i < length (map (fun i => at_ h (2 * i)) (seq 1 (length probs))))%nat) by (apply nth_error_Some; congruence).
    rewrite map_length, seq_length in Hi.
    assert (E := map_nth_error (fun i => at_ h (2 * i)) i (seq 1 (length probs)) (d := S i)).
    rewrite E in Hr; [|rewrite (nth_error_nth0 _ i 0%nat) by (rewrite seq_length; exact Hi); rewrite seq_nth by exact Hi; reflexivity].
    injection Hr as <-. replace (2 * i + 2)%nat with (2 * S i)%nat by lia. apply nth_error_nth0. lia.
Qed.
Lemma ext_main probs xs : (2 * length probs + 3 <= length xs)%nat ->
  exists s rs lo hi, ext_run K probs xs = Ok s /\ ext_result K probs s = Ok rs /\
    length rs = length probs /\ NonDecreasing K rs /\
    IsMin K xs lo /\ IsMax K xs hi /\ Forall (fun r => Between K lo r hi) rs /\
    MarkerHeights K (2 * length probs + 3) xs (mh K (ps_marks K s)) /\
    MarkerRanks K (2 * length probs + 3) (length xs) (mp K (ps_marks K s)) /\
    md K (ps_marks K s) = map (fun f => 1 + #(length xs - 1) * f) (ext_incs K probs).
Proof.
  intros HL.
  destruct (unweighted_main K HO (ext_markers K probs) (ext_incs K probs) (ext_init K probs)) with (es := units K xs) as (s & E & Hc & _ & A1 & A2 & A3 & A4 & A5 & A6 & A7 & A8);
    [unfold ext_markers; lia|apply ext_incs_length|apply ext_mh|apply ext_mp|apply ext_md|rewrite units_length; exact HL|apply units_ones|].
  cbv zeta in *. rewrite units_fst in A5, A6. unfold uD in A8. rewrite units_length in A8, Hc.
  assert (HH : MarkerHeights K (ext_markers K probs) xs (mh K (ps_marks K s))) by (apply (heights_spec K HO); auto; unfold ext_markers; lia).
  destruct (ext_result_spec _ probs xs s eq_refl HH) as (rs & lo & hi & R1 & R2 & R3 & R4 & R5 & R6 & _).
  exists s, rs, lo, hi. repeat (split; [assumption|]). split; [|exact A8].
  rewrite <- (units_length xs). apply (ranks_spec K HO (ext_markers K probs) (ext_incs K probs) (ext_init K probs)); auto; try (unfold ext_markers; lia).
  - apply ext_incs_length.
  - apply ext_mh.
Qed.

(** *** weighted_extended_p_square *)
Lemma wext_des_eq probs W pos d : probs <> [] -> length pos = ext_markers K probs ->
  wext_des K probs W pos d = Ok (map (fun f => at_ pos 0 + (W - at_ pos 0) * f) (ext_incs K probs)).
Proof.
  intros Hne L. assert (N := two_neq0). unfold wext_des. rewrite (nth_error_nth0 pos 0 0) by (unfold ext_markers in L; lia).
  set (p0 := at_ pos 0).
  assert (G : map (wext_des_at K probs W p0) (seq 0 (ext_markers K probs)) = map Some (map (fun f => p0 + (W - p0) * f) (ext_incs K probs))).
  { apply nth_ext with (d := None) (d' := None).
    - rewrite !map_length, seq_length, ext_incs_length. reflexivity.
    - intros i Hi. rewrite map_length, seq_length in Hi.
      rewrite (nth_indep _ None (wext_des_at K probs W p0 0)) by (rewrite map_length, seq_length; exact Hi).
      rewrite map_nth, seq_nth by exact Hi. cbn [Nat.add].
      rewrite (nth_indep (map Some _) None (Some (p0 + (W - p0) * 0))) by (rewrite !map_length, ext_incs_length; exact Hi).
      rewrite map_nth. rewrite map_nth with (f := fun f => p0 + (W - p0) * f).
      set (pr := 0 :: probs ++ [1]). assert (Lpr : length pr = (length probs + 2)%nat) by (unfold pr; cbn [length]; rewrite app_length; cbn; lia).
      assert (EV : forall j, (2 * j < ext_markers K probs)%nat -> at_ (ext_incs K probs) (2 * j) = at_ pr j).
      { intros j Hj. unfold ext_incs. apply ext_inc_even. fold pr. unfold ext_markers in Hj. lia. }
      assert (OD : forall j, (2 * j + 1 < ext_markers K probs)%nat -> at_ (ext_incs K probs) (2 * j + 1) = half K * (at_ pr j + at_ pr (S j))).
      { intros j Hj. unfold ext_incs. apply ext_inc_odd. fold pr. unfold ext_markers in Hj. lia. }
      assert (PR : forall j, (j < length probs)%nat -> at_ pr (S j) = at_ probs j).
      { intros j Hj. unfold pr. cbn [nth]. apply app_nth1. exact Hj. }
      assert (PL : at_ pr (S (length probs)) = 1). { unfold pr. cbn [nth]. rewrite app_nth2 by lia. rewrite Nat.sub_diag. reflexivity. }
      assert (Hlen : (1 <= length probs)%nat) by (destruct probs; [congruence|cbn; lia]).
      unfold ext_markers in *. unfold wext_des_at, ext_markers. cbv zeta.
      destruct (Nat.eqb_spec i 0) as [->|Ni0].
      { f_equal. change (at_ (ext_incs K probs) 0) with (at_ (ext_incs K probs) (2 * 0)). rewrite EV by lia. cbn. ring. }
      destruct (Nat.eqb_spec i (2 * length probs + 3 - 1)) as [->|Nil].
      { f_equal. replace (2 * length probs + 3 - 1)%nat with (2 * S (length probs))%nat by lia. rewrite EV, PL by lia. ring. }
      destruct (Nat.eqb_spec i 1) as [->|Ni1].
      { rewrite (nth_error_nth0 probs 0 0) by lia. f_equal. change (at_ (ext_incs K probs) 1) with (at_ (ext_incs K probs) (2 * 0 + 1)). rewrite OD, PR by lia.
        change (at_ pr 0) with 0. unfold half. field. exact N. }
      destruct (Nat.eqb_spec i (2 * length probs + 3 - 2)) as [->|Ni2].
      { rewrite (nth_error_nth0 probs (length probs - 1) 0) by lia. f_equal.
        replace (2 * length probs + 3 - 2)%nat with (2 * (length probs) + 1)%nat by lia. rewrite OD, PL by lia.
        replace (at_ pr (length probs)) with (at_ probs (length probs - 1)); [unfold half; field; exact N|].
        rewrite <- PR by lia. f_equal. lia. }
      destruct (Nat.even i) eqn:Ev.
      { apply Nat.even_spec in Ev. destruct Ev as [j ->]. rewrite Nat.div2_double. rewrite (nth_error_nth0 probs (j - 1) 0) by lia.
        f_equal. rewrite EV by lia. replace (at_ pr j) with (at_ probs (j - 1)); [ring|]. rewrite <- PR by lia. f_equal. lia. }
      { assert (Od : Nat.odd i = true) by (unfold Nat.odd; rewrite Ev; reflexivity). apply Nat.odd_spec in Od. destruct Od as [j ->].
        replace (Nat.div2 (2 * j + 1)) with j.
        2:{ replace (2 * j + 1)%nat with (S (2 * j)) by lia. rewrite Nat.div2_succ_double. reflexivity. }
        rewrite !(nth_error_nth0 probs _ 0) by lia. f_equal. rewrite OD, PR by lia.
        replace (at_ pr j) with (at_ probs (j - 1)); [unfold half; field; exact N|]. rewrite <- PR by lia. f_equal. lia. } }
  rewrite G. apply all_read_some.
Qed.
Lemma wext_main probs es : probs <> [] -> (2 * length probs + 3 <= length es)%nat -> Forall (fun e => ltb K 0 (snd e) = true) es ->
  exists s rs lo hi, wext_run K probs es = Ok s /\ ext_result K probs s = Ok rs /\
    length rs = length probs /\ NonDecreasing K rs /\
    IsMin K (map fst es) lo /\ IsMax K (map fst es) hi /\ Forall (fun r => Between K lo r hi) rs /\
    MarkerHeights K (2 * length probs + 3) (map fst es) (mh K (ps_marks K s)) /\
    MarkerWeights K (2 * length probs + 3) (TotalWeight K es) (mp K (ps_marks K s)) /\
    (length es = (2 * length probs + 3)%nat \/ md K (ps_marks K s) =
       map (fun f => at_ (mp K (ps_marks K s)) 0 + (TotalWeight K es - at_ (mp K (ps_marks K s)) 0) * f) (ext_incs K probs)).
Proof.
  intros Hne HL HG.
  destruct (weighted_main K HO (ext_markers K probs) (ext_incs K probs) (wext_des K probs) (wext_init K probs)) with (es := es) as (s & E & _ & _ & A1 & A2 & A3 & A4 & A5 & A6 & A7 & A8);
    auto; [unfold ext_markers; lia|apply ext_incs_length|apply repeat_length|apply repeat_length|apply repeat_length|intros; apply wext_des_eq; assumption|].
  cbv zeta in *.
  assert (HH : MarkerHeights K (ext_markers K probs) (map fst es) (mh K (ps_marks K s))) by (apply (heights_spec K HO); auto; unfold ext_markers; lia).
  destruct (ext_result_spec _ probs _ s eq_refl HH) as (rs & lo & hi & R1 & R2 & R3 & R4 & R5 & R6 & _).
  exists s, rs, lo, hi. repeat (split; [assumption|]). split; [|exact A8].
  apply (weights_spec K HO (ext_markers K probs) (ext_incs K probs) (wext_init K probs)); auto; try (unfold ext_markers; lia).
  all: first [apply ext_incs_length | apply repeat_length].
Qed.
Lemma wext_unit probs xs : probs <> [] -> exists s w, ext_run K probs xs = Ok s /\ wext_run K probs (units K xs) = Ok w /\
  mh K (ps_marks K s) = mh K (ps_marks K w) /\ ext_result K probs s = ext_result K probs w /\
  ((2 * length probs + 3 <= length xs)%nat -> mp K (ps_marks K s) = mp K (ps_marks K w)).
Proof.
  intros Hne. destruct (le_lt_dec (ext_markers K probs) (length xs)) as [L|L].
  - destruct (unit_weights K HO (ext_markers K probs) (ext_incs K probs) (wext_des K probs) (wext_init K probs)) with (mu := ext_init K probs) (es := units K xs) as (s & w & E1 & E2 & E3 & E4); auto.
    + unfold ext_markers; lia.
    + apply ext_incs_length.
    + apply repeat_length.
    + apply repeat_length.
    + apply repeat_length.
    + intros; apply wext_des_eq; assumption.
    + apply ext_mh.
    + apply ext_mp.
    + apply ext_md.
    + rewrite units_length; exact L.
    + apply units_ones.
    + exists s, w. split; [exact E1|]. split; [exact E2|]. split; [exact E3|]. split; [unfold ext_result; rewrite E3; reflexivity|]. auto.
  - destruct (unit_weights_early K HO (ext_markers K probs) (ext_incs K probs) (wext_des K probs) (wext_init K probs)) with (mu := ext_init K probs) (es := units K xs) as (s & w & E1 & E2 & E3); auto.
    + unfold ext_markers; lia.
    + apply ext_incs_length.
    + apply repeat_length.
    + apply repeat_length.
    + apply repeat_length.
    + apply ext_mh.
    + apply ext_mp.
    + apply ext_md.
    + rewrite units_length; exact L.
    + exists s, w. split; [exact E1|]. split; [exact E2|]. split; [exact E3|]. split; [unfold ext_result; rewrite E3; reflexivity|]. unfold ext_markers in L. lia.
Qed.
End Inst.
