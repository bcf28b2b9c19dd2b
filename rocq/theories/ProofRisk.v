(** Proofs for C81. *)
From Coq Require Import List Arith Bool Permutation Sorted Lia Field QArith Qcanon.
From Verif Require Import Num NumFacts ModelTail SpecStats SpecTail SpecUnitWeights SpecRisk ProofBasic ProofOrder ProofTail ProofTailStats ProofTailTop.
Import ListNotations.

Section Risk.
Context (K : Num) (HO : OrderedLaws K).
Let HK : FieldLaws K := ord_field K HO.
Local Notation T := (car K).
Local Notation "0" := (zero K) : num_scope.
Local Notation "1" := (one K) : num_scope.
Local Notation "x + y" := (add K x y) : num_scope.
Local Notation "x - y" := (sub K x y) : num_scope.
Local Notation "x * y" := (mul K x y) : num_scope.
Local Notation "x / y" := (div K x y) : num_scope.
Local Notation "- x" := (opp K x) : num_scope.
Local Notation "x < y" := (klt K x y) : num_scope.
Local Notation "x <= y" := (kle K x y) : num_scope.
Local Notation "# n" := (ofnat K n) (at level 2) : num_scope.
Local Open Scope num_scope.
Add Field KfieldR : (fl_field K HK).
Local Notation sum := (total K (fun x => x)).

Lemma total_le {A} (f g : A -> T) l : (forall x, In x l -> f x <= g x) -> total K f l <= total K g l.
Proof.
  induction l as [|x l IH]; intros H; [apply (kle_refl K HO) |]. rewrite !total_cons. apply (kadd_le2 K HO); [apply H; now left | apply IH; intros y Hy; apply H; now right].
Qed.
Lemma kopp_le x y : x <= y -> - y <= - x.
Proof. intros H. apply (ksub_nonneg K HO). replace (- x - - y) with (y - x) by ring. now apply (ksub_nonneg K HO). Qed.

Lemma total_neg {A} (f : A -> T) l : total K (fun x => - f x) l = - total K f l.
Proof. induction l as [|x l IH]; [rewrite !total_nil; ring |]. rewrite !total_cons, IH. ring. Qed.

Context (lr : side).
(** Gains count up in the direction of the tail. *)
Definition gain (x : T) : T := match lr with Right => x | Left => - x end.
Lemma extreme_gain x y : MoreExtreme K lr y x = false <-> gain y <= gain x.
Proof.
  unfold MoreExtreme, gain. destruct lr; [| reflexivity]. split; intros H.
  - apply kopp_le. exact H.
  - apply kopp_le in H. replace (- - x) with x in H by ring. replace (- - y) with y in H by ring. exact H.
Qed.
Lemma least_of (a : list T) : a <> [] -> exists t, In t a /\ forall y, In y a -> gain t <= gain y.
Proof.
  induction a as [|x a IH]; [congruence | intros _]. destruct a as [|z a].
  - exists x. split; [now left |]. intros y [<-|[]]. apply (kle_refl K HO).
  - destruct IH as (t & It & Ht); [discriminate |]. destruct (kle_or_lt K (gain x) (gain t)) as [C|C].
    + exists x. split; [now left |]. intros y [<-|Hy]; [apply (kle_refl K HO) |]. eapply (kle_trans K HO); [exact C | apply Ht, Hy].
    + exists t. split; [now right |]. intros y [<-|Hy]; [apply (klt_le K HO), C | apply Ht, Hy].
Qed.
(** No other choice of as many elements gains more. *)
Lemma best_choice (xs : list T) r a c d : MostExtreme (MoreExtreme K lr) xs r a -> Permutation xs (c ++ d) -> length c = r ->
  total K gain c <= total K gain a.
Proof.
  intros (HL & b & HP & HE) HC HLc. destruct a as [|x0 a0].
  - cbn in HL. subst r. destruct c; [| discriminate HLc]. apply (kle_refl K HO).
  - destruct (least_of (x0 :: a0) ltac:(discriminate)) as (t & It & Ht). set (a := x0 :: a0) in *. clearbody a.
    set (h := fun x => if ltb K (gain x) (gain t) then 0 else gain x - gain t).
    assert (H0 : forall x, 0 <= h x).
    { intros x. unfold h. destruct (ltb K (gain x) (gain t)) eqn:L; [apply (kle_refl K HO) |]. apply (ksub_nonneg K HO). exact L. }
    assert (H1 : forall x, gain x - gain t <= h x).
    { intros x. unfold h. destruct (ltb K (gain x) (gain t)) eqn:L; [| apply (kle_refl K HO)]. apply (klt_le K HO). apply (kadd_lt_inv K HO _ _ (gain t)).
      replace (gain x - gain t + gain t) with (gain x) by ring. replace (0 + gain t) with (gain t) by ring. exact L. }
    assert (Ha : total K h a = total K (fun x => gain x - gain t) a).
    { apply (total_ext K). intros x Hx. unfold h. assert (L := Ht x Hx). change (ltb K (gain x) (gain t) = false) in L. now rewrite L. }
    assert (Hb : total K h b <= 0).
    { replace 0 with (total K (fun _ => 0) b) by (rewrite (total_const K HK); ring). apply total_le. intros y Hy. unfold h. destruct (ltb K (gain y) (gain t)) eqn:L; [apply (kle_refl K HO) |].
      apply (kadd_le K HO) with (z := gain t - gain y) in L. assert (Q := proj1 (extreme_gain t y) (HE t y It Hy)).
      apply (ksub_nonneg K HO). apply (ksub_nonneg K HO) in Q. replace (0 - (gain y - gain t)) with (gain t - gain y) by ring. exact Q. }
    assert (Hd : 0 <= total K h d).
    { replace 0 with (total K (fun _ => 0) d) by (rewrite (total_const K HK); ring). apply total_le. intros y _. apply H0. }
    assert (HS : total K h c + total K h d = total K h a + total K h b).
    { rewrite <- !(total_app K HK). apply (total_perm K HK). etransitivity; [symmetry; exact HC | exact HP]. }
    assert (Hc : total K (fun x => gain x - gain t) c <= total K h c) by (apply total_le; intros x _; apply H1).
    rewrite (total_sub K HK), (total_const K HK) in Hc. rewrite (total_sub K HK), (total_const K HK) in Ha. rewrite HL in Ha. rewrite HLc in Hc.
    apply (ksub_nonneg K HO).
    replace (total K gain a - total K gain c) with ((total K h c - (total K gain c - #r * gain t)) + (total K h d + (0 - total K h b))).
    + replace 0 with (0 + (0 + 0)) at 1 by ring. apply (kadd_le2 K HO); [now apply (ksub_nonneg K HO) |]. apply (kadd_le2 K HO); [exact Hd | now apply (ksub_nonneg K HO)].
    + replace (total K h d) with (total K h a + total K h b - total K h c) by (rewrite <- HS; ring). rewrite Ha. ring.
Qed.

(** ** Several statistics of the same history *)
Section Paired.
Context {A : Type} (P : list A).
Lemma chosen (f : A -> T) r a : MostExtreme (MoreExtreme K lr) (map f P) r a ->
  exists pa pb, Permutation P (pa ++ pb) /\ a = map f pa /\ length pa = r.
Proof.
  intros (HL & b & HP & _). apply Permutation_sym, Permutation_map_inv in HP. destruct HP as (l & E & HP). symmetry in E.
  assert (E' := E). apply map_eq_app in E. destruct E as (pa & pb & -> & Ea & Eb). exists pa, pb. split; [exact HP |]. split; [now symmetry |]. rewrite <- HL, <- Ea, map_length. reflexivity.
Qed.
Lemma best_among (g : A -> T) r b pa pb : MostExtreme (MoreExtreme K lr) (map g P) r b -> Permutation P (pa ++ pb) -> length pa = r ->
  total K (fun e => gain (g e)) pa <= total K gain b.
Proof.
  intros HM HP HL. rewrite <- (total_map K gain g). eapply best_choice; [exact HM | rewrite (Permutation_map g HP), map_app; reflexivity | rewrite map_length; exact HL].
Qed.
End Paired.
Lemma gain_sum l : total K gain l = gain (sum l).
Proof.
  unfold gain. destruct lr; [| reflexivity]. induction l as [|x l IH]; [rewrite !total_nil; ring |]. rewrite !total_cons, IH. ring.
Qed.
Lemma gain_le x y : gain x <= gain y -> match lr with Right => x <= y | Left => y <= x end.
Proof.
  unfold gain. destruct lr; [| auto]. intros H. apply kopp_le in H. replace (- - x) with x in H by ring. replace (- - y) with y in H by ring. exact H.
Qed.
Lemma tops_monotone {A} (P : list A) (f g : A -> T) r a b : MostExtreme (MoreExtreme K lr) (map f P) r a -> MostExtreme (MoreExtreme K lr) (map g P) r b ->
  (forall e, In e P -> f e <= g e) -> sum a <= sum b.
Proof.
  intros HA HB HL. destruct (chosen P f r a HA) as (pa & pa' & HPa & Ea & La). destruct (chosen P g r b HB) as (pb & pb' & HPb & Eb & Lb).
  assert (Ia : forall e, In e pa -> In e P) by (intros e He; eapply Permutation_in; [symmetry; exact HPa | apply in_or_app; now left]).
  assert (Ib : forall e, In e pb -> In e P) by (intros e He; eapply Permutation_in; [symmetry; exact HPb | apply in_or_app; now left]).
  assert (Q1 := best_among P g r b pa pa' HB HPa La). assert (Q2 := best_among P f r a pb pb' HA HPb Lb).
  assert (S1 : sum a = total K f pa) by (rewrite Ea, (total_map K); reflexivity). assert (S2 : sum b = total K g pb) by (rewrite Eb, (total_map K); reflexivity).
  unfold gain in Q1, Q2. destruct lr.
  - rewrite S2. apply (kle_trans K HO) with (total K f pb); [| apply total_le; intros e He; apply HL, Ib, He].
    apply (ksub_nonneg K HO). apply (ksub_nonneg K HO) in Q2. rewrite (total_neg (fun x => x) a), (total_neg f pb) in Q2.
    replace (total K f pb - sum a) with (- sum a - - total K f pb) by ring. exact Q2.
  - rewrite S1. apply (kle_trans K HO) with (total K g pa); [apply total_le; intros e He; apply HL, Ia, He |]. exact Q1.
Qed.
Lemma tops_additive {A} (P : list A) (f g : A -> T) r a b c : MostExtreme (MoreExtreme K lr) (map f P) r a -> MostExtreme (MoreExtreme K lr) (map g P) r b ->
  MostExtreme (MoreExtreme K lr) (map (fun e => f e + g e) P) r c -> gain (sum c) <= gain (sum a) + gain (sum b).
Proof.
  intros HA HB HC. destruct (chosen P _ r c HC) as (pc & pc' & HPc & Ec & Lc).
  assert (Q1 := best_among P f r a pc pc' HA HPc Lc). assert (Q2 := best_among P g r b pc pc' HB HPc Lc).
  rewrite <- !gain_sum. replace (total K gain c) with (total K (fun e => gain (f e)) pc + total K (fun e => gain (g e)) pc); [apply (kadd_le2 K HO); assumption |].
  rewrite Ec, (total_map K), <- (total_add K HK). apply (total_ext K). intros e _. unfold gain. destruct lr; ring.
Qed.

(** ** The r-th most extreme sample *)
Lemma filter_perm {A} (q : A -> bool) (l l' : list A) : Permutation l l' -> Permutation (filter q l) (filter q l').
Proof.
  induction 1 as [|x l l' _ IH|x y l|l l' l'' _ I1 _ I2]; cbn; [constructor | destruct (q x); [constructor; exact IH | exact IH] | destruct (q x), (q y); try apply perm_swap; reflexivity | etransitivity; eassumption].
Qed.
Lemma filter_all {A} (q : A -> bool) l : (forall x, In x l -> q x = true) -> length (filter q l) = length l.
Proof. induction l as [|x l IH]; intros H; [reflexivity |]. cbn. rewrite (H x (or_introl eq_refl)). cbn. f_equal. apply IH. intros y Hy. apply H. now right. Qed.
Lemma filter_none {A} (q : A -> bool) l : (forall x, In x l -> q x = false) -> length (filter q l) = 0%nat.
Proof. induction l as [|x l IH]; intros H; [reflexivity |]. cbn. rewrite (H x (or_introl eq_refl)). apply IH. intros y Hy. apply H. now right. Qed.
Lemma filter_upto {A} (q : A -> bool) l : (length (filter q l) <= length l)%nat.
Proof. induction l as [|x l IH]; [apply le_n |]. cbn. destruct (q x); cbn; lia. Qed.
Lemma filter_map_le {A} (q q' : A -> bool) l : (forall x, In x l -> q x = true -> q' x = true) -> (length (filter q l) <= length (filter q' l))%nat.
Proof.
  induction l as [|x l IH]; intros H; [apply le_n |]. assert (I := IH (fun y Hy => H y (or_intror Hy))). specialize (H x (or_introl eq_refl)). cbn.
  destruct (q x), (q' x); cbn; try lia; discriminate H; reflexivity.
Qed.
Lemma filter_mapped {A B} (f : A -> B) (q : B -> bool) l : length (filter q (map f l)) = length (filter (fun e => q (f e)) l).
Proof. induction l as [|x l IH]; [reflexivity |]. cbn. destruct (q (f x)); cbn; now rewrite IH. Qed.
(** How many are at least as extreme. *)
Lemma stat_count_ge xs r v : OrderStat (MoreExtreme K lr) xs r v -> (r <= length (filter (fun x => leb K (gain v) (gain x)) xs))%nat.
Proof.
  intros (a & b & HP & HL & HA & _). rewrite (Permutation_length (filter_perm _ _ _ HP)), filter_app, app_length. cbn [filter].
  rewrite filter_all by (intros y Hy; apply (leb_kle K), extreme_gain, HA, Hy). rewrite (proj2 (leb_kle K (gain v) (gain v)) (kle_refl K HO _)). cbn [length]. lia.
Qed.
Lemma stat_count_gt xs r v t : OrderStat (MoreExtreme K lr) xs r v -> gain v < gain t -> (length (filter (fun x => leb K (gain t) (gain x)) xs) < r)%nat.
Proof.
  intros (a & b & HP & HL & _ & HB) HT. rewrite (Permutation_length (filter_perm _ _ _ HP)), filter_app, app_length.
  rewrite (filter_none _ (v :: b)).
  - assert (Q := filter_upto (fun x => leb K (gain t) (gain x)) a). lia.
  - intros x Hx. destruct (leb K (gain t) (gain x)) eqn:E; [exfalso | reflexivity]. apply (leb_kle K) in E.
    assert (G : gain x <= gain v) by (destruct Hx as [<-|Hx]; [apply (kle_refl K HO) | apply extreme_gain, HB, Hx]).
    apply (klt_irrefl K HO (gain v)). eapply (klt_le_trans K HO); [exact HT |]. eapply (kle_trans K HO); eassumption.
Qed.
Lemma stats_gain {A} (P : list A) (f g : A -> T) r v w : OrderStat (MoreExtreme K lr) (map f P) r v -> OrderStat (MoreExtreme K lr) (map g P) r w ->
  (forall e, In e P -> gain (f e) <= gain (g e)) -> gain v <= gain w.
Proof.
  intros HV HW HL. destruct (kle_or_lt K (gain v) (gain w)) as [C|C]; [exact C | exfalso].
  assert (Q1 := stat_count_ge _ _ _ HV). assert (Q2 := stat_count_gt _ _ _ v HW C). rewrite filter_mapped in Q1, Q2.
  assert (Q3 := filter_map_le (fun e => leb K (gain v) (gain (f e))) (fun e => leb K (gain v) (gain (g e))) P).
  assert ((length (filter (fun e => leb K (gain v) (gain (f e))) P) <= length (filter (fun e => leb K (gain v) (gain (g e))) P))%nat); [| lia].
  apply Q3. intros e He E. apply (leb_kle K) in E. apply (leb_kle K). eapply (kle_trans K HO); [exact E | apply HL, He].
Qed.
Lemma stats_monotone {A} (P : list A) (f g : A -> T) r v w : OrderStat (MoreExtreme K lr) (map f P) r v -> OrderStat (MoreExtreme K lr) (map g P) r w ->
  (forall e, In e P -> f e <= g e) -> v <= w.
Proof.
  intros HV HW HL. destruct lr eqn:E.
  - assert (Q := stats_gain P g f r w v). unfold gain in Q. rewrite E in Q. specialize (Q HW HV (fun e He => kopp_le _ _ (HL e He))).
    apply kopp_le in Q. replace (- - v) with v in Q by ring. replace (- - w) with w in Q by ring. exact Q.
  - assert (Q := stats_gain P f g r v w). unfold gain in Q. rewrite E in Q. exact (Q HV HW HL).
Qed.

(** ** The statistics *)
Lemma firstn_next {A} (l : list A) m q : nth_error l m = Some q -> firstn (S m) l = firstn m l ++ [q].
Proof. revert l. induction m as [|m IH]; intros [|x l] E; try discriminate E; [injection E as ->; reflexivity |]. cbn [firstn app]. f_equal. apply IH, E. Qed.
Lemma kdiv_le x y z : 0 < z -> x <= y -> x / z <= y / z.
Proof.
  intros Hz H. apply (ksub_nonneg K HO). replace (y / z - x / z) with ((y - x) / z) by (field; now apply (kpos_neq0 K HO)).
  apply (kdiv_nonneg K HO); [now apply (ksub_nonneg K HO) | exact Hz].
Qed.
Context (ceil : T -> nat) {A : Type} (P : list A) (k : nat).
Local Notation istail := (IsTail (MoreExtreme K lr) k).
Local Notation cnt := (length P).
Lemma istail_length f tl : istail (map f P) tl -> length tl = Nat.min k cnt.
Proof. intros [HL _]. rewrite HL, map_length. reflexivity. Qed.
Lemma quantile_monotone f g tl tl' p : istail (map f P) tl -> istail (map g P) tl' -> (forall e, In e P -> f e <= g e) ->
  alike (fun v w => leb K v w = true) (tail_quantile_result K ceil lr cnt tl p) (tail_quantile_result K ceil lr cnt tl' p).
Proof.
  intros HT HT' HL. assert (L := istail_length f tl HT). assert (L' := istail_length g tl' HT'). unfold tail_quantile_result. rewrite L, L'.
  destruct (Nat.ltb_spec (tail_n K ceil lr cnt p) (Nat.min k cnt)) as [Q|Q]; [| exact I]. destruct (tail_n K ceil lr cnt p) as [|m]; [exact I |].
  destruct (nth_error tl m) as [v|] eqn:V; [| apply nth_error_None in V; lia]. destruct (nth_error tl' m) as [w|] eqn:W; [| apply nth_error_None in W; lia].
  cbn [alike]. apply (leb_kle K). apply (stats_monotone P f g (S m)); [| | exact HL].
  - exact (IsTail_nth _ (pred_sw K HO lr) k _ tl m v HT V).
  - exact (IsTail_nth _ (pred_sw K HO lr) k _ tl' m w HT' W).
Qed.
Lemma mean_monotone f g tl tl' p : istail (map f P) tl -> istail (map g P) tl' -> (forall e, In e P -> f e <= g e) ->
  alike (fun v w => leb K v w = true) (non_coherent_tail_mean_result K ceil lr cnt tl p) (non_coherent_tail_mean_result K ceil lr cnt tl' p).
Proof.
  intros HT HT' HL. assert (L := istail_length f tl HT). assert (L' := istail_length g tl' HT'). unfold non_coherent_tail_mean_result. rewrite L, L'.
  destruct (Nat.leb_spec (tail_n K ceil lr cnt p) (Nat.min k cnt)) as [Q|Q]; [| exact I]. destruct (tail_n K ceil lr cnt p) as [|m]; [exact I |].
  cbn [alike]. apply (leb_kle K). rewrite !(fold_total K HO). apply kdiv_le; [apply (kofnat_pos K HO) |]. apply (kadd_le2 K HO); [apply (kle_refl K HO) |].
  apply (tops_monotone P f g (S m)); [apply (IsTail_firstn _ (pred_sw K HO lr) k _ tl); [exact HT | lia] | apply (IsTail_firstn _ (pred_sw K HO lr) k _ tl'); [exact HT' | lia] | exact HL].
Qed.
(** The coherent tail mean through sums of the most extreme samples. *)
Definition slope (p : T) (n : nat) : T := match lr with Left => p | Right => 1 - p - #n / #cnt end.
Lemma coherent_is f tl p : istail (map f P) tl ->
  (tail_n K ceil lr cnt p = O /\ coherent_tail_mean_result K ceil lr cnt tl p = (if Nat.ltb 0 (Nat.min k cnt) then UB else NotANumber)) \/
  (Nat.min k cnt <= tail_n K ceil lr cnt p)%nat /\ coherent_tail_mean_result K ceil lr cnt tl p = NotANumber \/
  exists m q, tail_n K ceil lr cnt p = S m /\ (S m < Nat.min k cnt)%nat /\ nth_error tl m = Some q /\
    coherent_tail_mean_result K ceil lr cnt tl p = Ok ((sum (firstn m tl) + (1 + slope p (S m)) * q) / #(S m)).
Proof.
  intros HT. assert (L := istail_length f tl HT). unfold coherent_tail_mean_result, coherent_tail_mean_of, non_coherent_tail_mean_result, tail_quantile_result, slope. rewrite L.
  destruct (tail_n K ceil lr cnt p) as [|m].
  - left. split; [reflexivity |]. cbn [Nat.leb]. destruct (Nat.ltb 0 (Nat.min k cnt)); reflexivity.
  - right. destruct (Nat.ltb_spec (S m) (Nat.min k cnt)) as [Q|Q].
    + right. destruct (nth_error tl m) as [q|] eqn:V; [| apply nth_error_None in V; lia]. exists m, q. split; [reflexivity |]. split; [exact Q |]. split; [exact V |].
      destruct (Nat.leb_spec (S m) (Nat.min k cnt)); [| lia]. f_equal. rewrite (fold_total K HO), (firstn_next tl m q V), (total_snoc K HK).
      assert (NZ := kpos_neq0 K HO _ (kofnat_pos K HO m)). set (X := match lr with Left => _ | Right => _ end). clearbody X. field. exact NZ.
    + left. split; [exact Q |]. destruct (Nat.leb (S m) (Nat.min k cnt)); reflexivity.
Qed.
Lemma slope_above p n : 0 <= p -> p <= 1 -> (n <= cnt)%nat -> (0 < n)%nat -> 0 <= 1 + slope p n.
Proof.
  intros P0 P1 N N0. unfold slope. destruct lr.
  - replace 0 with (0 + 0) by ring. apply (kadd_le2 K HO); [apply (klt_le K HO), (kone_pos K HO) | exact P0].
  - assert (C : 0 < #cnt) by (destruct cnt; [lia | apply (kofnat_pos K HO)]).
    replace (1 + (1 - p - #n / #cnt)) with ((1 - p) + (#cnt - #n) / #cnt) by (field; now apply (kpos_neq0 K HO)).
    replace 0 with (0 + 0) by ring. apply (kadd_le2 K HO); [now apply (ksub_nonneg K HO) |]. apply (kdiv_nonneg K HO); [| exact C]. apply (ksub_nonneg K HO), (kofnat_le K HO), N.
Qed.
Lemma coherent_monotone f g tl tl' p : 0 <= p -> p <= 1 -> istail (map f P) tl -> istail (map g P) tl' -> (forall e, In e P -> f e <= g e) ->
  alike (fun v w => leb K v w = true) (coherent_tail_mean_result K ceil lr cnt tl p) (coherent_tail_mean_result K ceil lr cnt tl' p).
Proof.
  intros P0 P1 HT HT' HL. assert (L := istail_length f tl HT). assert (L' := istail_length g tl' HT').
  destruct (coherent_is f tl p HT) as [[E1 R1]|[[E1 R1]|(m & q & E1 & B1 & V1 & R1)]], (coherent_is g tl' p HT') as [[E2 R2]|[[E2 R2]|(m' & q' & E2 & B2 & V2 & R2)]];
    rewrite R1, R2; try congruence; try lia; try (destruct (Nat.ltb_spec 0 (Nat.min k cnt)); try lia; exact I); try exact I.
  assert (m' = m) by congruence. subst m'. cbn [alike]. apply (leb_kle K). apply kdiv_le; [apply (kofnat_pos K HO) |]. apply (kadd_le2 K HO).
  - apply (tops_monotone P f g m); [apply (IsTail_firstn _ (pred_sw K HO lr) k _ tl); [exact HT | lia] | apply (IsTail_firstn _ (pred_sw K HO lr) k _ tl'); [exact HT' | lia] | exact HL].
  - assert (Q : q <= q'). { apply (stats_monotone P f g (S m)); [exact (IsTail_nth _ (pred_sw K HO lr) k _ tl m q HT V1) | exact (IsTail_nth _ (pred_sw K HO lr) k _ tl' m q' HT' V2) | exact HL]. }
    assert (SL := slope_above p (S m) P0 P1 ltac:(lia) ltac:(lia)).
    replace ((1 + slope p (S m)) * q) with (q * (1 + slope p (S m))) by ring. replace ((1 + slope p (S m)) * q') with (q' * (1 + slope p (S m))) by ring. apply (kmul_le K HO); assumption.
Qed.

Context (f g : A -> T).
Local Notation both := (fun e => f e + g e).
Lemma gain_scale c x : gain (c * x) = c * gain x.
Proof. unfold gain. destruct lr; ring. Qed.
Lemma gain_add x y : gain (x + y) = gain x + gain y.
Proof. unfold gain. destruct lr; ring. Qed.
Lemma gain_div x y : y <> 0 -> gain (x / y) = gain x / y.
Proof. intros Z. unfold gain. destruct lr; field; exact Z. Qed.
Lemma no_worse a b c : gain c <= gain a + gain b -> NoWorse K lr a b c.
Proof.
  unfold gain, NoWorse. destruct lr; intros H; apply (leb_kle K); [| exact H].
  apply kopp_le in H. replace (- - c) with c in H by ring. replace (- (- a + - b)) with (a + b) in H by ring. exact H.
Qed.
Lemma mean_subadditive tl tl' tl'' p : istail (map f P) tl -> istail (map g P) tl' -> istail (map both P) tl'' ->
  alike3 (NoWorse K lr) (non_coherent_tail_mean_result K ceil lr cnt tl p) (non_coherent_tail_mean_result K ceil lr cnt tl' p) (non_coherent_tail_mean_result K ceil lr cnt tl'' p).
Proof.
  intros H1 H2 H3. assert (L1 := istail_length f tl H1). assert (L2 := istail_length g tl' H2). assert (L3 := istail_length both tl'' H3).
  unfold non_coherent_tail_mean_result. rewrite L1, L2, L3.
  destruct (Nat.leb_spec (tail_n K ceil lr cnt p) (Nat.min k cnt)) as [Q|Q]; [| exact I]. destruct (tail_n K ceil lr cnt p) as [|m]; [exact I |].
  cbn [alike3]. apply no_worse. rewrite !(fold_total K HO). assert (NP := kofnat_pos K HO m). assert (NZ := kpos_neq0 K HO _ NP). rewrite !gain_div by exact NZ.
  replace (gain (0 + sum (firstn (S m) tl)) / #(S m) + gain (0 + sum (firstn (S m) tl')) / #(S m))
    with ((gain (0 + sum (firstn (S m) tl)) + gain (0 + sum (firstn (S m) tl'))) / #(S m)) by (field; exact NZ).
  apply kdiv_le; [exact NP |]. replace (0 + sum (firstn (S m) tl)) with (sum (firstn (S m) tl)) by ring. replace (0 + sum (firstn (S m) tl')) with (sum (firstn (S m) tl')) by ring.
  replace (0 + sum (firstn (S m) tl'')) with (sum (firstn (S m) tl'')) by ring.
  apply (tops_additive P f g (S m)); [apply (IsTail_firstn _ (pred_sw K HO lr) k _ tl) | apply (IsTail_firstn _ (pred_sw K HO lr) k _ tl') | apply (IsTail_firstn _ (pred_sw K HO lr) k _ tl'')]; assumption || lia.
Qed.
Lemma coherent_subadditive tl tl' tl'' p : 0 <= p -> p <= 1 -> lr = Right -> CeilSpec K ceil -> istail (map f P) tl -> istail (map g P) tl' -> istail (map both P) tl'' ->
  alike3 (NoWorse K lr) (coherent_tail_mean_result K ceil lr cnt tl p) (coherent_tail_mean_result K ceil lr cnt tl' p) (coherent_tail_mean_result K ceil lr cnt tl'' p).
Proof.
  intros P0 P1 ER HCe H1 H2 H3. assert (L1 := istail_length f tl H1). assert (L2 := istail_length g tl' H2). assert (L3 := istail_length both tl'' H3).
  destruct (coherent_is f tl p H1) as [[E1 R1]|[[E1 R1]|(m & q & E1 & B1 & V1 & R1)]], (coherent_is g tl' p H2) as [[E2 R2]|[[E2 R2]|(m' & q' & E2 & B2 & V2 & R2)]],
    (coherent_is both tl'' p H3) as [[E3 R3]|[[E3 R3]|(m'' & q'' & E3 & B3 & V3 & R3)]];
    rewrite R1, R2, R3; try congruence; try lia; try (destruct (Nat.ltb_spec 0 (Nat.min k cnt)); try lia; exact I); try exact I.
  assert (m' = m) by congruence. assert (m'' = m) by congruence. subst m' m''. cbn [alike3]. apply no_worse.
  assert (NP := kofnat_pos K HO m). assert (NZ := kpos_neq0 K HO _ NP). rewrite !gain_div by exact NZ.
  match goal with |- _ <= ?a / _ + ?b / _ => replace (a / #(S m) + b / #(S m)) with ((a + b) / #(S m)) by (field; exact NZ) end. apply kdiv_le; [exact NP |].
  set (c := slope p (S m)). assert (Cp : 0 <= 1 + c) by (apply slope_above; try assumption; lia).
  assert (Cn : 0 <= - c).
  { unfold c, slope. rewrite ER. assert (HN : #cnt * (1 - p) <= #(S m)).
    { rewrite <- E1. destruct (HCe (#cnt * tail_level K lr p)) as [Q _]. apply (leb_kle K) in Q. unfold tail_n. rewrite ER in *. exact Q. }
    assert (C : 0 < #cnt) by (destruct cnt; [lia | apply (kofnat_pos K HO)]).
    replace (- (1 - p - #(S m) / #cnt)) with ((#(S m) - #cnt * (1 - p)) / #cnt) by (field; now apply (kpos_neq0 K HO)). apply (kdiv_nonneg K HO); [now apply (ksub_nonneg K HO) | exact C]. }
  (* (1 + c) times the sum of m + 1 and - c times the sum of m *)
  assert (F : forall t x, nth_error t m = Some x -> gain (sum (firstn m t) + (1 + c) * x) = (1 + c) * gain (sum (firstn (S m) t)) + - c * gain (sum (firstn m t))).
  { intros t x V. rewrite (firstn_next t m x V), (total_snoc K HK), !gain_add, gain_scale. ring. }
  rewrite (F tl q V1), (F tl' q' V2), (F tl'' q'' V3).
  assert (A1 : gain (sum (firstn (S m) tl'')) <= gain (sum (firstn (S m) tl)) + gain (sum (firstn (S m) tl'))).
  { apply (tops_additive P f g (S m)); [apply (IsTail_firstn _ (pred_sw K HO lr) k _ tl) | apply (IsTail_firstn _ (pred_sw K HO lr) k _ tl') | apply (IsTail_firstn _ (pred_sw K HO lr) k _ tl'')]; assumption || lia. }
  assert (A2 : gain (sum (firstn m tl'')) <= gain (sum (firstn m tl)) + gain (sum (firstn m tl'))).
  { apply (tops_additive P f g m); [apply (IsTail_firstn _ (pred_sw K HO lr) k _ tl) | apply (IsTail_firstn _ (pred_sw K HO lr) k _ tl') | apply (IsTail_firstn _ (pred_sw K HO lr) k _ tl'')]; assumption || lia. }
  apply (kmul_le K HO _ _ _ Cp) in A1. apply (kmul_le K HO _ _ _ Cn) in A2. assert (A3 := kadd_le2 K HO _ _ _ _ A1 A2).
  match type of A3 with ?u <= ?v => match goal with |- ?a <= ?b => replace a with u by ring; replace b with v by ring end end. exact A3.
Qed.
End Risk.
