(** Proofs about the density-based median. *)
From Coq Require Import List Arith Bool Lia Field QArith Qcanon.
From Verif Require Import Num NumFacts ModelMinMax ModelRolling ModelDensity SpecStats SpecDensity ProofBasic ProofOrder ProofDensity.
Import ListNotations.

Section Med.
Variable K : Num.
Hypothesis HO : OrderedLaws K.
Let HK : FieldLaws K := ord_field K HO.
Local Notation T := (car K).
Local Notation "0" := (zero K) : num_scope.
Local Notation "1" := (one K) : num_scope.
Local Notation "x + y" := (add K x y) : num_scope.
Local Notation "x - y" := (sub K x y) : num_scope.
Local Notation "x * y" := (mul K x y) : num_scope.
Local Notation "x / y" := (div K x y) : num_scope.
Local Notation "x < y" := (klt K x y) : num_scope.
Local Notation "x <= y" := (kle K x y) : num_scope.
Local Notation "# n" := (ofnat K n) (at level 2) : num_scope.
Local Open Scope num_scope.
Add Field KfieldDM : (fl_field K HK).
Let half : T := 1 / (1 + 1).

Lemma two_pos : 0 < 1 + 1.
Proof. assert (H := kofnat_pos K HO 1). cbn in H. replace (0 + 1 + 1) with (1 + 1) in H by ring. exact H. Qed.
Lemma two_neq0 : 1 + 1 <> 0.
Proof. apply (kpos_neq0 K HO), two_pos. Qed.
Lemma half_pos : 0 < half.
Proof. apply (kdiv_pos K HO); [apply (kone_pos K HO)|apply two_pos]. Qed.
Lemma half_lt1 : half < 1.
Proof.
  apply (ksub_pos K HO). replace (1 - half) with half; [apply half_pos|]. unfold half. field. apply two_neq0.
Qed.

(** the loop, for fractions [h] and any starting sum *)
Lemma loop_spec hf cnt (h : list (T * T)) sum :
  match dmed_loop K hf cnt h sum with
  | Ok (n, s) => (n <= length h)%nat /\ s = sum + cnt * total K snd (firstn n h) /\ hf <= s /\
      forall k, (k < n)%nat -> sum + cnt * total K snd (firstn k h) < hf
  | NotANumber => False
  | UB => forall k, sum + cnt * total K snd (firstn k h) < hf
  end.
Proof.
  revert sum. induction h as [|e h IH]; intros sum; cbn [dmed_loop].
  - destruct (ltb K sum hf) eqn:E.
    + intros k. rewrite firstn_nil, total_nil. replace (sum + cnt * 0) with sum by ring. exact E.
    + cbn. split; [lia|]. split; [ring|]. split; [exact E|]. intros; lia.
  - destruct (ltb K sum hf) eqn:E.
    + specialize (IH (sum + snd e * cnt)). destruct (dmed_loop K hf cnt h (sum + snd e * cnt)) as [[n s]| |]; auto.
      * destruct IH as (H1 & H2 & H3 & H4). split; [cbn; lia|].
        split; [cbn [firstn]; rewrite total_cons, H2; ring|]. split; [exact H3|].
        intros [|k] Hk; [cbn; replace (sum + cnt * 0) with sum by ring; exact E|].
        cbn [firstn]. rewrite total_cons. specialize (H4 k ltac:(lia)).
        replace (sum + cnt * (snd e + total K snd (firstn k h))) with (sum + snd e * cnt + cnt * total K snd (firstn k h)) by ring. exact H4.
      * intros [|k]; [cbn; replace (sum + cnt * 0) with sum by ring; exact E|].
        cbn [firstn]. rewrite total_cons. specialize (IH k).
        replace (sum + cnt * (snd e + total K snd (firstn k h))) with (sum + snd e * cnt + cnt * total K snd (firstn k h)) by ring. exact IH.
    + cbn. split; [lia|]. split; [ring|]. split; [exact E|]. intros; lia.
Qed.

Lemma kmul_lt_inv x y z : 0 < z -> z * x < z * y -> x < y.
Proof.
  intros Hz H. destruct (kle_or_lt K y x) as [C|C]; [|exact C]. exfalso.
  apply (kmul_le K HO y x z) in C; [|apply (klt_le K HO); exact Hz].
  apply (knot_lt K) in C. apply C. replace (x * z) with (z * x) by ring. replace (y * z) with (z * y) by ring. exact H.
Qed.
Lemma kmul_le_inv x y z : 0 < z -> z * x <= z * y -> x <= y.
Proof.
  intros Hz H. destruct (kle_or_lt K x y) as [C|C]; [exact C|]. exfalso.
  apply (kmul_lt K HO y x z Hz) in C. apply (knot_lt K) in H. apply H.
  replace (z * x) with (x * z) by ring. replace (z * y) with (y * z) by ring. exact C.
Qed.

(** the first extraction, when the fractions add up to 1 and the positions do not decrease *)
Lemma first_extract (m : dmed K) cnt (h : list (T * T)) : dm_dirty K m = true -> dm_sum K m = 0 ->
  (1 <= cnt)%nat -> total K snd h = 1 ->
  exists i, MedianBin K h i /\
    ((S i = length h)%nat -> dmed_result K m cnt h = UB) /\
    forall p y q z, nth_error h i = Some (p, y) -> nth_error h (S i) = Some (q, z) ->
    let over := (total K snd (firstn (S i) h) - half) / y in
    let md := p * over + q * (1 - over) in
    exists m', dmed_result K m cnt h = Ok (m', md) /\ dm_dirty K m' = false /\ dm_median K m' = Some md /\
      (0 < y) /\ 0 <= over /\ over <= 1 /\ (p <= q -> p <= md /\ md <= q).
Proof.
  intros Hd Hs Hc Ht. assert (Hn : 0 < #cnt) by (destruct cnt; [lia|apply (kofnat_pos K HO)]).
  assert (Hn0 := kpos_neq0 K HO _ Hn).
  unfold dmed_result. rewrite Hd, Hs. assert (L := loop_spec (half * #cnt) #cnt h 0).
  fold half. destruct (dmed_loop K (half * #cnt) #cnt h 0) as [[n s]| |]; [|contradiction|].
  2:{ exfalso. specialize (L (length h)). rewrite firstn_all, Ht in L.
      replace (half * #cnt) with (#cnt * half) in L by ring. replace (0 + #cnt * 1) with (#cnt * 1) in L by ring.
      apply kmul_lt_inv in L; [|exact Hn]. apply (klt_irrefl K HO half). eapply (klt_trans K HO); [apply half_lt1|exact L]. }
  destruct L as (L1 & L2 & L3 & L4). destruct n as [|i].
  { exfalso. cbn in L2. subst s. replace (0 + #cnt * 0) with (0 * #cnt) in L3 by ring.
    apply (knot_lt K) in L3. apply L3. apply (kmul_lt K HO); [exact Hn|apply half_pos]. }
  assert (HM1 : total K snd (firstn i h) < half).
  { specialize (L4 i ltac:(lia)). apply (kmul_lt_inv _ _ #cnt Hn).
    replace (#cnt * half) with (half * #cnt) by ring. replace (#cnt * total K snd (firstn i h)) with (0 + #cnt * total K snd (firstn i h)) by ring. exact L4. }
  assert (HM2 : half <= total K snd (firstn (S i) h)).
  { apply (kmul_le_inv _ _ #cnt Hn). rewrite L2 in L3.
    replace (#cnt * half) with (half * #cnt) by ring. replace (#cnt * total K snd (firstn (S i) h)) with (0 + #cnt * total K snd (firstn (S i) h)) by ring. exact L3. }
  exists i. split; [split; [lia|]; split; [exact HM1|apply leb_kle; exact HM2]|]. split.
  { intros HS. rewrite (proj2 (nth_error_None h (S i))) by lia. destruct (nth_error h i) as [[? ?]|]; reflexivity. }
  intros p y q z E1 E2. rewrite E1, E2.
  set (over := (total K snd (firstn (S i) h) - half) / y). set (md := p * over + q * (1 - over)).
  assert (Hcum : total K snd (firstn (S i) h) = total K snd (firstn i h) + y).
  { assert (E : firstn (S i) h = firstn i h ++ [(p, y)]).
    { clear - E1. revert h E1. induction i; intros [|e h] E1; try discriminate; cbn in *; [congruence|]. f_equal. apply IHi. exact E1. }
    rewrite E, (total_snoc K HK). reflexivity. }
  assert (Hy : 0 < y).
  { apply (kadd_lt_inv K HO 0 y (total K snd (firstn i h))). replace (0 + total K snd (firstn i h)) with (total K snd (firstn i h)) by ring.
    replace (y + total K snd (firstn i h)) with (total K snd (firstn (S i) h)) by (rewrite Hcum; ring).
    eapply (klt_le_trans K HO); eassumption. }
  assert (Hy0 := kpos_neq0 K HO _ Hy).
  assert (Hov : (s - half * #cnt) / (y * #cnt) = over).
  { rewrite L2. unfold over. field. split; assumption. }
  rewrite Hov. fold md.
  assert (O1 : 0 <= over).
  { unfold over. apply (kdiv_nonneg K HO); [|exact Hy]. apply (ksub_nonneg K HO). exact HM2. }
  assert (O2 : over <= 1).
  { apply (ksub_nonneg K HO). replace (1 - over) with ((half - total K snd (firstn i h)) / y).
    - apply (kdiv_nonneg K HO); [|exact Hy]. apply (ksub_nonneg K HO), (klt_le K HO). exact HM1.
    - unfold over. rewrite Hcum. field. exact Hy0. }
  eexists. split; [reflexivity|]. split; [reflexivity|]. split; [reflexivity|]. split; [exact Hy|]. split; [exact O1|]. split; [exact O2|].
  intros Hpq. apply (ksub_nonneg K HO) in Hpq, O2. split; apply (ksub_nonneg K HO); unfold md.
  - replace (p * over + q * (1 - over) - p) with ((q - p) * (1 - over)) by ring. apply (kmul_nonneg K HO); assumption.
  - replace (q - (p * over + q * (1 - over))) with ((q - p) * over) by ring. apply (kmul_nonneg K HO); assumption.
Qed.

Section Runs.
Variable E : Type.
Variable val amt : E -> T.
Variable den : nat -> T -> T.
Variable lo hi : T.
Variable c b : nat.
Hypothesis Hc : (1 <= c)%nat.
Hypothesis Hb : (1 <= b)%nat.

Lemma push_run e0 es : exists d m, dmed_run K E val amt den lo hi c b 0 e0 (map MPush es) = Ok (d, m, []) /\
  dens_inv K E val amt den lo hi c b es d /\ dm_dirty K m = true /\ dm_sum K m = 0.
Proof.
  unfold dmed_run. induction es as [|e es IH] using rev_ind.
  - eexists _, _. split; [reflexivity|]. split; [apply (init_inv K E val amt den lo hi c b Hc Hb)|]. split; [reflexivity|]. cbn. field. apply (one_neq0 K HK).
  - destruct IH as (d & m & E1 & I & D & S). rewrite map_app, fold_left_app, E1. cbn [map fold_left dmed_step].
    destruct (push_inv K HO E val amt den lo hi c b Hc Hb _ _ e I) as (d' & E2 & I'). rewrite E2. eexists _, _.
    split; [reflexivity|]. split; [exact I'|]. split; [reflexivity|exact S].
Qed.
Lemma more_extracts d m md out k : dm_dirty K m = false -> dm_median K m = Some md ->
  fold_left (dmed_step K E val amt den lo hi c b) (repeat MExtract k) (Ok (d, m, out)) = Ok (d, m, out ++ repeat md k).
Proof.
  intros D M. revert out. induction k as [|k IH]; intros out; cbn [repeat fold_left]; [rewrite app_nil_r; reflexivity|].
  unfold dmed_step at 2. unfold dmed_result. rewrite D. cbn [dm_dirty]. rewrite M. rewrite IH, <- app_assoc. reflexivity.
Qed.
Lemma median_first e0 es k : (c <= length es)%nat -> bounded K lo hi (map val es) ->
  den (length es) (total K amt es) = total K amt es -> total K amt es <> 0 ->
  exists h i, MedianBin K h i /\
    (exists s, dens_run K E val amt den lo hi c b (dens_init K E lo hi c b 0 e0) (map DPush es) = Ok s /\ dens_result K E den s = h) /\
    ((i < b + 1)%nat -> exists d m md p y q z,
        nth_error h i = Some (p, y) /\ nth_error h (S i) = Some (q, z) /\ 0 < y /\
        md = (let over := (total K snd (firstn (S i) h) - half) / y in p * over + q * (1 - over)) /\ p <= md /\ md <= q /\
        dmed_run K E val amt den lo hi c b 0 e0 (map MPush es ++ repeat MExtract (S k)) = Ok (d, m, repeat md (S k))) /\
    ((b + 1 <= i)%nat -> dmed_run K E val amt den lo hi c b 0 e0 (map MPush es ++ [MExtract]) = UB).
Proof.
  intros Hn HB Hd Hne.
  destruct (push_run e0 es) as (d & m & E1 & I & D & S).
  destruct (run_inv K HO E val amt den lo hi c b Hc Hb 0 e0 (map DPush es)) as (s & R1 & R2).
  assert (HP : dens_pushes (map (@DPush E) es) = es).
  { clear. induction es; cbn; [reflexivity|]. f_equal. exact IHes. }
  rewrite HP in R2.
  set (h := hist_of K E val amt den lo hi c b es).
  assert (Hh : total K snd h = 1).
  { apply (fractions_sum K HO E val amt den c b Hc Hb); auto. apply (cmin_le_cmax K HO), (firstn_ne E c b Hc Hb); exact Hn. }
  assert (Hlen : length h = (b + 2)%nat) by (unfold h, hist_of; rewrite map_length, seq_length; reflexivity).
  assert (Hcnt : de_count K E (dens_extract K E den d) = length es).
  { apply (di_count K E val amt den lo hi c b). apply extract_inv. exact I. }
  destruct (first_extract m (length es) h D S ltac:(lia) Hh) as (i & HM & HU & HI).
  assert (EH : de_hist K E (dens_extract K E den d) = h) by (exact (extract_hist K E val amt den lo hi c b es d I Hn)).
  exists h, i. split; [exact HM|]. split; [exists s; split; [exact R1|exact (extract_hist K E val amt den lo hi c b es s R2 Hn)]|]. split.
  - intros Hi.
    assert (N1 : exists p y, nth_error h i = Some (p, y)).
    { destruct (nth_error h i) as [[p y]|] eqn:EN; [eauto|]. apply nth_error_None in EN. lia. }
    assert (N2 : exists q z, nth_error h (Datatypes.S i) = Some (q, z)).
    { destruct (nth_error h (Datatypes.S i)) as [[q z]|] eqn:EN; [eauto|]. apply nth_error_None in EN. lia. }
    destruct N1 as (p & y & N1), N2 as (q & z & N2).
    destruct (HI p y q z N1 N2) as (m' & F1 & F2 & F3 & F4 & F5 & F6 & F7).
    assert (Hpq : p <= q).
    { unfold h, hist_of in N1, N2. rewrite nth_error_map_seq in N1, N2 by lia. injection N1 as <- _. injection N2 as <- _.
      apply (bin_mono K HO); auto. apply (cmin_le_cmax K HO), (firstn_ne E c b Hc Hb); exact Hn. }
    specialize (F7 Hpq).
    eexists (dens_extract K E den d), m', _, p, y, q, z. split; [exact N1|]. split; [exact N2|]. split; [exact F4|].
    split; [reflexivity|]. split; [apply F7|]. split; [apply F7|].
    unfold dmed_run in *. rewrite fold_left_app, E1. cbn [repeat fold_left].
    unfold dmed_step at 2. rewrite D, Hcnt, EH, F1. cbn [app].
    rewrite (more_extracts _ _ _ _ k F2 F3). reflexivity.
  - intros Hi. assert (Hi' : i = (b + 1)%nat) by (destruct HM as [HM _]; lia).
    unfold dmed_run in *. rewrite fold_left_app, E1. cbn [fold_left]. unfold dmed_step. rewrite D, Hcnt, EH, HU by lia. reflexivity.
Qed.
Lemma median_early e0 es : (1 <= length es)%nat -> (length es < c)%nat -> den (length es) (total K amt es) <> 0 ->
  dmed_run K E val amt den lo hi c b 0 e0 (map MPush es ++ [MExtract]) = UB.
Proof.
  intros H1 Hn Hd. destruct (push_run e0 es) as (d & m & E1 & I & D & S).
  unfold dmed_run in *. rewrite fold_left_app, E1. cbn [fold_left]. unfold dmed_step. rewrite D.
  assert (I' := extract_inv K E val amt den lo hi c b _ _ I). destruct I' as [J1 J2 _ _ _ _ J7 _ J9].
  assert (EH : de_hist K E (dens_extract K E den d) = repeat (0, 0) (b + 2)).
  { rewrite J9. 2:{ unfold dens_extract. destruct (de_dirty K E d) eqn:Ed; [reflexivity|exact Ed]. }
    destruct (J7 Hn) as [-> ->]. generalize (b + 2)%nat. induction n as [|n IH]; [reflexivity|].
    cbn [repeat combine map]. rewrite IH. f_equal. cbn. f_equal. field. exact Hd. }
  rewrite EH, J1. unfold dmed_result. rewrite D, S. fold half.
  assert (L := loop_spec (half * #(length es)) #(length es) (repeat (0,0) (b + 2)) 0).
  assert (Z : forall n k, total K snd (firstn k (repeat (0,0) n)) = 0).
  { induction n as [|n IH]; intros [|k]; cbn [repeat firstn]; auto. rewrite total_cons, IH. cbn. ring. }
  destruct (dmed_loop K (half * #(length es)) #(length es) (repeat (0, 0) (b + 2)) 0) as [[n s]| |]; [|contradiction|reflexivity].
  exfalso. destruct L as (_ & L2 & L3 & _). rewrite Z in L2. subst s.
  replace (0 + #(length es) * 0) with 0 in L3 by ring. apply (knot_lt K) in L3. apply L3.
  apply (kmul_pos K HO); [apply half_pos|]. destruct (length es); [lia|apply (kofnat_pos K HO)].
Qed.
(** all samples equal: everything is in the overflow bin *)
Lemma median_constant e0 es x : (c <= length es)%nat -> bounded K lo hi (map val es) ->
  den (length es) (total K amt es) = total K amt es -> total K amt es <> 0 ->
  (forall e, In e es -> val e = x) ->
  dmed_run K E val amt den lo hi c b 0 e0 (map MPush es ++ [MExtract]) = UB.
Proof.
  intros Hn HB Hd Hne Hx.
  destruct (median_first e0 es 0 Hn HB Hd Hne) as (h & i & HM & (s & R1 & R2) & _ & HU). apply HU.
  destruct (run_inv K HO E val amt den lo hi c b Hc Hb 0 e0 (map DPush es)) as (s' & R1' & I).
  rewrite R1 in R1'. injection R1' as <-.
  assert (HP : dens_pushes (map (@DPush E) es) = es).
  { clear. induction es; cbn; [reflexivity|]. f_equal. exact IHes. }
  rewrite HP in I.
  unfold dens_result in R2. rewrite (extract_hist K E val amt den lo hi c b es s I Hn) in R2. subst h.
  destruct (Nat.le_gt_cases (b + 1) i) as [G|G]; [exact G|]. exfalso.
  destruct HM as (_ & _ & HM). apply leb_kle in HM.
  assert (Hmx : cmin K E val lo hi (firstn c es) = x /\ cmax K E val lo hi (firstn c es) = x).
  { assert (F := firstn_ne E c b Hc Hb es Hn). assert (B := bounded_firstn K E val lo hi c es HB).
    destruct (cmin_spec K HO E val lo hi _ F B) as [P1 _]. destruct (cmax_spec K HO E val lo hi _ F B) as [P2 _].
    apply in_map_iff in P1, P2. destruct P1 as (e1 & <- & P1), P2 as (e2 & <- & P2).
    split; apply Hx; rewrite <- (firstn_skipn c es); apply in_or_app; left; assumption. }
  destruct Hmx as [Hm1 Hm2].
  assert (Z : total K snd (firstn (Datatypes.S i) (hist_of K E val amt den lo hi c b es)) = 0).
  { unfold hist_of. rewrite Hm1, Hm2, firstn_map, (total_map K). cbn [snd].
    rewrite (total_ext K _ (fun _ => 0)); [rewrite (total_const K HK); ring|].
    intros j Hj. assert (Hj' : (j <= b)%nat).
    { assert (HJ : In j (seq 0 (Datatypes.S i))).
      { clear - Hj G. replace (b + 2)%nat with (Datatypes.S i + (b + 2 - Datatypes.S i))%nat in Hj by lia.
        rewrite seq_app, firstn_app, seq_length, Nat.sub_diag, firstn_O, app_nil_r in Hj.
        rewrite firstn_all2 in Hj by (rewrite seq_length; lia). exact Hj. }
      apply in_seq in HJ. lia. }
    assert (ZZ : bin_mass K E val amt b x x es j = 0).
    { unfold bin_mass. replace (filter (in_bin K E val b x x j) es) with (@nil E); [reflexivity|].
      symmetry. clear - Hx Hj' HO Hb HK. induction es as [|e es IH]; [reflexivity|]. cbn [filter].
      rewrite IH by (intros; apply Hx; right; assumption).
      unfold in_bin. rewrite (Hx e) by (left; reflexivity).
      destruct (InBin K x x b j x) eqn:EI; [|reflexivity]. exfalso. apply InBin_iff in EI. destruct EI as [_ [C|C]]; [lia|].
      unfold BinPosition in C. replace (x - x) with 0 in C by ring.
      assert (Hb0 : #b <> 0) by (destruct b; [lia|apply (ofnat_S_neq0 K HK)]).
      replace (x + (#(j + 1) - 1) * (0 / #b)) with x in C by (field; exact Hb0). apply (klt_irrefl K HO x). exact C. }
    rewrite ZZ, Hd. field. exact Hne. }
  rewrite Z in HM. apply (knot_lt K) in HM. apply HM. apply half_pos.
Qed.
End Runs.
End Med.

(** ** Witnesses *)
Definition ex_lo : Qc := Q2Qc (-100). Definition ex_hi : Qc := Q2Qc 100.
Definition outs {A B} (o : outcome (A * B * list Qc)) : outcome (list Q) :=
  match o with Ok (_, _, l) => Ok (map this l) | NotANumber => NotANumber | UB => UB end.
Definition ex_median := density_median_run QcN ex_lo ex_hi.
Lemma median_again :
  outs (ex_median 2 2 (Q2Qc 0) [MPush (Q2Qc 0); MPush (Q2Qc 4); MPush (Q2Qc 1); MExtract]) = Ok [3#2] /\
  outs (ex_median 2 2 (Q2Qc 0) [MPush (Q2Qc 0); MPush (Q2Qc 4); MExtract; MPush (Q2Qc 1); MExtract]) = Ok [2#1; 1#2].
Proof. split; vm_compute; reflexivity. Qed.
Lemma median_again_ub :
  outs (ex_median 4 2 (Q2Qc 0) [MPush (Q2Qc 0); MPush (Q2Qc 0); MPush (Q2Qc 0); MPush (Q2Qc 4); MPush (Q2Qc 1); MExtract]) = Ok [5#4] /\
  outs (ex_median 4 2 (Q2Qc 0) [MPush (Q2Qc 0); MPush (Q2Qc 0); MPush (Q2Qc 0); MPush (Q2Qc 4); MExtract; MPush (Q2Qc 1); MExtract]) = UB.
Proof. split; vm_compute; reflexivity. Qed.
