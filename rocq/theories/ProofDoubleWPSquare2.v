(** Runs of the weighted P-square estimators of doubles. *)
From Coq Require Import ZArith List Bool Reals Lra Lia Arith Permutation Sorted.
From Flocq Require Import Core IEEE754.BinarySingleNaN.
From Verif Require Import Num NumFacts ModelBasic ModelRolling ModelDensity ModelPSquare ModelRounding ModelDouble SpecStats SpecPSquare SpecDouble SpecDoubleVariance
  ProofBasic ProofRollingBuf ProofPSquare ProofPSquareRun ProofPSquareInst ProofKahan ProofDouble ProofDouble2 ProofDouble3 ProofDouble4 ProofDouble5 ProofDouble6
  ProofDoublePSquare ProofDoublePSquare2 ProofDoubleCovariance ProofDoubleWPSquare.
Import ListNotations.
Local Open Scope R_scope.
Local Notation at_ l i := (nth i (l : list (car DoubleN)) (zero DoubleN)).
Local Notation H s := (mh DoubleN s).
Local Notation P s := (mp DoubleN s).
Local Notation D s := (md DoubleN s).

Lemma zero_near : Near 0 d_zero.
Proof. destruct whole_zero as [F E]. split; [exact F |]. rewrite E, Rabs_R0, Rmult_0_l. apply Rle_refl. Qed.
Section Run.
Variable k : Z.
Hypothesis K : (-1000 <= k)%Z.
Hypothesis K' : (k <= 1000)%Z.
Variable M : nat.
Hypothesis HM : (2 <= M)%nat.
Variable cum : nat.
Variable des : car DoubleN -> list (car DoubleN) -> list (car DoubleN) -> outcome (list (car DoubleN)).
Hypothesis Hdes : forall n W p d, (Z.of_nat M <= n <= 2 ^ 40)%Z -> Near n W -> length p = M -> AllNear (2 * n) M p -> length d = M -> AllHeld 990 M d ->
  exists d', des W p d = Ok d' /\ length d' = M /\ AllHeld 990 M d'.
Variable m0 : marks DoubleN.
Hypothesis L0h : length (H m0) = M.
Hypothesis L0p : length (P m0) = M.
Hypothesis L0d : length (D m0) = M.
Hypothesis D0 : AllHeld 990 M (D m0).

Local Notation entries := (list (car DoubleN * car DoubleN)).
Definition WReady (es : entries) (m : marks DoubleN) : Prop :=
  length (H m) = M /\ length (P m) = M /\ length (D m) = M /\ AllHeld k M (H m) /\ Rising M (H m) /\
  AllNear (2 * Z.of_nat (length es)) M (P m) /\ AllHeld 990 M (D m) /\ Spans (map fst es) (at_ (H m) 0) (at_ (H m) (M - 1)).
Definition WFilling (es : entries) (m : marks DoubleN) : Prop :=
  length (H m) = M /\ length (P m) = M /\ D m = D m0 /\ forall i, (i < length es)%nat -> at_ (H m) i = at_ (map fst es) i /\ at_ (P m) i = at_ (map snd es) i.
Definition Entry (e : car DoubleN * car DoubleN) : Prop := Held k (fst e) /\ Near 1 (snd e).

Lemma woperate (es : entries) (x w W : car DoubleN) m : Forall Entry (es ++ [(x, w)]) -> (Z.of_nat (length (es ++ [(x, w)])) <= 2 ^ 40)%Z ->
  Near (Z.of_nat (length (es ++ [(x, w)]))) W ->
  (if Nat.ltb (length es) M then WFilling es m else WReady es m) ->
  exists m', psq_operate DoubleN M true cum des (S (length es)) W m x w = Ok m' /\
    (if Nat.ltb (length (es ++ [(x, w)])) M then WFilling (es ++ [(x, w)]) m' else WReady (es ++ [(x, w)]) m').
Proof.
  intros HX HN HWs HI. assert (LX : length (es ++ [(x, w)]) = S (length es)) by (rewrite app_length; cbn; lia).
  assert (Hxw : Entry (x, w)) by (rewrite Forall_forall in HX; apply HX, in_or_app; right; left; reflexivity). destruct Hxw as [Hx Hw]. cbn [fst snd] in Hx, Hw.
  unfold psq_operate. destruct (Nat.leb_spec (S (length es)) M) as [L | L].
  - destruct (Nat.ltb_spec (length es) M) as [L' | L']; [| lia]. destruct HI as (Lh & Lp & Ed & HA).
    replace (S (length es) - 1)%nat with (length es) by lia.
    assert (Q : forall i, (i < S (length es))%nat -> at_ (set_nth (length es) x (H m)) i = at_ (map fst (es ++ [(x, w)])) i /\
                                                     at_ (set_nth (length es) w (P m)) i = at_ (map snd (es ++ [(x, w)])) i).
    { intros i Hi. rewrite !at_set_d by (rewrite ?Lh, ?Lp; lia). rewrite !map_app. destruct (Nat.eqb_spec (length es) i) as [<- | N].
      - rewrite !app_nth2 by (rewrite map_length; lia). rewrite !map_length, !Nat.sub_diag. split; reflexivity.
      - rewrite !app_nth1 by (rewrite map_length; lia). apply HA. lia. }
    destruct (Nat.eqb_spec (S (length es)) M) as [E | E]; eexists; (split; [reflexivity |]); rewrite LX.
    + destruct (Nat.ltb_spec (S (length es)) M) as [X | X]; [lia |].
      assert (EQ1 : set_nth (length es) x (H m) = map fst (es ++ [(x, w)])).
      { apply (nth_ext _ _ (zero DoubleN) (zero DoubleN)); [rewrite set_nth_length, map_length, LX, Lh; lia |]. rewrite set_nth_length, Lh. intros i Hi. apply Q. lia. }
      assert (EQ2 : set_nth (length es) w (P m) = map snd (es ++ [(x, w)])).
      { apply (nth_ext _ _ (zero DoubleN) (zero DoubleN)); [rewrite set_nth_length, map_length, LX, Lp; lia |]. rewrite set_nth_length, Lp. intros i Hi. apply Q. lia. }
      rewrite EQ1, EQ2. rewrite combine_fst_snd. set (es' := es ++ [(x, w)]) in *.
      assert (FF : first_finite es') by (eapply Forall_impl; [| exact HX]; intros e He; apply He).
      destruct (sel_sort_double M es' FF (eq_trans LX E)) as [PM RS]. set (hw := sel_sort DoubleN M es') in *.
      assert (LS : length hw = M) by (rewrite <- (Permutation_length PM), LX; exact E).
      assert (LF : length (map fst hw) = M) by (rewrite map_length; exact LS).
      assert (IN : forall y, In y (map fst hw) <-> In y (map fst es')).
      { intros y. split; apply Permutation_in, Permutation_map; [symmetry |]; exact PM. }
      assert (NP : Forall (Near 1) (map snd hw)).
      { apply Forall_forall. intros y Hy. apply in_map_iff in Hy. destruct Hy as (e & <- & He). rewrite Forall_forall in HX. apply HX. exact (Permutation_in _ (Permutation_sym PM) He). }
      assert (NC := cumulate_near cum (map snd hw)). rewrite map_length, LS in NC. specialize (NC ltac:(lia) NP).
      assert (LC : length (cumulate DoubleN cum (map snd hw)) = M) by (rewrite cumulate_length, map_length; exact LS).
      split; [exact LF |]. split; [exact LC |]. cbn [mh mp md]. rewrite Ed. split; [exact L0d |]. split; [| split; [| split; [| split]]].
      * intros i Hi. assert (A : In (at_ (map fst hw) i) (map fst es')) by (apply IN, nth_In; rewrite LF; exact Hi).
        apply in_map_iff in A. destruct A as (e & <- & He). rewrite Forall_forall in HX. apply HX. exact He.
      * intros i Hi. apply ranked_at; [exact RS | lia |]. rewrite LF. exact Hi.
      * intros i Hi. apply (near_le (Z.of_nat M)); [rewrite LX; lia |]. rewrite Forall_forall in NC. apply NC, nth_In. rewrite LC. exact Hi.
      * exact D0.
      * split; [apply IN, nth_In; rewrite LF; lia |]. split; [apply IN, nth_In; rewrite LF; lia |].
        intros y Hy. apply (proj2 (IN y)) in Hy. destruct (In_nth _ y (zero DoubleN) Hy) as (j & Hj & <-).
        assert (Hj' : (j < M)%nat) by (rewrite <- LF; exact Hj). split; apply ranked_at; try assumption; try lia; rewrite LF; lia.
    + destruct (Nat.ltb_spec (S (length es)) M) as [X | X]; [| lia]. split; [cbn; rewrite set_nth_length; exact Lh |].
      split; [cbn; rewrite set_nth_length; exact Lp |]. split; [exact Ed |]. cbn [mh mp]. rewrite LX. exact Q.
  - destruct (Nat.ltb_spec (length es) M) as [L' | L']; [lia |]. destruct HI as (Lh & Lp & Ld & Hh & Ho & Hp & Hd & HS).
    rewrite LX in *. destruct (Nat.ltb_spec (S (length es)) M) as [X | X]; [lia |].
    unfold msync. destruct (locate_double k M (H m) x HM Lh Hh Ho Hx) as (h' & c & EL & Lh' & Hh' & Ho' & C1 & C2 & E0 & E1).
    rewrite EL. cbn [obnd fst snd andb]. rewrite (nth_error_nth0 (H m) 0 (zero DoubleN)) by (rewrite Lh; lia).
    set (n := Z.of_nat (length es)) in *. replace (Z.of_nat (S (length es))) with (n + 1)%Z in * by lia.
    set (q := if ltb DoubleN x (at_ (H m) 0) then set_nth 0 w (P m) else P m).
    assert (Lq : length q = M) by (unfold q; destruct (ltb DoubleN x (at_ (H m) 0)); rewrite ?set_nth_length; exact Lp).
    assert (Hq : AllNear (2 * n) M q).
    { intros i Hi. unfold q. destruct (ltb DoubleN x (at_ (H m) 0)); [| apply Hp; exact Hi]. rewrite at_set_d by (rewrite Lp; lia).
      destruct (Nat.eqb_spec 0 i); [apply (near_le 1); [lia | exact Hw] | apply Hp; exact Hi]. }
    set (p := bump DoubleN c w q).
    assert (LP' : length p = M) by (unfold p; rewrite bump_length; exact Lq).
    assert (HP' : AllNear (2 * n + 1) M p).
    { intros i Hi. unfold p. rewrite bump_at by (rewrite Lq; exact Hi). destruct (Nat.ltb i c); [apply (near_le (2 * n)); [lia | apply Hq; exact Hi] |].
      apply near_add; [lia | lia | lia | apply Hq; exact Hi | exact Hw]. }
    destruct (Hdes (n + 1)%Z W p (D m)) as (d' & Ed & Ld' & Hd'); try assumption; [lia | intros i Hi; apply (near_le (2 * n + 1)); [lia | apply HP'; exact Hi] |].
    rewrite Ed. cbn [obnd].
    destruct (adjust_any k M (2 * n + 2) {| mh := h'; mp := p; md := d' |} K K' ltac:(lia) ltac:(lia) HM Lh' LP' Ld' Hh' Ho')
      as (s' & EA & A1 & A2 & A3 & A4 & A5 & A6 & A7 & A8); [cbn [mp]; replace (2 * n + 2 - 1)%Z with (2 * n + 1)%Z by lia; exact HP' | exact Hd' |].
    exists s'. split; [exact EA |]. cbn [mh mp md] in *. rewrite E0 in A7. rewrite E1 in A8.
    split; [exact A1 |]. split; [exact A2 |]. split; [rewrite A3; exact Ld' |]. split; [exact A4 |]. split; [exact A5 |].
    split; [rewrite LX; replace (2 * Z.of_nat (S (length es)))%Z with (2 * n + 2)%Z by lia; exact A6 |].
    split; [rewrite A3; exact Hd' |]. rewrite A7, A8, map_app. apply spans_next; [| | exact HS].
    + destruct (Hh 0%nat ltac:(lia)) as [F B]. split; [exact F |]. eapply Rle_trans; [exact B | apply bpow_le; lia].
    + constructor; [apply Hx |]. constructor; [apply Hh; lia |]. apply Forall_app in HX. apply Forall_forall. intros y Hy.
      apply in_map_iff in Hy. destruct Hy as (e & <- & He). destruct HX as [HX _]. rewrite Forall_forall in HX. apply HX. exact He.
Qed.

Lemma wrun (es : entries) : Forall Entry es -> (Z.of_nat (length es) <= 2 ^ 40)%Z ->
  exists s, psq_run DoubleN M true cum des m0 es = Ok s /\ ps_count DoubleN s = length es /\ Near (Z.of_nat (length es)) (ps_wsum DoubleN s) /\
    if Nat.ltb (length es) M then WFilling es (ps_marks DoubleN s) else WReady es (ps_marks DoubleN s).
Proof.
  unfold psq_run. induction es as [| [x w] es IH] using rev_ind; intros HX HN.
  - eexists. split; [reflexivity |]. split; [reflexivity |]. split; [exact zero_near |]. cbn [length ps_marks]. destruct (Nat.ltb_spec 0 M); [| lia].
    split; [exact L0h |]. split; [exact L0p |]. split; [reflexivity |]. cbn; intros; lia.
  - assert (HX' := HX). apply Forall_app in HX'. rewrite app_length in HN. cbn [length] in HN.
    destruct (IH (proj1 HX') ltac:(lia)) as (s & E & C & NW & I).
    rewrite fold_left_app, E. cbn [fold_left obnd fst snd]. unfold psq_push. rewrite C.
    assert (NW' : Near (Z.of_nat (length (es ++ [(x, w)]))) (add DoubleN (ps_wsum DoubleN s) w)).
    { rewrite app_length. cbn [length]. replace (Z.of_nat (length es + 1)) with (Z.of_nat (length es) + 1)%Z by lia.
      apply near_add; [lia | lia | lia | exact NW |]. destruct HX' as [_ HX']. inversion HX' as [| ? ? HE _]; subst. apply HE. }
    assert (HN' : (Z.of_nat (length (es ++ [(x, w)])) <= 2 ^ 40)%Z) by (rewrite app_length; exact HN).
    destruct (woperate es x w _ (ps_marks DoubleN s) HX HN' NW' I) as (m' & E' & I').
    rewrite E'. cbn [obnd]. eexists. split; [reflexivity |]. cbn [ps_count ps_marks ps_wsum].
    split; [rewrite app_length; cbn [length]; lia |]. split; [exact NW' | exact I'].
Qed.
Lemma wrun_ready (es : entries) : Forall Entry es -> (Z.of_nat (length es) <= 2 ^ 40)%Z -> (M <= length es)%nat ->
  exists s, psq_run DoubleN M true cum des m0 es = Ok s /\ ps_count DoubleN s = length es /\ Near (Z.of_nat (length es)) (ps_wsum DoubleN s) /\ WReady es (ps_marks DoubleN s).
Proof.
  intros HX HN HL. destruct (wrun es HX HN) as (s & E & C & NW & I). exists s. split; [exact E |]. split; [exact C |]. split; [exact NW |].
  destruct (Nat.ltb_spec (length es) M) as [X | X]; [lia | exact I].
Qed.
End Run.

(** *** The three desired positions *)
Lemma zero_held k : Held k d_zero.
Proof. destruct whole_zero as [F E]. split; [exact F |]. rewrite E, Rabs_R0. apply bpow_ge_0. Qed.
Lemma all_held k M (l : list (car DoubleN)) : length l = M -> Forall (Held k) l -> AllHeld k M l.
Proof. intros L F i Hi. rewrite Forall_forall in F. apply F, nth_In. rewrite L. exact Hi. Qed.
Lemma zeros_held k M : AllHeld k M (repeat d_zero M).
Proof. apply all_held; [apply repeat_length |]. apply Forall_forall. intros x Hx. apply repeat_spec in Hx. subst x. apply zero_held. Qed.
Lemma held_below j k x : (j <= k)%Z -> Held j x -> below k x.
Proof. intros L E. apply (below_le j); [exact L | exact E]. Qed.
Lemma below_held j k x : (j <= k)%Z -> below j x -> Held k x.
Proof. intros L E. exact (below_le j k x L E). Qed.
Lemma near_942 n x : (0 <= n <= 2 ^ 41)%Z -> Near n x -> below 942 x.
Proof.
  intros B [F E]. split; [exact F |]. eapply Rle_trans; [exact E |]. change 942%Z with (42 + 900)%Z. rewrite bpow_plus.
  apply Rmult_le_compat_r; [apply bpow_ge_0 |]. rewrite <- IZR_Zpower by lia. apply IZR_le. change (Zpower radix2 42) with (2 ^ 42)%Z. lia.
Qed.
Lemma desired_below n k x : (0 <= k)%Z -> (n <= 2 ^ k)%Z -> Desired n x -> below k x.
Proof.
  intros K L [F B]. split; [exact F |]. rewrite Rabs_pos_eq by lra. eapply Rle_trans; [exact (proj2 B) |]. rewrite <- IZR_Zpower by exact K. apply IZR_le. exact L.
Qed.
Section Desires.
Variables (W p0 : double).
Hypothesis HW : below 942 W.
Hypothesis Hp0 : below 942 p0.
Lemma gap_below : below 943 (d_sub W p0).
Proof. exact (proj1 (sub_below 942 W p0 ltac:(lia) ltac:(lia) HW Hp0)). Qed.
Lemma desire_at f : Desired 2 f -> Held 990 (d_add (d_mul (d_sub W p0) f) p0).
Proof.
  intros Hf. apply (below_held (944 + 1)); [lia |]. apply add_below; [lia | lia | | apply (below_le 942); [lia | exact Hp0]].
  apply (mul_below 943 1); [lia | lia | exact gap_below | apply (desired_below 2); [lia | lia | exact Hf]].
Qed.
Lemma halve_below k x : (-1000 <= k)%Z -> (k <= 1000)%Z -> below k x -> below k (d_div x (d_add d_one d_one)).
Proof.
  intros K K' B. assert (E : d_add d_one d_one = ofnat DoubleN 2) by (apply (whole_unique _ 2); [lia | lia | exact whole_two]). rewrite E.
  apply div_below; [exact K | exact K' | exact B | lia | lia].
Qed.
Lemma desire_half f : Desired 2 f -> Held 990 (d_add (d_div (d_mul (d_sub W p0) f) (d_add d_one d_one)) p0).
Proof.
  intros Hf. apply (below_held (944 + 1)); [lia |]. apply add_below; [lia | lia | | apply (below_le 942); [lia | exact Hp0]].
  apply halve_below; [lia | lia |]. apply (mul_below 943 1); [lia | lia | exact gap_below | apply (desired_below 2); [lia | lia | exact Hf]].
Qed.
Lemma desire_rank i b : (1 <= b)%nat -> (i <= b)%nat -> (Z.of_nat b <= 2 ^ 40)%Z ->
  Held 990 (d_add p0 (d_div (d_mul (ofnat DoubleN (i - 1)) (d_sub W p0)) (ofnat DoubleN b))).
Proof.
  intros B1 B2 B3. apply (below_held (983 + 1)); [lia |]. apply add_below; [lia | lia | apply (below_le 942); [lia | exact Hp0] |].
  apply div_below; [lia | lia | | exact B1 | lia]. apply (mul_below 40 943); [lia | lia | apply ofnat_below; lia | exact gap_below].
Qed.
End Desires.

Lemma entries_ok (es : list (car DoubleN * car DoubleN)) : Within (2 ^ 1000) (map fst es) -> Within (2 ^ 900) (map snd es) -> Forall (Entry 1000) es.
Proof.
  intros A B. apply within_held in A. assert (E : bpow radix2 900 = 2 ^ 900) by (rewrite <- IZR_Zpower by lia; rewrite pow_IZR; reflexivity).
  unfold Within in B. rewrite Forall_map in A, B. rewrite Forall_forall in *. intros e He. split; [exact (A e He) |].
  destruct (B e He) as [F Bd]. split; [exact F |]. rewrite Rmult_1_l, E. exact Bd.
Qed.
Lemma few_entries (es : list (car DoubleN * car DoubleN)) : Few es -> (Z.of_nat (length es) <= 2 ^ 40)%Z.
Proof. exact (fun h => h). Qed.

(** *** weighted_p_square_quantile *)
Lemma wpq_double (p : double) (es : list (double * double)) : Few es -> (5 <= length es)%nat -> Within (2 ^ 1000) (map fst es) -> Within (2 ^ 900) (map snd es) ->
  finite p -> 0 <= val p <= 1 ->
  exists s r lo hi, wpq_run DoubleN p es = Ok s /\ pq_result DoubleN s = Ok r /\ finite r /\ Spans (map fst es) lo hi /\ val lo <= val r <= val hi.
Proof.
  intros HF HL HX HW Fp Bp. assert (Hp : Desired 1 p) by (split; assumption).
  assert (Hp2 : Desired 2 p) by (apply (desired_le 1); [lia | exact Hp]).
  destruct (wrun_ready 1000 ltac:(lia) ltac:(lia) 5 ltac:(lia) 5 (wpq_des DoubleN p)) with (m0 := wpq_init DoubleN) (es := es) as (s & E & C & _ & I);
    [| reflexivity | reflexivity | reflexivity | apply (zeros_held 990 5) | apply entries_ok; assumption | apply few_entries; exact HF | exact HL |].
  { intros n W pos d Hn NW Lp Hpos _ _. unfold wpq_des. rewrite (nth_error_nth0 pos 0 (zero DoubleN)) by (rewrite Lp; lia). eexists. split; [reflexivity |]. split; [reflexivity |].
    assert (BW : below 942 W) by (apply (near_942 n); [lia | exact NW]). assert (BP : below 942 (at_ pos 0)) by (apply (near_942 (2 * n)); [lia | apply Hpos; lia]).
    apply all_held; [reflexivity |].
    apply Forall_cons; [apply (below_held 942); [lia | exact BP] |].
    apply Forall_cons; [apply desire_half; assumption |].
    apply Forall_cons; [apply desire_at; assumption |].
    apply Forall_cons; [apply desire_half; try assumption; apply (desired_add 1 1); try lia; [apply desired_one; lia | exact Hp] |].
    apply Forall_cons; [apply (below_held 942); [lia | exact BW] | constructor]. }
  destruct I as (Lh & Lp & Ld & Hh & Ho & _ & _ & HS).
  exists s, (at_ (mh DoubleN (ps_marks DoubleN s)) 2), (at_ (mh DoubleN (ps_marks DoubleN s)) 0), (at_ (mh DoubleN (ps_marks DoubleN s)) 4).
  split; [exact E |]. split; [unfold pq_result; rewrite (nth_error_nth0 _ 2 (zero DoubleN)) by (rewrite Lh; lia); reflexivity |].
  split; [apply Hh; lia |]. split; [exact HS |]. split; apply (rising_le 5); try assumption; lia.
Qed.

(** *** weighted_p_square_cumulative_distribution *)
Lemma wcd_double (b : nat) (es : list (double * double)) : Few es -> (1 <= b)%nat -> (b < length es)%nat -> Within (2 ^ 1000) (map fst es) -> Within (2 ^ 900) (map snd es) ->
  exists s lo hi, wcd_run DoubleN b es = Ok s /\ Spans (map fst es) lo hi /\ length (wcd_pairs DoubleN s) = (b + 1)%nat /\
    nth_error (map fst (wcd_pairs DoubleN s)) 0 = Some lo /\ nth_error (map fst (wcd_pairs DoubleN s)) b = Some hi /\
    Ascending (map fst (wcd_pairs DoubleN s)) /\ Forall finite (map fst (wcd_pairs DoubleN s)).
Proof.
  intros HF B1 HL HX HW. assert (HF' := few_entries es HF).
  destruct (wrun_ready 1000 ltac:(lia) ltac:(lia) (b + 1) ltac:(lia) b (wcd_des DoubleN b)) with (m0 := wcd_init DoubleN b) (es := es) as (s & E & C & _ & I);
    [| apply repeat_length | apply repeat_length | apply repeat_length | apply (zeros_held 990 (b + 1)) | apply entries_ok; assumption | exact HF'
    | cut (b + 1 <= length es)%nat; [exact (fun h => h) | lia] |].
  { intros n W pos d Hn NW Lp Hpos Ld Hd. unfold wcd_des. rewrite (nth_error_nth0 pos 0 (zero DoubleN)) by (rewrite Lp; lia).
    rewrite (nth_error_nth0 d 0 (zero DoubleN)) by (rewrite Ld; lia). eexists. split; [reflexivity |].
    assert (LD : length (at_ d 0 :: map (fun i => add DoubleN (at_ pos 0) (div DoubleN (mul DoubleN (ofnat DoubleN (i - 1)) (sub DoubleN W (at_ pos 0))) (ofnat DoubleN b))) (seq 1 b)) = (b + 1)%nat)
      by (cbn [length]; rewrite map_length, seq_length; lia).
    split; [exact LD |]. apply all_held; [exact LD |]. apply Forall_cons; [apply Hd; lia |].
    assert (BW : below 942 W) by (apply (near_942 n); [lia | exact NW]). assert (BP : below 942 (at_ pos 0)) by (apply (near_942 (2 * n)); [lia | apply Hpos; lia]).
    apply Forall_forall. intros y Hy. apply in_map_iff in Hy. destruct Hy as (i & <- & Hi). apply in_seq in Hi. apply desire_rank; try assumption; lia. }
  destruct I as (Lh & Lp & Ld & Hh & Ho & _ & _ & HS). set (h := mh DoubleN (ps_marks DoubleN s)) in *. set (p := mp DoubleN (ps_marks DoubleN s)) in *.
  assert (EF : map fst (wcd_pairs DoubleN s) = h).
  { unfold wcd_pairs. fold h p. rewrite map_map. cbn [fst]. apply map_fst_combine. rewrite Lh, Lp. reflexivity. }
  exists s, (at_ h 0), (at_ h b). split; [exact E |]. split; [replace (b + 1 - 1)%nat with b in HS by lia; exact HS |].
  split; [rewrite <- Lh, <- EF, map_length; reflexivity |]. rewrite EF.
  split; [apply nth_error_nth0; rewrite Lh; lia |]. split; [apply nth_error_nth0; rewrite Lh; lia |].
  split; [apply rising_ascending; rewrite Lh; exact Ho |]. apply Forall_forall. intros y Hy. destruct (In_nth _ y (zero DoubleN) Hy) as (j & Hj & <-). apply Hh. rewrite <- Lh. exact Hj.
Qed.

(** *** weighted_extended_p_square *)
Lemma all_read_held k (l : list (option (car DoubleN))) : Forall (fun o => exists x, o = Some x /\ Held k x) l ->
  exists r, all_read l = Ok r /\ length r = length l /\ Forall (Held k) r.
Proof.
  induction 1 as [| o l (x & -> & Hx) _ (r & E & L & F)]; [exists []; repeat split; constructor |]. cbn [all_read]. rewrite E. cbn [obnd].
  exists (x :: r). split; [reflexivity |]. split; [exact (f_equal S L) | constructor; assumption].
Qed.
Lemma wext_double (probs : list (car DoubleN)) (es : list (car DoubleN * car DoubleN)) : probs <> [] -> Few es -> (2 * length probs + 3 <= length es)%nat ->
  Within (2 ^ 1000) (map fst es) -> Within (2 ^ 900) (map snd es) -> Forall (fun p => finite p /\ 0 <= val p <= 1) probs ->
  exists s rs lo hi, wext_run DoubleN probs es = Ok s /\ ext_result DoubleN probs s = Ok rs /\ length rs = length probs /\
    Spans (map fst es) lo hi /\ Ascending rs /\ Forall (fun r => finite r /\ val lo <= val r <= val hi) rs.
Proof.
  intros HP HF HL HX HW Hp. assert (HF' := few_entries es HF). set (M := ext_markers DoubleN probs). assert (EM : M = (2 * length probs + 3)%nat) by reflexivity.
  assert (M0 : (1 <= length probs)%nat) by (destruct probs; [congruence | cbn; lia]).
  destruct (wrun_ready 1000 ltac:(lia) ltac:(lia) M ltac:(lia) M (wext_des DoubleN probs)) with (m0 := wext_init DoubleN probs) (es := es) as (s & E & C & _ & I);
    [| apply repeat_length | apply repeat_length | apply repeat_length | apply (zeros_held 990 M) | apply entries_ok; assumption | exact HF' | exact HL |].
  { intros n W pos d Hn NW Lp Hpos _ _. unfold wext_des. rewrite (nth_error_nth0 pos 0 (zero DoubleN)) by (rewrite Lp; lia).
    assert (BW : below 942 W) by (apply (near_942 n); [lia | exact NW]). assert (BP : below 942 (at_ pos 0)) by (apply (near_942 (2 * n)); [lia | apply Hpos; lia]).
    assert (QP : forall j, (j < length probs)%nat -> exists q, @nth_error (car DoubleN) probs j = Some q /\ Desired 1 q /\ Desired 2 q).
    { intros j Hj. exists (at_ probs j). split; [apply nth_error_nth0; exact Hj |]. rewrite Forall_forall in Hp.
      assert (Q : Desired 1 (at_ probs j)) by (apply Hp, nth_In; exact Hj). split; [exact Q | apply (desired_le 1); [lia | exact Q]]. }
    destruct (all_read_held 990 (map (wext_des_at DoubleN probs W (at_ pos 0)) (seq 0 M))) as (d' & Ed & Ld' & Fd').
    { apply Forall_forall. intros o Ho. apply in_map_iff in Ho. destruct Ho as (i & <- & Hi). apply in_seq in Hi. unfold wext_des_at. fold M. cbv zeta.
      destruct (Nat.eqb_spec i 0) as [| N0]; [eexists; split; [reflexivity |]; apply (below_held 942); [lia | exact BP] |].
      destruct (Nat.eqb_spec i (M - 1)) as [| N1]; [eexists; split; [reflexivity |]; apply (below_held 942); [lia | exact BW] |].
      destruct (Nat.eqb_spec i 1) as [| N2].
      { destruct (QP 0%nat ltac:(lia)) as (q & -> & Q1 & Q2). eexists; split; [reflexivity |]. apply desire_half; assumption. }
      destruct (Nat.eqb_spec i (M - 2)) as [| N3].
      { destruct (QP (length probs - 1)%nat ltac:(lia)) as (q & -> & Q1 & Q2). eexists; split; [reflexivity |]. apply desire_half; try assumption.
        apply (desired_add 1 1); try lia; [exact Q1 | apply desired_one; lia]. }
      destruct (Nat.even i) eqn:EV.
      - apply Nat.even_spec in EV. destruct EV as [j ->]. rewrite Nat.div2_double. destruct (QP (j - 1)%nat ltac:(lia)) as (q & -> & Q1 & Q2).
        eexists; split; [reflexivity |]. apply desire_at; assumption.
      - assert (OD : Nat.odd i = true) by (unfold Nat.odd; rewrite EV; reflexivity). apply Nat.odd_spec in OD. destruct OD as [j ->].
        replace (2 * j + 1)%nat with (S (2 * j)) by lia. rewrite Nat.div2_succ_double.
        destruct (QP (j - 1)%nat ltac:(lia)) as (q & -> & Q1 & Q2). destruct (QP j ltac:(lia)) as (q' & -> & Q1' & Q2').
        eexists; split; [reflexivity |]. apply desire_half; try assumption. apply (desired_add 1 1); try lia; assumption. }
    rewrite map_length, seq_length in Ld'. exists d'. split; [exact Ed |]. split; [exact Ld' | apply all_held; assumption]. }
  destruct I as (Lh & Lp & Ld & Hh & Ho & _ & _ & HS).
  set (h := mh DoubleN (ps_marks DoubleN s)) in *.
  set (rs := map (fun i => at_ h (2 * i)) (seq 1 (length probs))).
  assert (AR : forall i, (i < length probs)%nat -> at_ rs i = at_ h (2 * i + 2)).
  { intros i Hi. unfold rs. rewrite (nth_indep _ _ ((fun i => at_ h (2 * i)) 0%nat)) by (rewrite map_length, seq_length; exact Hi).
    rewrite map_nth with (f := fun i => at_ h (2 * i)), seq_nth by exact Hi. f_equal. lia. }
  assert (LR : length rs = length probs) by (unfold rs; rewrite map_length, seq_length; reflexivity).
  exists s, rs, (at_ h 0), (at_ h (M - 1)). split; [exact E |]. split; [| split; [exact LR |]; split; [exact HS |]; split].
  - unfold ext_result. fold h. unfold rs. rewrite <- all_read_some. f_equal. rewrite map_map. apply map_ext_in. intros i Hi. apply in_seq in Hi. apply nth_error_nth0. rewrite Lh, EM. lia.
  - apply rising_ascending. rewrite LR. intros i Hi. rewrite !AR by lia. apply (rising_le M); [exact Ho | lia | lia].
  - apply Forall_forall. intros r Hr. unfold rs in Hr. apply in_map_iff in Hr. destruct Hr as (i & <- & Hi). apply in_seq in Hi.
    split; [apply Hh; lia |]. split; apply (rising_le M); try exact Ho; lia.
Qed.
