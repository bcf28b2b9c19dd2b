(** The accuracy of errors of means of doubles. *)
From Coq Require Import ZArith List Bool Reals Lra Lia Arith Psatz.
From Flocq Require Import Core IEEE754.BinarySingleNaN.
From Verif Require Import Num NumFacts ModelBasic ModelRolling ModelRounding ModelDouble SpecStats SpecRolling SpecDouble SpecDoubleVariance SpecDoubleMoment SpecDoubleError ProofBasic ProofBasic2 ProofRolling ProofKahan ProofDouble ProofDouble2 ProofDouble3 ProofDouble4 ProofDouble5 ProofDoubleEx
  ProofDoubleVariance ProofDoubleVariance2 ProofDoubleVariance3 ProofDoubleVariance4 ProofDoubleMoment ProofDoubleMoment2 ProofDoubleRolling3.
Import ListNotations.
Local Open Scope R_scope.

(** ** Roots *)
Lemma root_gap a b : 0 <= a -> 0 <= b -> Rabs (sqrt a - sqrt b) <= sqrt (Rabs (a - b)).
Proof.
  assert (G : forall x y, 0 <= y <= x -> sqrt x - sqrt y <= sqrt (x - y)).
  { intros x y H. assert (P1 := sqrt_pos x). assert (P2 := sqrt_pos y). assert (P3 := sqrt_pos (x - y)).
    assert (Q1 := sqrt_sqrt x ltac:(lra)). assert (Q2 := sqrt_sqrt y ltac:(lra)). assert (Q3 := sqrt_sqrt (x - y) ltac:(lra)). nra. }
  intros A B. destruct (Rle_dec b a) as [H|H].
  - rewrite (Rabs_pos_eq (a - b)), Rabs_pos_eq by (try lra; assert (sqrt b <= sqrt a) by (apply sqrt_le_1; lra); lra). apply G. lra.
  - rewrite (Rabs_minus_sym a b), Rabs_minus_sym, (Rabs_pos_eq (b - a)), Rabs_pos_eq by (try lra; assert (sqrt a <= sqrt b) by (apply sqrt_le_1; lra); lra). apply G. lra.
Qed.
Lemma root_gap_times a b : 0 <= a -> 0 <= b -> Rabs (sqrt a - sqrt b) * sqrt b <= Rabs (a - b).
Proof.
  intros A B. assert (P1 := sqrt_pos a). assert (P2 := sqrt_pos b). rewrite <- (sqrt_sqrt a A) at 2. rewrite <- (sqrt_sqrt b B) at 3.
  replace (sqrt a * sqrt a - sqrt b * sqrt b) with ((sqrt a - sqrt b) * (sqrt a + sqrt b)) by ring. rewrite Rabs_mult, (Rabs_pos_eq (sqrt a + sqrt b)) by lra.
  apply Rmult_le_compat_l; [apply Rabs_pos | lra].
Qed.
Lemma round_not_negative r : 0 <= r -> 0 <= b64_round r.
Proof.
  intros H. apply round_ge_generic; [apply FLT_exp_valid; reflexivity | apply valid_rnd_N | apply generic_format_0 | exact H].
Qed.
Lemma sqrt_ok x : finite x -> 0 <= val x -> finite (d_sqrt x) /\ val (d_sqrt x) = b64_round (sqrt (val x)).
Proof.
  intros F P. destruct (Bsqrt_correct 53 1024 prec_pos prec_max mode_NE x) as (V & A & _). fold (d_sqrt x) in V, A. split; [| exact V].
  unfold finite in *. rewrite A. destruct x as [s|s| |s m e He]; try discriminate F; [reflexivity |].
  destruct s; [| reflexivity]. exfalso. unfold val in P. cbn [B2R] in P. assert (N : F2R (Float radix2 (cond_Zopp true (Z.pos m)) e) < 0) by (apply F2R_lt_0; cbn; lia). cbn in *. lra.
Qed.

(** ** The exact variance *)
Lemma exact_variance_SS xs : ExactVariance xs = SS xs / INR (length xs).
Proof.
  unfold ExactVariance, Variance, CentralMoment, average. cbn [div RN]. rewrite R_ofnat, map_length. f_equal. rewrite SS_deviations. fold (vals xs). rewrite Mean_vals. reflexivity.
Qed.
Lemma exact_variance_within b xs : xs <> [] -> Within b xs -> 0 <= ExactVariance xs <= b * b.
Proof.
  intros NE W. rewrite exact_variance_SS. assert (H := SS_within _ _ W). assert (n1 := one_le xs NE).
  split; [apply Rmult_le_pos; [lra | left; apply Rinv_0_lt_compat; lra] |]. apply Rmult_le_reg_r with (INR (length xs)); [lra |]. unfold Rdiv. rewrite Rmult_assoc, Rinv_l, Rmult_1_r by lra. lra.
Qed.

(** ** The error from a variance that is close and not negative *)
Lemma moderate_tiny b : Moderate b -> 1000 * tiny <= roundoff * b /\ 1000 * tiny <= roundoff * (b * b).
Proof.
  intros [M1 _]. assert (Hu := roundoff_small).
  assert (E : / 2 ^ 450 = bpow radix2 (-450)) by (change (-450)%Z with (Z.opp 450); rewrite bpow_opp, <- IZR_Zpower by lia; f_equal; rewrite pow_IZR; f_equal).
  rewrite E in M1. assert (P := bpow_gt_0 radix2 (-450)).
  assert (T1 := tiny_low (-450) ltac:(lia)). assert (T2 := tiny_low (-900) ltac:(lia)). change (-900)%Z with (-450 + -450)%Z in T2. rewrite bpow_plus in T2.
  split; [eapply Rle_trans; [exact T1 |]; apply Rmult_le_compat_l; lra |]. eapply Rle_trans; [exact T2 |]. apply Rmult_le_compat_l; [lra |]. apply Rmult_le_compat; lra.
Qed.
Lemma moderate_fits b r : Moderate b -> Rabs r <= 2 * (b * b) -> Rabs (b64_round r) < bpow radix2 1024.
Proof.
  intros [M1 M2] H. assert (P0 : 0 < b) by (eapply Rlt_le_trans; [| exact M1]; apply Rinv_0_lt_compat, pow_lt; lra).
  assert (E : 2 ^ 440 = bpow radix2 440) by (rewrite <- IZR_Zpower by lia; rewrite pow_IZR; f_equal). rewrite E in M2.
  assert (B : Rabs r <= bpow radix2 881).
  { eapply Rle_trans; [exact H |]. change 881%Z with (1 + (440 + 440))%Z. rewrite !bpow_plus. change (bpow radix2 1) with 2. apply Rmult_le_compat_l; [lra |]. apply Rmult_le_compat; lra. }
  eapply Rle_lt_trans; [apply round_abs; [| exact B]; apply generic_format_bpow; unfold FLT_exp; lia | apply bpow_lt; lia].
Qed.
Lemma error_close b n v V : Moderate b -> (2 <= n)%nat -> INR n * roundoff <= / 8192 -> (Z.of_nat n <= 2 ^ 40)%Z -> finite v -> 0 <= val v -> 0 <= V <= b * b ->
  Rabs (val v - V) <= 256 * INR n * roundoff * (b * b) ->
  let r := error_of_mean_result DoubleN d_sqrt v n in let e := sqrt (V / (INR n - 1)) in
  finite r /\ Rabs (val r - e) <= b / 2 ^ 21 /\ Rabs (val r - e) * e <= 520 * roundoff * (b * b).
Proof.
  intros M N2 Nu N40 F P HV E. cbv zeta. unfold error_of_mean_result. change (div DoubleN) with d_div.
  destruct (moderate_tiny b M) as [T1 T2]. assert (Hu := roundoff_small). assert (P0 : 0 < b) by (destruct M as [M1 _]; eapply Rlt_le_trans; [| exact M1]; apply Rinv_0_lt_compat, pow_lt; lra).
  destruct (ofnat_exact (n - 1)) as [Fn En]; [lia |]. assert (Hn : INR (n - 1) = INR n - 1) by (rewrite minus_INR by lia; reflexivity). rewrite Hn in En.
  assert (n2 : 2 <= INR n) by (replace 2 with (INR 2) by reflexivity; apply le_INR; exact N2). set (c := INR n) in *. set (W := b * b) in *.
  assert (PW : 0 < W) by (unfold W; nra). assert (uW : 0 < roundoff * W) by nra. set (z := c - 1) in *. assert (z1 : 1 <= z) by (unfold z; lra).
  assert (Z0 : 0 < / z) by (apply Rinv_0_lt_compat; lra). assert (Z1 : / z <= 1) by (rewrite <- Rinv_1; apply Rinv_le; lra).
  assert (Z2 : c * / z <= 2) by (apply Rmult_le_reg_r with z; [lra |]; rewrite Rmult_assoc, Rinv_l by lra; unfold z; lra).
  assert (D : Rabs (val v / z - V / z) <= 512 * (roundoff * W)).
  { replace (val v / z - V / z) with ((val v - V) * / z) by (field; lra). rewrite Rabs_mult, (Rabs_pos_eq (/ z)) by lra.
    apply Rle_trans with (256 * c * roundoff * W * / z); [apply Rmult_le_compat_r; [lra | exact E] |].
    replace (256 * c * roundoff * W * / z) with (c * / z * (256 * (roundoff * W))) by ring. apply Rle_trans with (2 * (256 * (roundoff * W))); [apply Rmult_le_compat_r; lra | lra]. }
  assert (us : roundoff <= / 1000000) by (unfold roundoff; apply Rinv_le; [lra |]; apply Rle_trans with (2 ^ 20); [lra | apply Rle_pow; [lra | lia]]).
  assert (uWs : roundoff * W <= / 1000000 * W) by (apply Rmult_le_compat_r; lra).
  assert (X : 0 <= V / z <= W).
  { unfold Rdiv. split; [apply Rmult_le_pos; lra |]. apply Rle_trans with (V * 1); [apply Rmult_le_compat_l; lra | lra]. }
  assert (Q : 0 <= val v / z) by (apply Rmult_le_pos; lra).
  assert (Q1 : Rabs (val v / z) <= 1.01 * W) by (apply Rabs_le_inv in D; apply Rabs_le; lra).
  destruct (div_ok v (ofnat DoubleN (n - 1))) as [Fd Vd]; [rewrite En; lra | exact F | rewrite En; apply (moderate_fits b); [exact M | fold W; fold (val v) ; lra] |].
  rewrite En in Vd. fold (val (d_div v (ofnat DoubleN (n - 1)))) (val v) in Vd. set (q := d_div v (ofnat DoubleN (n - 1))) in *. clearbody q.
  assert (R1 := near_le roundoff tiny _ _ _ ltac:(lra) (round_near (val v / z)) Q1). rewrite <- Vd in R1.
  assert (D1 := close_trans _ _ _ _ _ R1 D). assert (D2 : Rabs (val q - V / z) <= 514 * (roundoff * W)) by lra. clear D1.
  assert (Pq : 0 <= val q) by (rewrite Vd; apply round_not_negative; exact Q).
  destruct (sqrt_ok q Fd Pq) as [Fr Vr]. split; [exact Fr |].
  assert (Sq : Rabs (sqrt (val q)) <= 1.02 * b).
  { rewrite Rabs_pos_eq by apply sqrt_pos. rewrite <- (sqrt_square (1.02 * b)) by lra. apply sqrt_le_1; [exact Pq | nra |]. apply Rabs_le_inv in D2. unfold W in *. nra. }
  assert (R2 := near_le roundoff tiny _ _ _ ltac:(lra) (round_near (sqrt (val q))) Sq). rewrite <- Vr in R2.
  assert (ub : 0 < roundoff * b) by (apply Rmult_lt_0_compat; lra). assert (R3 : Rabs (val (d_sqrt q) - sqrt (val q)) <= 1.03 * (roundoff * b)) by lra. clear R2.
  split.
  - assert (G := root_gap (val q) (V / z) Pq (proj1 X)).
    assert (H : sqrt (Rabs (val q - V / z)) <= 0.75 * (b / 2 ^ 21)).
    { rewrite <- (sqrt_square (0.75 * (b / 2 ^ 21))) by lra. apply sqrt_le_1; [apply Rabs_pos | nra |]. eapply Rle_trans; [exact D2 |]. unfold W, roundoff. nra. }
    assert (U : roundoff * b <= 0.1 * (b / 2 ^ 21)) by (unfold roundoff; nra).
    assert (G' := Rle_trans _ _ _ G H). assert (C := close_trans _ _ _ _ _ R3 G'). lra.
  - assert (G := root_gap_times (val q) (V / z) Pq (proj1 X)). set (e := sqrt (V / z)) in *. assert (e0 : 0 <= e) by apply sqrt_pos.
    assert (e1 : e <= b) by (unfold e; rewrite <- (sqrt_square b) by lra; fold W; apply sqrt_le_1; lra).
    assert (C : Rabs (val (d_sqrt q) - e) <= 1.03 * (roundoff * b) + Rabs (sqrt (val q) - e)) by (apply (close_trans _ (sqrt (val q))); [exact R3 | lra]).
    apply Rle_trans with ((1.03 * (roundoff * b) + Rabs (sqrt (val q) - e)) * e); [apply Rmult_le_compat_r; assumption |].
    assert (roundoff * b * e <= roundoff * b * b) by (apply Rmult_le_compat_l; [nra | exact e1]). unfold W in *. nra.
Qed.

Lemma error_of_mean_accurate b xs : Few xs -> Moderate b -> (2 <= length xs)%nat -> Within b xs ->
  finite (error_of_immediate_mean xs) /\ Rabs (val (error_of_immediate_mean xs) - ExactError xs) <= b / 2 ^ 21 /\
  Rabs (val (error_of_immediate_mean xs) - ExactError xs) * ExactError xs <= 520 * roundoff * (b * b).
Proof.
  intros L M L2 W. assert (NE : xs <> []) by (destruct xs; [cbn in L2; lia | discriminate]). destruct (variance_accurate b xs L M NE W) as [F E].
  unfold error_of_immediate_mean, error_of_immediate_mean_run. rewrite vset_count. change (vs_var DoubleN (var_set_run DoubleN (zero DoubleN) xs)) with (immediate_variance xs).
  apply error_close; [exact M | exact L2 | apply few_samples; exact L | exact L | exact F | apply unsigned_value, variance_unsigned | apply exact_variance_within; assumption | exact E].
Qed.
Lemma error_of_lazy_mean_accurate b xs : Few xs -> Moderate b -> (2 <= length xs)%nat -> Within b xs -> 40 * INR (length xs) * roundoff * (b * b) <= ExactVariance xs ->
  exists r, error_of_mean_run DoubleN d_sqrt xs = Some r /\ finite r /\ Rabs (val r - ExactError xs) <= b / 2 ^ 21 /\ Rabs (val r - ExactError xs) * ExactError xs <= 520 * roundoff * (b * b).
Proof.
  intros L M L2 W H. assert (NE : xs <> []) by (destruct xs; [cbn in L2; lia | discriminate]). destruct (lazy_variance_accurate b xs L M NE W) as (v & Ev & F & E).
  unfold error_of_mean_run. change (zero DoubleN) with d_zero. rewrite Ev. eexists. split; [reflexivity |].
  assert (P : 0 <= INR (length xs) * roundoff * (b * b)) by (assert (Hu := roundoff_small); apply Rmult_le_pos; [apply Rmult_le_pos; [apply pos_INR | lra] | exact (Rle_0_sqr b)]).
  change (car DoubleN) with double in *. set (n := INR (length xs)) in *.
  assert (Pv : 0 <= val v) by (apply Rabs_le_inv in E; lra). assert (E' : Rabs (val v - ExactVariance xs) <= 256 * n * roundoff * (b * b)) by lra. subst n.
  apply error_close; [exact M | exact L2 | apply few_samples; exact L | exact L | exact F | exact Pv | apply exact_variance_within; assumption | exact E'].
Qed.

(** ** Example *)
Lemma sevens_ok : let xs := [dbl 7 0; dbl (-3) 0; dbl 7 0] in
  Few xs /\ Moderate 8 /\ (2 <= length xs)%nat /\ Within 8 xs /\ 40 * INR (length xs) * roundoff * (8 * 8) <= ExactVariance xs /\ ExactVariance xs = 200 / 9.
Proof.
  cbv zeta. destruct integer_moments_ok as [A _].
  assert (G : forall x y z, Are [7; -3; 7]%Z [x; y; z] -> (finite x /\ val x = 7) /\ (finite y /\ val y = -3)).
  { intros x y z H. inversion H as [|? ? ? ? H1 H2]; subst. inversion H2 as [|? ? ? ? H3 _]; subst. split; assumption. }
  destruct (G _ _ _ A) as [[F1 V1] [F2 V2]].
  assert (EV : ExactVariance [dbl 7 0; dbl (-3) 0; dbl 7 0] = 200 / 9).
  { rewrite exact_variance_SS. unfold SS. rewrite !S2_cons. unfold ExactMean, ExactSum. change (S2 []) with 0. change (total RN val [dbl 7 0; dbl (-3) 0; dbl 7 0]) with (val (dbl 7 0) + (val (dbl (-3) 0) + (val (dbl 7 0) + 0))).
    change (length [dbl 7 0; dbl (-3) 0; dbl 7 0]) with 3%nat. replace (INR 3) with 3 by (cbn; lra). rewrite V1, V2. field. }
  assert (us : roundoff <= / 1000000) by (unfold roundoff; apply Rinv_le; [lra |]; apply Rle_trans with (2 ^ 20); [lra | apply Rle_pow; [lra | lia]]).
  split; [vm_compute; discriminate |]. split.
  { unfold Moderate. split; [apply Rle_trans with 1; [| lra]; rewrite <- Rinv_1; apply Rinv_le; [lra |]; apply pow_R1_Rle; lra |].
    apply Rle_trans with (2 ^ 3); [lra | apply Rle_pow; [lra | lia]]. }
  split; [cbn; lia |]. split.
  { apply Forall_cons; [| apply Forall_cons; [| apply Forall_cons; [| apply Forall_nil]]]; (split; [assumption |]); rewrite ?V1, ?V2; apply Rabs_le; lra. }
  split; [| exact EV]. rewrite EV. change (length [dbl 7 0; dbl (-3) 0; dbl 7 0]) with 3%nat. replace (INR 3) with 3 by (cbn; lra). lra.
Qed.
