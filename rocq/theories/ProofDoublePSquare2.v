(** The P-square accumulators of doubles. *)
From Coq Require Import ZArith List Bool Reals Lra Lia Arith Permutation Sorted.
From Flocq Require Import Core IEEE754.BinarySingleNaN.
From Verif Require Import Num NumFacts ModelBasic ModelRolling ModelDensity ModelPSquare ModelRounding ModelDouble SpecStats SpecPSquare SpecDouble
  ProofBasic ProofRollingBuf ProofPSquare ProofPSquareInst ProofKahan ProofDouble ProofDouble2 ProofDouble3 ProofDouble4 ProofDouble5 ProofDouble6
  ProofDoublePSquare.
Import ListNotations.
Local Open Scope R_scope.
Local Notation at_ l i := (nth i (l : list (car DoubleN)) (zero DoubleN)).

(** *** Bounds of the increments and desired positions *)
Lemma bd_round a b r : (Z.abs a <= 2 ^ 53)%Z -> (Z.abs b <= 2 ^ 53)%Z -> IZR a <= r <= IZR b ->
  IZR a <= b64_round r <= IZR b /\ Rabs (b64_round r) < bpow radix2 1024.
Proof.
  intros A B R. assert (F : forall z, (Z.abs z <= 2 ^ 53)%Z -> b64_format (IZR z)).
  { intros z Hz. rewrite <- (b64_exact_int z) by exact Hz. apply generic_format_round; apply FLT_exp_valid || apply valid_rnd_N; reflexivity. }
  assert (Q : IZR a <= b64_round r <= IZR b) by (apply round_between; auto). split; [exact Q |].
  assert (Ia := int_small a A). assert (Ib := int_small b B). apply Rabs_def2 in Ia. apply Rabs_def2 in Ib. apply Rabs_def1; lra.
Qed.
Lemma whole_desired x z n : Whole x z -> (0 <= z <= n)%Z -> Desired n x.
Proof. intros [F E] H. split; [exact F |]. rewrite E. split; apply IZR_le; lia. Qed.
Lemma desired_le n m x : (n <= m)%Z -> Desired n x -> Desired m x.
Proof. intros H [F B]. split; [exact F |]. apply IZR_le in H. lra. Qed.
Lemma desired_add n m x y : (0 <= n)%Z -> (0 <= m)%Z -> (n + m <= 2 ^ 53)%Z -> Desired n x -> Desired m y -> Desired (n + m) (d_add x y).
Proof.
  intros Hn Hm H [Fx Bx] [Fy By]. destruct (bd_round 0 (n + m) (val x + val y)) as [R1 R2]; [lia | lia | rewrite plus_IZR; lra |].
  destruct (add_ok x y Fx Fy R2) as [F E]. split; [exact F |]. unfold val in *. rewrite E. exact R1.
Qed.
Lemma desired_mul n m x y : (0 <= n)%Z -> (0 <= m)%Z -> (n * m <= 2 ^ 53)%Z -> Desired n x -> Desired m y -> Desired (n * m) (d_mul x y).
Proof.
  intros Hn Hm H [Fx Bx] [Fy By]. destruct (bd_round 0 (n * m) (val x * val y)) as [R1 R2]; [lia | lia | |].
  { rewrite mult_IZR. split; [apply Rmult_le_pos; lra | apply Rmult_le_compat; lra]. }
  destruct (mul_ok x y Fx Fy R2) as [F E]. split; [exact F |]. unfold val in *. rewrite E. exact R1.
Qed.
Lemma desired_div c q x y : (0 < c)%Z -> (0 <= q <= 2 ^ 53)%Z -> Desired (c * q) x -> Whole y c -> Desired q (d_div x y).
Proof.
  intros Hc Hq [Fx Bx] [Fy Ey]. unfold val in *. assert (C : 0 < IZR c) by (apply IZR_lt; exact Hc). rewrite mult_IZR in Bx.
  destruct (bd_round 0 q (B2R x / B2R y)) as [R1 R2]; [lia | lia | |].
  { rewrite Ey. split; [apply Rmult_le_pos; [lra | left; apply Rinv_0_lt_compat; exact C] |].
    apply Rmult_le_reg_r with (IZR c); [exact C |]. unfold Rdiv. rewrite Rmult_assoc, Rinv_l by lra. lra. }
  destruct (div_ok x y) as [F E]; [rewrite Ey; lra | exact Fx | exact R2 |]. split; [exact F |]. unfold val. rewrite E. exact R1.
Qed.
Lemma whole_two : Whole (d_add d_one d_one) 2.
Proof. apply (whole_add d_one d_one 1 1); [exact whole_one | exact whole_one | lia]. Qed.
Lemma whole_three : Whole (d_add (d_add d_one d_one) d_one) 3.
Proof. apply (whole_add _ d_one 2 1); [exact whole_two | exact whole_one | lia]. Qed.
Lemma whole_four : Whole (d_add (d_add d_one d_one) (d_add d_one d_one)) 4.
Proof. apply (whole_add _ _ 2 2); [exact whole_two | exact whole_two | lia]. Qed.
Lemma whole_five : Whole (d_add (d_add (d_add d_one d_one) (d_add d_one d_one)) d_one) 5.
Proof. apply (whole_add _ _ 4 1); [exact whole_four | exact whole_one | lia]. Qed.
Lemma all_desired M n (l : list (car DoubleN)) : length l = M -> Forall (Desired n) l -> AllDesired M n l.
Proof. intros L F i Hi. rewrite Forall_forall in F. apply F, nth_In. rewrite L. exact Hi. Qed.

(** *** Positions are the numbers themselves *)
Lemma whole_unique x n : (1 <= n)%nat -> (Z.of_nat n <= 2 ^ 53)%Z -> Whole x (Z.of_nat n) -> x = ofnat DoubleN n.
Proof.
  intros N1 N2 [F E]. destruct (ofnat_exact n N2) as [F' E']. unfold val in E.
  assert (NZ : INR n <> 0) by (apply not_0_INR; lia). rewrite <- INR_IZR_INZ in E.
  apply B2R_inj; [| | rewrite E', E; reflexivity].
  - clear - E NZ F. destruct x; try reflexivity; try discriminate F; cbn in E; congruence.
  - clear - E' NZ F'. destruct (ofnat DoubleN n); try reflexivity; try discriminate F'; cbn in E'; congruence.
Qed.
Lemma placed_ranks M n (p : list (car DoubleN)) z : (2 <= M)%nat -> (Z.of_nat n <= 2 ^ 53)%Z -> length p = M -> Placed M (Z.of_nat n) p z ->
  MarkerRanks DoubleN M n p.
Proof.
  intros HM Hn L HP. assert (R := fun i => placed_range M _ p z i HP). assert (HP' := HP). destruct HP' as (Z0 & Zn & Zw & Zs).
  exists (map (fun i => Z.to_nat (z i)) (seq 0 M)). split; [| split; [| split; [| split]]].
  - apply (nth_ext _ _ (zero DoubleN) (ofnat DoubleN 0)); [rewrite !map_length, seq_length; exact L |]. rewrite L. intros i Hi.
    rewrite map_nth with (f := ofnat DoubleN).
    rewrite (nth_indep _ 0%nat ((fun i => Z.to_nat (z i)) 0%nat)) by (rewrite map_length, seq_length; exact Hi).
    rewrite map_nth with (f := fun i => Z.to_nat (z i)), seq_nth by exact Hi. cbn [Nat.add]. specialize (R i Hi).
    apply whole_unique; [lia | lia |]. rewrite Z2Nat.id by lia. apply Zw. exact Hi.
  - rewrite map_length, seq_length. reflexivity.
  - assert (G : forall c a, (a + c <= M)%nat -> StronglySorted lt (map (fun i => Z.to_nat (z i)) (seq a c))).
    { induction c as [| c IH]; intros a Ha; cbn [seq map]; constructor; [apply IH; lia |]. apply Forall_forall. intros y Hy.
      apply in_map_iff in Hy. destruct Hy as (j & <- & Hj). apply in_seq in Hj.
      assert (A := Zs a ltac:(lia)). assert (B := placed_le M _ p z (S a) j HP ltac:(lia) ltac:(lia)). assert (C := R a ltac:(lia)). lia. }
    apply G. lia.
  - rewrite map_nth_error with (d := 0%nat); [rewrite Z0; reflexivity |]. destruct M; [lia | reflexivity].
  - rewrite map_nth_error with (d := (M - 1)%nat); [rewrite Zn, Nat2Z.id; reflexivity |].
    rewrite (nth_error_nth0 _ _ 0%nat) by (rewrite seq_length; lia). rewrite seq_nth by lia. reflexivity.
Qed.
Lemma positions_start M i : (i < M)%nat -> (Z.of_nat M <= 2 ^ 53)%Z -> Whole (at_ (map (fun i => add DoubleN (ofnat DoubleN i) (one DoubleN)) (seq 0 M)) i) (Z.of_nat i + 1).
Proof.
  intros Hi HM. set (f := fun i => add DoubleN (ofnat DoubleN i) (one DoubleN)).
  rewrite (nth_indep _ _ (f 0%nat)) by (rewrite map_length, seq_length; exact Hi). rewrite map_nth, seq_nth by exact Hi. cbn [Nat.add]. unfold f.
  apply whole_add; [apply whole_ofnat; lia | exact whole_one | lia].
Qed.
Lemma within_held xs : Within (2 ^ 1000) xs -> Forall (Held 1000) xs.
Proof.
  intros H. eapply Forall_impl; [| exact H]. intros x [F B]. split; [exact F |].
  replace (bpow radix2 1000) with (2 ^ 1000); [exact B |]. rewrite <- IZR_Zpower by lia. rewrite pow_IZR. reflexivity.
Qed.
Lemma rising_ascending (l : list (car DoubleN)) : Rising (length l) l -> Ascending l.
Proof.
  induction l as [| a l IH]; intros R; [exact I |]. destruct l as [| b l]; [exact I |]. split; [exact (R 0%nat ltac:(cbn; lia)) |].
  apply IH. intros i Hi. apply (R (S i)). cbn in *. lia.
Qed.

(** *** p_square_quantile *)
Lemma desired_zero n : (0 <= n)%Z -> Desired n d_zero.
Proof. intros H. apply (whole_desired _ 0); [exact whole_zero | lia]. Qed.
Lemma desired_one n : (1 <= n)%Z -> Desired n d_one.
Proof. intros H. apply (whole_desired _ 1); [exact whole_one | lia]. Qed.
Lemma half_of x : Desired 2 x -> Desired 1 (d_div x (d_add d_one d_one)).
Proof. intros H. apply (desired_div 2 1); [lia | lia | exact H | exact whole_two]. Qed.
Lemma pq_incs_ok p : Desired 1 p -> AllDesired 5 1 (pq_inc DoubleN p).
Proof.
  intros Hp. apply all_desired; [reflexivity |]. unfold pq_inc.
  apply Forall_cons; [apply desired_zero; lia |].
  apply Forall_cons; [apply half_of, (desired_le 1); [lia | exact Hp] |].
  apply Forall_cons; [exact Hp |].
  apply Forall_cons; [apply half_of, (desired_add 1 1); try lia; [apply desired_one; lia | exact Hp] |].
  apply Forall_cons; [apply desired_one; lia | constructor].
Qed.
Lemma pq_desired_ok p : Desired 1 p -> AllDesired 5 5 (md DoubleN (pq_init DoubleN p)).
Proof.
  intros Hp. apply all_desired; [reflexivity |]. cbn [pq_init md].
  assert (H2 := whole_desired _ 2 2 whole_two ltac:(lia)). assert (H4 := whole_desired _ 4 4 whole_four ltac:(lia)).
  apply Forall_cons; [apply desired_one; lia |].
  apply Forall_cons; [apply (desired_le (1 + 2 * 1)); [lia |]; apply desired_add; try lia; [apply desired_one; lia | apply (desired_mul 2 1); try lia; assumption] |].
  apply Forall_cons; [apply (desired_add 1 4); try lia; [apply desired_one; lia | apply (desired_mul 4 1); try lia; assumption] |].
  apply Forall_cons; [apply (desired_add 3 2); try lia; [apply (whole_desired _ 3); [exact whole_three | lia] | apply (desired_mul 2 1); try lia; assumption] |].
  apply Forall_cons; [apply (whole_desired _ 5); [exact whole_five | lia] | constructor].
Qed.
Lemma pq_double p (xs : list (car DoubleN)) : Countable xs -> (5 <= length xs)%nat -> Within (2 ^ 1000) xs -> finite p -> 0 <= val p <= 1 ->
  exists s r lo hi, pq_run DoubleN p xs = Ok s /\ pq_result DoubleN s = Ok r /\
    finite r /\ Spans xs lo hi /\ val lo <= val r <= val hi /\ MarkerRanks DoubleN 5 (length xs) (mp DoubleN (ps_marks DoubleN s)).
Proof.
  intros HC HL HW Fp Bp. assert (Hp : Desired 1 p) by (split; assumption).
  destruct (run_ready 1000 ltac:(lia) ltac:(lia) 5 ltac:(lia) (pq_inc DoubleN p) eq_refl (pq_incs_ok p Hp) (pq_init DoubleN p) eq_refl eq_refl eq_refl)
    with (xs := xs) as (s & E & C & I); [intros i Hi; apply (positions_start 5); [exact Hi | lia] | apply pq_desired_ok; exact Hp | apply within_held; exact HW | exact HC | exact HL |].
  destruct I as (Lh & Lp & Ld & Hh & Ho & (z & Hz) & Hd & HS).
  exists s, (at_ (mh DoubleN (ps_marks DoubleN s)) 2), (at_ (mh DoubleN (ps_marks DoubleN s)) 0), (at_ (mh DoubleN (ps_marks DoubleN s)) 4).
  split; [exact E |]. split; [unfold pq_result; rewrite (nth_error_nth0 _ 2 (zero DoubleN)) by (rewrite Lh; lia); reflexivity |].
  split; [apply Hh; lia |]. split; [exact HS |]. split; [split; apply (rising_le 5); try assumption; lia |].
  apply (placed_ranks 5 _ _ z); [lia | exact HC | exact Lp | exact Hz].
Qed.

(** *** p_square_cumulative_distribution *)
Lemma cd_incs_ok b : (1 <= b)%nat -> (Z.of_nat b <= 2 ^ 53)%Z -> AllDesired (b + 1) 1 (cd_inc DoubleN b).
Proof.
  intros B1 B2. apply all_desired; [unfold cd_inc; rewrite map_length, seq_length; reflexivity |].
  apply Forall_forall. intros x Hx. apply in_map_iff in Hx. destruct Hx as (i & <- & Hi). apply in_seq in Hi.
  apply (desired_div (Z.of_nat b) 1); [lia | lia | | apply whole_ofnat; lia].
  apply (whole_desired _ (Z.of_nat i)); [apply whole_ofnat; lia | lia].
Qed.
Lemma cd_desired_ok b : (Z.of_nat (b + 1) <= 2 ^ 53)%Z -> AllDesired (b + 1) (Z.of_nat (b + 1)) (md DoubleN (cd_init DoubleN b)).
Proof.
  intros B2 i Hi. apply (whole_desired _ (Z.of_nat i + 1)); [apply positions_start; [exact Hi | exact B2] | lia].
Qed.
Lemma quotient_ok x z n : (1 <= z <= Z.of_nat n)%Z -> (Z.of_nat n <= 2 ^ 53)%Z -> Whole x z ->
  finite (d_div x (ofnat DoubleN n)) /\ val (d_div x (ofnat DoubleN n)) = b64_round (IZR z / INR n).
Proof.
  intros Hz Hn [Fx Ex]. destruct (ofnat_exact n Hn) as [Fn En]. unfold val in *. assert (P : 1 <= INR n) by (apply (le_INR 1); lia).
  assert (Q : 0 <= IZR z / INR n <= 1).
  { assert (0 <= IZR z <= INR n) by (rewrite INR_IZR_INZ; split; apply IZR_le; lia). unfold Rdiv.
    split; [apply Rmult_le_pos; [lra | left; apply Rinv_0_lt_compat; lra] |]. apply Rmult_le_reg_r with (INR n); [lra |]. rewrite Rmult_assoc, Rinv_l by lra. lra. }
  destruct (div_ok x (ofnat DoubleN n)) as [F E]; [rewrite En; lra | exact Fx | |].
  { rewrite Ex, En. apply (bd_round 0 1); [lia | lia | exact Q]. }
  split; [exact F |]. rewrite E, Ex, En. reflexivity.
Qed.
Lemma one_unique x : finite x -> val x = 1 -> x = d_one.
Proof.
  intros F E. unfold val in E. apply B2R_inj; [| reflexivity | rewrite E, one_value; reflexivity].
  clear - E F. destruct x; try reflexivity; try discriminate F; cbn in E; lra.
Qed.
Lemma cd_double b (xs : list (car DoubleN)) : Countable xs -> (1 <= b)%nat -> (b < length xs)%nat -> Within (2 ^ 1000) xs ->
  exists s lo hi, cd_run DoubleN b xs = Ok s /\ Spans xs lo hi /\ length (cd_pairs DoubleN s) = (b + 1)%nat /\
    nth_error (cd_pairs DoubleN s) 0 = Some (lo, d_div d_one (ofnat DoubleN (length xs))) /\ nth_error (cd_pairs DoubleN s) b = Some (hi, d_one) /\
    Ascending (map fst (cd_pairs DoubleN s)) /\ Ascending (map snd (cd_pairs DoubleN s)) /\
    Forall (fun c => finite (fst c) /\ finite (snd c)) (cd_pairs DoubleN s) /\
    MarkerRanks DoubleN (b + 1) (length xs) (mp DoubleN (ps_marks DoubleN s)).
Proof.
  intros HC B1 HL HW. unfold Countable in HC.
  destruct (run_ready 1000 ltac:(lia) ltac:(lia) (b + 1) ltac:(lia) (cd_inc DoubleN b)) with (m0 := cd_init DoubleN b) (xs := xs) as (s & E & C & I);
    [unfold cd_inc; rewrite map_length, seq_length; reflexivity | apply cd_incs_ok; [exact B1 | lia] | apply repeat_length
    | cbn [cd_init mp]; rewrite map_length, seq_length; reflexivity | cbn [cd_init md]; rewrite map_length, seq_length; reflexivity
    | intros i Hi; apply positions_start; [exact Hi | lia] | apply cd_desired_ok; lia | apply within_held; exact HW | exact HC
    | cut (b + 1 <= length xs)%nat; [exact (fun h => h) | lia] |].
  destruct I as (Lh & Lp & Ld & Hh & Ho & (z & Hz) & Hd & HS).
  set (h := mh DoubleN (ps_marks DoubleN s)) in *. set (p := mp DoubleN (ps_marks DoubleN s)) in *.
  set (f := fun hp : car DoubleN * car DoubleN => (fst hp, div DoubleN (snd hp) (ofnat DoubleN (ps_count DoubleN s)))).
  assert (EP : cd_pairs DoubleN s = map f (combine h p)) by reflexivity.
  assert (LC : length (combine h p) = (b + 1)%nat) by (rewrite combine_length; lia).
  assert (NE : forall i, (i < b + 1)%nat -> nth_error (cd_pairs DoubleN s) i = Some (at_ h i, d_div (at_ p i) (ofnat DoubleN (length xs)))).
  { intros i Hi. rewrite EP. rewrite map_nth_error with (d := (at_ h i, at_ p i)).
    - unfold f. cbn [fst snd]. rewrite C. reflexivity.
    - rewrite (nth_error_nth0 _ i (zero DoubleN, zero DoubleN)) by (rewrite LC; exact Hi). rewrite combine_nth by lia. reflexivity. }
  assert (LP : length (cd_pairs DoubleN s) = (b + 1)%nat) by (rewrite EP, map_length; exact LC).
  assert (QV := fun i Hi => quotient_ok (at_ p i) (z i) (length xs) (placed_range _ _ _ _ i Hz Hi) HC (proj1 (proj2 (proj2 Hz)) i Hi)).
  assert (EF : map fst (cd_pairs DoubleN s) = h).
  { apply (nth_ext _ _ (zero DoubleN) (zero DoubleN)); [rewrite map_length, LP, Lh; reflexivity |]. rewrite map_length, LP. intros i Hi.
    specialize (NE i Hi). apply (map_nth_error fst) in NE. rewrite (nth_error_nth _ _ _ NE). reflexivity. }
  assert (ES : forall i, (i < b + 1)%nat -> at_ (map snd (cd_pairs DoubleN s)) i = d_div (at_ p i) (ofnat DoubleN (length xs))).
  { intros i Hi. specialize (NE i Hi). apply (map_nth_error snd) in NE. apply (nth_error_nth _ _ _ NE). }
  exists s, (at_ h 0), (at_ h b). split; [exact E |]. split; [replace (b + 1 - 1)%nat with b in HS by lia; exact HS |]. split; [exact LP |].
  split; [| split; [| split; [| split; [| split]]]].
  - rewrite NE by lia. do 2 f_equal. replace (at_ p 0) with d_one; [reflexivity |].
    destruct Hz as (Z0 & _ & Zw & _). destruct (Zw 0%nat ltac:(lia)) as [F V]. symmetry. apply one_unique; [exact F |]. rewrite V, Z0. reflexivity.
  - rewrite NE by lia. do 2 f_equal. apply one_unique; [apply QV; lia |]. rewrite (proj2 (QV b ltac:(lia))).
    destruct Hz as (_ & Zn & _ & _). replace (b + 1 - 1)%nat with b in Zn by lia. rewrite Zn, <- INR_IZR_INZ.
    assert (P : 0 < INR (length xs)) by (apply lt_0_INR; lia). replace (INR (length xs) / INR (length xs)) with 1 by (field; lra). apply (b64_exact_int 1). lia.
  - rewrite EF. apply rising_ascending. rewrite Lh. exact Ho.
  - apply rising_ascending. rewrite map_length, LP. intros i Hi. rewrite !ES by lia. rewrite (proj2 (QV i ltac:(lia))), (proj2 (QV (S i) ltac:(lia))).
    apply round_le. unfold Rdiv. apply Rmult_le_compat_r; [left; apply Rinv_0_lt_compat, lt_0_INR; lia |]. apply IZR_le.
    destruct Hz as (_ & _ & _ & Zs). specialize (Zs i Hi). lia.
  - apply Forall_forall. intros c Hc. apply In_nth_error in Hc. destruct Hc as [i Hi].
    assert (Li : (i < b + 1)%nat) by (rewrite <- LP; apply nth_error_Some; intros X; assert (Y := eq_trans (eq_sym Hi) X); discriminate Y).
    assert (Hi' := eq_trans (eq_sym Hi) (NE i Li)). injection Hi' as ->. split; [apply Hh; exact Li | apply QV; exact Li].
  - apply (placed_ranks _ _ _ z); [lia | exact HC | exact Lp | exact Hz].
Qed.

(** *** extended_p_square *)
Lemma half_value : Whole (d_add d_one d_one) 2 -> finite (half DoubleN) /\ val (half DoubleN) = / 2.
Proof.
  intros [F2 E2]. assert (B : Rabs (b64_round (1 / 2)) < bpow radix2 1024) by (apply (bd_round 0 1); [lia | lia | lra]).
  unfold val in *. destruct (div_ok d_one (d_add d_one d_one)) as [F E]; [rewrite E2; lra | exact one_finite | rewrite one_value, E2; exact B |].
  split; [exact F |]. unfold half. change (div DoubleN (one DoubleN) (add DoubleN (one DoubleN) (one DoubleN))) with (d_div d_one (d_add d_one d_one)).
  rewrite E, one_value, E2. replace (1 / 2) with (bpow radix2 (-1)) by (cbn; lra). rewrite round_format by (apply bpow_format; lia). cbn. lra.
Qed.
Lemma half_mul x : Desired 2 x -> Desired 1 (d_mul (half DoubleN) x).
Proof.
  intros [Fx Bx]. destruct (half_value whole_two) as [Fh Eh]. unfold val in *.
  destruct (bd_round 0 1 (B2R (half DoubleN) * B2R x)) as [R1 R2]; [lia | lia | rewrite Eh; lra |].
  destruct (mul_ok (half DoubleN) x Fh Fx R2) as [F E]. split; [exact F |]. unfold val. rewrite E. exact R1.
Qed.
Lemma ext_inc_desired (l : list (car DoubleN)) : Forall (Desired 1) l -> Forall (Desired 1) (ext_inc DoubleN l).
Proof.
  induction l as [| a l IH]; intros F; [constructor |]. inversion F as [| ? ? Fa Fl]; subst. destruct l as [| b l]; [exact F |].
  change (ext_inc DoubleN (a :: b :: l)) with (a :: d_mul (half DoubleN) (d_add a b) :: ext_inc DoubleN (b :: l)).
  constructor; [exact Fa |]. constructor; [| apply IH; exact Fl]. inversion Fl as [| ? ? Fb _]; subst. apply half_mul, (desired_add 1 1); try lia; assumption.
Qed.
Lemma ext_incs_desired (probs : list (car DoubleN)) : Forall (Desired 1) probs -> Forall (Desired 1) (ext_incs DoubleN probs).
Proof.
  intros H. apply ext_inc_desired. constructor; [apply desired_zero; lia |]. apply Forall_app. split; [exact H |]. constructor; [apply desired_one; lia | constructor].
Qed.
Lemma ext_desired_ok (probs : list (car DoubleN)) : Forall (Desired 1) probs -> (Z.of_nat (ext_markers DoubleN probs) <= 2 ^ 53)%Z ->
  AllDesired (ext_markers DoubleN probs) (Z.of_nat (ext_markers DoubleN probs)) (md DoubleN (ext_init DoubleN probs)).
Proof.
  intros H HN. apply all_desired; [cbn [ext_init md]; rewrite map_length; apply ext_incs_length |]. cbn [ext_init md].
  apply Forall_forall. intros x Hx. apply in_map_iff in Hx. destruct Hx as (f & <- & Hf).
  assert (Df : Desired 1 f) by (assert (Q := ext_incs_desired probs H); rewrite Forall_forall in Q; apply Q; exact Hf).
  unfold ext_markers in *. set (m := length probs) in *.
  replace (Z.of_nat (2 * m + 3)) with (1 + (2 * (Z.of_nat m + 1)) * 1)%Z by lia.
  apply desired_add; try lia; [apply desired_one; lia |]. apply desired_mul; try lia; [| exact Df].
  apply desired_mul; try lia; [apply (whole_desired _ 2); [exact whole_two | lia] |].
  apply desired_add; try lia; [apply (whole_desired _ (Z.of_nat m)); [apply whole_ofnat; lia | lia] | apply desired_one; lia].
Qed.
Lemma ext_positions M i : (i < M)%nat -> (Z.of_nat M <= 2 ^ 53)%Z -> Whole (at_ (map (fun i => ofnat DoubleN (i + 1)) (seq 0 M)) i) (Z.of_nat i + 1).
Proof.
  intros Hi HM. rewrite (nth_indep _ _ ((fun i => ofnat DoubleN (i + 1)) 0%nat)) by (rewrite map_length, seq_length; exact Hi).
  rewrite map_nth with (f := fun i => ofnat DoubleN (i + 1)), seq_nth by exact Hi. cbn [Nat.add].
  replace (Z.of_nat i + 1)%Z with (Z.of_nat (i + 1)) by lia. apply whole_ofnat. lia.
Qed.
Lemma ext_double (probs xs : list (car DoubleN)) : Countable xs -> (2 * length probs + 3 <= length xs)%nat -> Within (2 ^ 1000) xs ->
  Forall (fun p => finite p /\ 0 <= val p <= 1) probs ->
  exists s rs lo hi, ext_run DoubleN probs xs = Ok s /\ ext_result DoubleN probs s = Ok rs /\ length rs = length probs /\
    Spans xs lo hi /\ Ascending rs /\ Forall (fun r => finite r /\ val lo <= val r <= val hi) rs /\
    MarkerRanks DoubleN (2 * length probs + 3) (length xs) (mp DoubleN (ps_marks DoubleN s)).
Proof.
  intros HC HL HW Hp. unfold Countable in HC. set (M := ext_markers DoubleN probs). assert (EM : M = (2 * length probs + 3)%nat) by reflexivity.
  destruct (run_ready 1000 ltac:(lia) ltac:(lia) M ltac:(lia) (ext_incs DoubleN probs)) with (m0 := ext_init DoubleN probs) (xs := xs) as (s & E & C & I);
    [apply ext_incs_length | apply all_desired; [apply ext_incs_length | apply ext_incs_desired; exact Hp] | apply repeat_length
    | cbn [ext_init mp]; rewrite map_length, seq_length; reflexivity | cbn [ext_init md]; rewrite map_length; apply ext_incs_length
    | intros i Hi; apply ext_positions; [exact Hi | unfold ext_markers; lia] | apply ext_desired_ok; [exact Hp | unfold ext_markers; lia] | apply within_held; exact HW | exact HC | exact HL |].
  destruct I as (Lh & Lp & Ld & Hh & Ho & (z & Hz) & Hd & HS).
  set (h := mh DoubleN (ps_marks DoubleN s)) in *.
  set (rs := map (fun i => at_ h (2 * i)) (seq 1 (length probs))).
  assert (AR : forall i, (i < length probs)%nat -> at_ rs i = at_ h (2 * i + 2)).
  { intros i Hi. unfold rs. rewrite (nth_indep _ _ ((fun i => at_ h (2 * i)) 0%nat)) by (rewrite map_length, seq_length; exact Hi).
    rewrite map_nth with (f := fun i => at_ h (2 * i)), seq_nth by exact Hi. f_equal. lia. }
  assert (LR : length rs = length probs) by (unfold rs; rewrite map_length, seq_length; reflexivity).
  exists s, rs, (at_ h 0), (at_ h (M - 1)). split; [exact E |]. split; [| split; [exact LR |]; split; [exact HS |]; split; [| split]].
  - unfold ext_result. fold h. unfold rs. rewrite <- all_read_some. f_equal. rewrite map_map. apply map_ext_in. intros i Hi. apply in_seq in Hi. apply nth_error_nth0. rewrite Lh, EM. lia.
  - apply rising_ascending. rewrite LR. intros i Hi. rewrite !AR by lia. apply (rising_le M); [exact Ho | lia | lia].
  - apply Forall_forall. intros r Hr. unfold rs in Hr. apply in_map_iff in Hr. destruct Hr as (i & <- & Hi). apply in_seq in Hi.
    split; [apply Hh; lia |]. split; apply (rising_le M); try exact Ho; lia.
  - rewrite <- EM. apply (placed_ranks _ _ _ z); [lia | exact HC | exact Lp | exact Hz].
Qed.
