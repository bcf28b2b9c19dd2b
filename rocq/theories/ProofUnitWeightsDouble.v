(** Weights of one: doubles. *)
From Coq Require Import ZArith List Lia Reals Lra Bool Permutation.
From Flocq Require Import Core IEEE754.BinarySingleNaN.
From Verif Require Import Num ModelBasic ModelTail ModelDensity ModelDouble ModelDoubleTail SpecStats SpecTail SpecDouble SpecDoubleTail SpecUnitWeights ProofTailTop ProofDoubleEx ProofKahan ProofDouble ProofTail ProofDoubleTail ProofDoubleWTail ProofDoubleWVariance3 ProofUnitWeights.
Import ListNotations.
Local Open Scope R_scope.

Lemma d_one_r (x : double) : d_mul x d_one = x.
Proof.
  destruct (is_finite x) eqn:F.
  - assert (M := Bmult_correct 53 1024 prec_pos prec_max mode_NE x d_one). rewrite one_value, Rmult_1_r in M.
    cbn [round_mode] in M. rewrite round_generic in M; [| apply valid_rnd_N | apply generic_format_B2R].
    rewrite Rlt_bool_true in M by apply abs_B2R_lt_emax. destruct M as (E & Fm & S).
    apply B2R_Bsign_inj; [unfold d_mul; rewrite Fm, F; reflexivity | exact F | exact E |].
    assert (NN : is_nan (Bmult mode_NE x d_one) = false) by (rewrite F in Fm; destruct (Bmult mode_NE x d_one); try discriminate Fm; reflexivity).
    unfold d_mul. rewrite (S NN). change (Bsign d_one) with false. apply xorb_false_r.
  - destruct x; try discriminate F; [| reflexivity]. destruct s; reflexivity.
Qed.
Lemma d_one_l (x : double) : d_mul d_one x = x.
Proof. rewrite d_mul_comm. apply d_one_r. Qed.
Lemma ofnat_before n : (Z.of_nat (S n) <= 2 ^ 53)%Z -> d_sub (ofnat DoubleN (S n)) d_one = ofnat DoubleN n.
Proof.
  intros L. destruct (ofnat_exact (S n) L) as [F1 E1]. destruct (ofnat_exact n ltac:(lia)) as [F0 E0].
  assert (V : b64_round (B2R (ofnat DoubleN (S n)) - B2R d_one) = INR n).
  { rewrite E1, one_value, S_INR. replace (INR n + 1 - 1) with (INR n) by lra. rewrite INR_IZR_INZ. apply b64_exact_int. lia. }
  assert (B : Rabs (INR n) < bpow radix2 1024).
  { rewrite Rabs_pos_eq by apply pos_INR. apply Rle_lt_trans with (IZR (2 ^ 53)); [rewrite INR_IZR_INZ; apply IZR_le; lia |].
    change (IZR (2 ^ 53)) with (bpow radix2 53). apply bpow_lt. reflexivity. }
  destruct (sub_ok (ofnat DoubleN (S n)) d_one F1 one_finite) as [F E]; [rewrite V; exact B |]. rewrite V in E.
  assert (P := Bminus_correct 53 1024 prec_pos prec_max mode_NE (ofnat DoubleN (S n)) d_one F1 one_finite).
  apply B2R_Bsign_inj; [exact F | exact F0 | rewrite E, E0; reflexivity |].
  assert (SG : forall x : double, is_finite x = true -> 0 < B2R x -> Bsign x = false).
  { intros x Fx Px. destruct x as [s| | |s m e Hm]; try discriminate Fx; [cbn in Px; lra |]. destruct s; [| reflexivity]. exfalso.
    assert (B2R (B754_finite true m e Hm : double) < 0) by (cbn; apply F2R_lt_0; reflexivity). lra. }
  destruct n as [|n]; [reflexivity |].
  assert (0 < INR (S n)) by (apply lt_0_INR; lia). rewrite !SG; [reflexivity | | | |]; try assumption; rewrite ?E, ?E0; assumption.
Qed.
Lemma before53 : forall n, (S n <= Z.to_nat (2 ^ 53))%nat -> d_sub (ofnat DoubleN (S n)) d_one = ofnat DoubleN n.
Proof. intros n L. apply ofnat_before. lia. Qed.
Lemma countable_bound {A} (xs : list A) : Countable xs -> (length xs <= Z.to_nat (2 ^ 53))%nat.
Proof. unfold Countable. lia. Qed.

Lemma thresholds lr n p m : Probability p -> (1 <= n)%nat -> (Z.of_nat n <= 2 ^ 53)%Z -> (m <= n)%nat ->
  ltb DoubleN (ofnat DoubleN m) (d_mul (ofnat DoubleN n) (tail_level DoubleN lr p)) = Nat.ltb m (d_rank lr n p).
Proof.
  intros HP Hn Hn53 Hm. destruct (rank_value lr n p HP Hn Hn53) as [Y R]. destruct (share_spec lr p HP) as (Fq & [Q0 Q1] & _).
  destruct (ofnat_exact n Hn53) as [Fn En]. destruct (ofnat_exact m ltac:(lia)) as [Fm Em]. set (y := b64_round _) in *.
  destruct (mul_ok (ofnat DoubleN n) (share lr p) Fn Fq) as [Ft Et].
  { rewrite En. fold (val (share lr p)). fold y. rewrite Rabs_pos_eq by lra. apply Rle_lt_trans with (INR n); [lra |].
    apply Rle_lt_trans with (IZR (2 ^ 53)); [rewrite INR_IZR_INZ; apply IZR_le; lia |]. change (IZR (2 ^ 53)) with (bpow radix2 53). apply bpow_lt. reflexivity. }
  rewrite En in Et. fold (val (share lr p)) in Et. fold y in Et. change (tail_level DoubleN lr p) with (share lr p).
  destruct (Nat.ltb_spec m (d_rank lr n p)) as [L|L].
  - apply (proj2 (lt_true _ _ Fm Ft)). rewrite Em, Et. apply Rle_lt_trans with (INR (d_rank lr n p) - 1); [| lra].
    apply le_INR in L. rewrite S_INR in L. lra.
  - apply (proj2 (lt_false _ _ Fm Ft)). rewrite Em, Et. apply le_INR in L. lra.
Qed.

(** ** The theorems *)
Lemma double_units_sums (xs : list double) :
  wmean_set_mean DoubleN (wmean_set_run DoubleN d_zero d_zero (unit_weights DoubleN xs)) = mean_set_mean DoubleN (mean_set_run DoubleN d_zero xs) /\
  weighted_kahan_run DoubleN d_zero (unit_weights DoubleN xs) = kahan_run DoubleN d_zero xs /\
  (forall n, weighted_moment_run DoubleN n d_zero (unit_weights DoubleN xs) = moment_run DoubleN n d_zero xs) /\
  lazy_weighted_variance_run DoubleN d_zero (unit_weights DoubleN xs) = lazy_variance_run DoubleN d_zero xs /\
  (forall sqrt, weighted_skewness_run DoubleN sqrt d_zero (unit_weights DoubleN xs) = skewness_run DoubleN sqrt d_zero xs) /\
  weighted_kurtosis_run DoubleN d_zero (unit_weights DoubleN xs) = kurtosis_run DoubleN d_zero xs.
Proof.
  split; [exact (unit_mean DoubleN d_one_r d_zero xs) |]. split; [exact (unit_kahan DoubleN d_one_r d_zero xs) |].
  split; [exact (fun n => unit_moment DoubleN d_one_r d_one_l n d_zero xs) |]. split; [exact (unit_lazy_variance DoubleN d_one_r d_one_l d_zero xs) |].
  split; [exact (fun sqrt => unit_skewness DoubleN d_one_r d_one_l sqrt d_zero xs) | exact (unit_kurtosis DoubleN d_one_r d_one_l d_zero xs)].
Qed.
Lemma double_units_immediate (xs : list double) : Countable xs ->
  let s := wvar_set_run DoubleN d_zero d_zero (unit_weights DoubleN xs) in
  wv_mean DoubleN s = im_mean DoubleN (imean_set_run DoubleN d_zero xs) /\ wv_var DoubleN s = vs_var DoubleN (var_set_run DoubleN d_zero xs).
Proof.
  intros L s. destruct (unit_wvar_set DoubleN d_one_r _ before53 d_zero xs (countable_bound xs L)) as [E _]. unfold s. rewrite (proj1 (imean_is DoubleN d_zero xs)).
  split; [exact (f_equal (wv_mean DoubleN) E) | exact (f_equal (wv_var DoubleN) E)].
Qed.
Lemma double_units_covariance (h : list (double * double)) : Countable h ->
  wc_cov DoubleN (wcov_set_run DoubleN d_zero d_zero d_zero (unit_weights DoubleN h)) = cs_cov DoubleN (cov_set_run DoubleN d_zero d_zero h).
Proof.
  intros L. destruct (unit_wcov_set DoubleN d_one_r _ before53 d_zero d_zero h (countable_bound h L)) as [E _]. exact (f_equal (wc_cov DoubleN) E).
Qed.
Lemma alike_le {A B} (R R' : A -> B -> Prop) o o' : (forall a b, R a b -> R' a b) -> alike R o o' -> alike R' o o'.
Proof. intros H. destruct o, o'; cbn; auto. Qed.
Lemma double_units_histogram (lo hi : double) (c b : nat) (s0 : double) :
  (forall ops, alike (fun s s' => weighted_density_result DoubleN s' = density_result DoubleN s)
     (density_run DoubleN lo hi c b s0 ops) (weighted_density_run DoubleN lo hi c b s0 (map (unit_op DoubleN) ops))) /\
  (forall ops, alike (fun s s' => snd s' = snd s)
     (density_median_run DoubleN lo hi c b s0 ops) (weighted_density_median_run DoubleN lo hi c b s0 (map (unit_mop DoubleN) ops))).
Proof.
  split; intros ops.
  - eapply alike_le; [| exact (unit_density DoubleN lo hi c b s0 ops)]. intros s s' P. exact (paired_result DoubleN c s s' P).
  - eapply alike_le; [| exact (unit_density_median DoubleN lo hi c b s0 ops)]. intros s s' (_ & _ & E). symmetry. exact E.
Qed.
Lemma pushes_units (ops : list (tail_op double double)) : forall xs, pushes ops = map (fun x => (x, [])) xs ->
  map bare (map (unit_top DoubleN) ops) = ops /\ pushes (map (unit_top DoubleN) ops) = map (fun e => (fst e, [snd e])) (unit_weights DoubleN xs).
Proof.
  induction ops as [|[x vs|] ops IH]; intros xs E.
  - destruct xs; [split; reflexivity | discriminate E].
  - destruct xs as [|y xs]; [discriminate E |]. cbn in E. injection E as -> -> E. destruct (IH xs E) as [I1 I2]. cbn. split; [f_equal; exact I1 | f_equal; exact I2].
  - destruct (IH xs E) as [I1 I2]. cbn. split; [f_equal; exact I1 | exact I2].
Qed.
Lemma unit_snd {A} (es : list (A * double)) : (forall e, In e es -> snd e = d_one) -> map snd es = repeat d_one (length (map fst es)).
Proof. induction es as [|e es IH]; intros U; [reflexivity |]. cbn. rewrite (U e (or_introl eq_refl)). f_equal. apply IH. intros f F. apply U. right. exact F. Qed.
Lemma double_units_tail (H : HeapOps) : HeapContract H ->
  forall (lr : side) (k : nat) (dA dV : double) (ops : list (tail_op double double)) (xs : list double),
  (0 < k)%nat -> pushes ops = map (fun x => (x, [])) xs -> ~ nan dA -> Numbers xs -> xs <> [] -> Countable xs ->
  exists s s' tl, let ws := repeat d_one (length tl) in
    tail_run H (tail_pred DoubleN lr) (tail_init k 0 dA dV) ops = Ok s /\ tail_result H (tail_pred DoubleN lr) s = Ok tl /\
    tail_run H (tail_pred DoubleN lr) (tail_init k 1 dA dV) (map (unit_top DoubleN) ops) = Ok s' /\ tail_result H (tail_pred DoubleN lr) s' = Ok tl /\
    tail_variate_result H (tail_pred DoubleN lr) s' 0 = Ok ws /\
  forall p, Probability p -> let n := length xs in let W := wm_W DoubleN (wmean_set_run DoubleN d_zero d_zero (unit_weights DoubleN xs)) in
    non_coherent_weighted_tail_mean_result DoubleN lr W tl ws p = non_coherent_tail_mean_result DoubleN d_ceil lr n tl p /\
    (d_rank lr n p <> length tl -> weighted_tail_quantile_result DoubleN lr W tl ws p = tail_quantile_result DoubleN d_ceil lr n tl p) /\
    (d_rank lr n p = length tl -> tail_quantile_result DoubleN d_ceil lr n tl p = NotANumber /\
       exists v, nth_error tl (length tl - 1) = Some v /\ weighted_tail_quantile_result DoubleN lr W tl ws p = Ok v).
Proof.
  intros HC lr k dA dV ops xs Hk HE Hd HN Ne L. destruct (pushes_units ops xs HE) as [B P].
  assert (HN' : Numbers (map fst (unit_weights DoubleN xs))) by (unfold unit_weights; rewrite map_map, map_id; exact HN).
  destruct (double_entries H HC lr k dA dV (map (unit_top DoubleN) ops) (unit_weights DoubleN xs) Hk P Hd HN') as (s' & es & E1 & E2 & E3 & HT).
  assert (R : alike same_tail (tail_run H (tail_pred DoubleN lr) (tail_init (A := double) (V := double) k 1 dA dV) (map (unit_top DoubleN) ops))
    (tail_run H (tail_pred DoubleN lr) (tail_init (A := double) (V := double) k 0 dA dV) ops)).
  { assert (R := same_tail_run H (tail_pred DoubleN lr) (map (unit_top DoubleN) ops) (Ok (tail_init k 1 dA dV)) (Ok (tail_init k 0 dA dV)) ltac:(repeat split)).
    rewrite B in R. exact R. }
  assert (E1' := E1). revert R. rewrite E1. destruct (tail_run H (tail_pred DoubleN lr) (tail_init k 0 dA dV) ops) as [s| |] eqn:Es; intros R; try contradiction R.
  destruct HT as (HL & _ & rest & HPm & _).
  assert (U : forall e, In e es -> snd e = d_one).
  { intros e He. assert (I : In e (unit_weights DoubleN xs)) by (eapply Permutation_in; [symmetry; exact HPm | apply in_or_app; left; exact He]).
    unfold unit_weights in I. apply in_map_iff in I. destruct I as (x & <- & _). reflexivity. }
  rewrite (unit_snd es U) in E3. exists s, s', (map fst es). cbv zeta.
  split; [reflexivity |]. split; [rewrite <- (same_tail_result H _ _ _ R); exact E2 |]. split; [reflexivity |]. split; [exact E2 |]. split; [exact E3 |].
  intros p HP. assert (EW : wm_W DoubleN (wmean_set_run DoubleN d_zero d_zero (unit_weights DoubleN xs)) = ofnat DoubleN (length xs)) by exact (f_equal (wm_W DoubleN) (unit_wmean_set DoubleN d_one_r d_zero xs)).
  rewrite EW. clear EW.
  assert (LL : length (map fst es) = Nat.min k (length xs)) by (transitivity (length es); [apply map_length |]; transitivity (Nat.min k (length (unit_weights DoubleN xs))); [exact HL |]; f_equal; apply map_length).
  assert (L1 : (1 <= length xs)%nat) by (destruct xs; [congruence | cbn; lia]).
  assert (HTh : forall m, (m <= length (map fst es))%nat -> ltb DoubleN (ofnat DoubleN m) (mul DoubleN (ofnat DoubleN (length xs)) (tail_level DoubleN lr p)) = Nat.ltb m (tail_n DoubleN d_ceil lr (length xs) p)).
  { intros m Hm. apply (thresholds lr (length xs) p m HP L1 L). lia. }
  destruct (unit_tail DoubleN d_one_r d_ceil lr (length xs) (map fst es) p HTh) as (Q1 & Q2 & Q3).
  split; [exact Q1 |]. split; [exact Q2 |]. intros E. apply Q3; [exact E |]. intros Z. rewrite Z in LL. cbn in LL. lia.
Qed.

(** ** Examples *)
Definition odd_ones : list double := [dbl 1 0; dbl 3 (-1); dbl (-7) 3; d_div (dbl 1 0) (dbl 3 0)]%Z.
Lemma odd_ones_ok : Countable odd_ones /\ odd_ones <> [] /\ Numbers odd_ones.
Proof. split; [vm_compute; discriminate |]. split; [discriminate |]. repeat constructor; intros N; vm_compute in N; discriminate N. Qed.

(** Seven samples and a cache of three. *)
Definition seven : list double := map (fun z => dbl z 0) [5;2;7;1;3;6;4]%Z.
Definition bare_pushes (xs : list double) : list (tail_op double double) := map (fun x => TPush x []) xs.
Definition quantile_of (lr : side) (k : nat) (xs : list double) (p : double) : outcome (option (Z * Z)) :=
  match tail_run sorting_heap (tail_pred DoubleN lr) (tail_init k 0 d_zero d_zero) (bare_pushes xs) with
  | Ok s => match tail_result sorting_heap (tail_pred DoubleN lr) s with
            | Ok t => match tail_quantile_result DoubleN d_ceil lr (length xs) t p with Ok v => Ok (shown_double v) | NotANumber => NotANumber | UB => UB end
            | _ => UB end
  | _ => UB end.
Definition third_d := dbl 5 (-4).
Lemma third_prob : Probability third_d.
Proof.
  destruct (shown_value third_d 5629499534213120 (-54) ltac:(vm_compute; reflexivity)) as [F E]. split; [exact F |]. rewrite E. change (bpow radix2 (-54)) with (/ 18014398509481984). lra.
Qed.
Lemma seven_ok : (0 < 3)%nat /\ pushes (bare_pushes seven) = map (fun x => (x, [])) seven /\ ~ nan d_zero /\ Numbers seven /\ seven <> [] /\ Countable seven /\
  Probability (dbl 1 (-3)) /\ quantile_of Left 3 seven (dbl 1 (-3)) = Ok (Some (4503599627370496, -52)%Z).
Proof.
  split; [lia |]. split; [reflexivity |]. split; [discriminate |]. split; [repeat constructor; intros N; vm_compute in N; discriminate N |]. split; [discriminate |]. split; [vm_compute; discriminate |].
  split; [| vm_compute; reflexivity].
  destruct (shown_value (dbl 1 (-3)) 4503599627370496 (-55) ltac:(vm_compute; reflexivity)) as [F E]. split; [exact F |]. rewrite E. change (bpow radix2 (-55)) with (/ 36028797018963968). lra.
Qed.
Lemma seven_differs : Probability third_d /\ quantile_of Left 3 seven third_d = NotANumber /\
  wquantile Left 3 (unit_weights DoubleN seven) third_d = Ok (Some (6755399441055744, -51)%Z).
Proof. split; [exact third_prob |]. split; vm_compute; reflexivity. Qed.
