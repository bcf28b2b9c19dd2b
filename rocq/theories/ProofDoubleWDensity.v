(** The weighted histogram of doubles. *)
From Coq Require Import ZArith List Bool Reals Lra Lia Arith Psatz.
From Flocq Require Import Core IEEE754.BinarySingleNaN.
From Verif Require Import Num NumFacts ModelBasic ModelMinMax ModelDensity ModelDouble SpecStats SpecDensity SpecDouble SpecDoubleDensity SpecDoubleVariance SpecDoubleWeighted
  ProofBasic ProofKahan ProofDouble ProofDouble2 ProofDouble4 ProofDensity ProofDoubleEx ProofDoubleTail ProofDoubleDensity ProofDoubleDensity2 ProofDoubleDensity3
  ProofDoubleVariance ProofDoubleVariance2 ProofDoubleVariance3 ProofDoubleVariance4 ProofDoubleCovariance ProofDoubleWeighted ProofDoubleWeighted2 ProofDoubleWeighted3.
Import ListNotations.
Local Open Scope R_scope.

(** ** Sums of part of the weights *)
Lemma run_weights (h : list (double * double)) : run_amt DoubleN (double * double) snd h = Wsum h.
Proof.
  unfold run_amt, Wsum, sum_run. change (sum_init DoubleN d_zero) with (zero DoubleN). generalize (zero DoubleN).
  induction h as [|e h IH]; intros z; [reflexivity|]. cbn [map fold_left]. apply IH.
Qed.
Lemma part_weights c (f : double * double -> bool) h : Weights c h -> Weights c (filter f h).
Proof. unfold Weights. rewrite !Forall_forall. intros W x Hx. apply filter_In in Hx as [Hx _]. apply W, Hx. Qed.
Lemma weight_cons e h : ExactWeight (e :: h) = val (snd e) + ExactWeight h.
Proof. reflexivity. Qed.
Lemma part_le c (f : double * double -> bool) h : Weights c h -> 0 <= ExactWeight (filter f h) <= ExactWeight h.
Proof.
  intros W. split; [apply (proj2 (weights_magnitude c _ (part_weights c f h W)))|].
  induction W as [|e h [_ [P _]] W IH]; [right; reflexivity|]. cbn [filter]. destruct (f e); rewrite ?weight_cons; lra.
Qed.
Lemma shared (h : list (double * double)) (f : nat -> double * double -> bool) (n : nat) :
  (forall x, In x h -> exists i, (i < n)%nat /\ f i x = true /\ forall j, (j < n)%nat -> f j x = true -> j = i) ->
  total RN (fun i => ExactWeight (filter (f i) h)) (seq 0 n) = ExactWeight h.
Proof.
  induction h as [|x h IH]; intros H.
  - cbn [filter]. change (ExactWeight []) with 0. induction (seq 0 n) as [|i l IHl]; [reflexivity|]. rewrite total_cons by apply RN_field. rewrite IHl. cbn. lra.
  - rewrite weight_cons. rewrite <- IH by (intros y Hy; apply H; right; exact Hy).
    destruct (H x (or_introl eq_refl)) as (i & Hi & Fi & U).
    assert (G : forall l, NoDup l -> (forall j, In j l -> (j < n)%nat) ->
      total RN (fun j => ExactWeight (filter (f j) (x :: h))) l = (if in_dec Nat.eq_dec i l then val (snd x) else 0) + total RN (fun j => ExactWeight (filter (f j) h)) l).
    { induction l as [|j l IHl]; intros ND HL; [rewrite !total_nil; cbn; lra|]. inversion ND as [|? ? NJ ND']; subst. rewrite !total_cons by apply RN_field.
      rewrite IHl by (auto; intros; apply HL; right; assumption). cbn [filter add RN].
      destruct (f j x) eqn:Ej.
      - assert (j = i) by (apply U; [apply HL; left; reflexivity|exact Ej]). subst j. rewrite weight_cons.
        destruct (in_dec Nat.eq_dec i l) as [C|_]; [contradiction|]. destruct (in_dec Nat.eq_dec i (i :: l)) as [_|C]; [lra|exfalso; apply C; left; reflexivity].
      - destruct (in_dec Nat.eq_dec i l) as [C|C]; destruct (in_dec Nat.eq_dec i (j :: l)) as [D|D]; try lra.
        + exfalso. apply D. right; exact C.
        + destruct D as [->|D]; [congruence|contradiction]. }
    rewrite G; [|apply seq_NoDup|intros j Hj; apply in_seq in Hj; lia].
    destruct (in_dec Nat.eq_dec i (seq 0 n)) as [_|C]; [reflexivity|]. exfalso. apply C, in_seq. lia.
Qed.
(** The rounded sum of part of the weights is never more than that of all. *)
Lemma filter_snoc (f : double * double -> bool) h e : filter f (h ++ [e]) = if f e then filter f h ++ [e] else filter f h.
Proof. rewrite filter_app. cbn [filter]. destruct (f e); [reflexivity|apply app_nil_r]. Qed.
Lemma rounded_part j (f : double * double -> bool) h : Few h -> (-450 <= j)%Z -> (j <= 450)%Z -> Weights (bpow radix2 j) h -> 0 <= val (Wsum (filter f h)) <= val (Wsum h).
Proof.
  intros L J J'. induction h as [|[x w] h IH] using rev_ind; intros W; [cbn; lra|].
  assert (L' : Few h) by (unfold Few in *; rewrite app_length in L; lia). pose proof W as W0. apply Forall_app in W as [W1 W2]. inversion W2 as [|? ? [Fw [P _]] _]; subst. cbn [snd] in Fw, P.
  specialize (IH L' W1). rewrite filter_snoc.
  assert (FF := part_weights _ f _ W1).
  assert (LF : forall l, (length l <= length h)%nat -> @Few (double * double) l) by (intros l Hl; unfold Few in *; lia).
  assert (Lf : Few (filter f h)) by (apply LF, filter_shorter).
  destruct (weight_close j h L' J J' W1) as [B1 _]. destruct (weight_close j (filter f h) Lf J J' FF) as [B2 _].
  assert (AW : below (j + 40) w).
  { split; [exact Fw|]. rewrite Rabs_pos_eq by exact P. inversion W2 as [|? ? [_ [_ Q]] _]; subst. cbn [snd] in Q. eapply Rle_trans; [exact Q|apply bpow_le; lia]. }
  assert (AD : forall y, below (j + 40) y -> val (d_add y w) = b64_round (val y + val w)).
  { intros y By. destruct By as [Fy By]. destruct AW as [_ Bw]. apply add_ok; [exact Fy|exact Fw|].
    apply fits with (k := (j + 41)%Z); [lia|lia|]. eapply Rle_trans; [apply Rabs_triang|]. replace (j + 41)%Z with (j + 40 + 1)%Z by lia. rewrite bpow_plus. change (bpow radix2 1) with 2. unfold val in *. lra. }
  assert (ST : val (Wsum h) <= val (Wsum (h ++ [(x, w)]))).
  { rewrite Wsum_snoc, AD by exact B1. apply Rle_trans with (b64_round (val (Wsum h))); [right; symmetry; apply round_generic; [apply valid_rnd_N|apply val_format]|]. apply round_le; lra. }
  destruct (f (x, w)); [|lra]. rewrite !Wsum_snoc. rewrite !AD by assumption. split.
  - apply round_nonneg. lra.
  - apply round_le; lra.
Qed.

(** ** Fractions *)
Lemma quotient_error n u x y X Y : 1 <= n -> 0 < u -> n * u <= / 8192 -> 0 <= X <= Y -> 0 < Y -> Rabs (x - X) <= 1.02 * (n * u) * X -> Rabs (y - Y) <= 1.02 * (n * u) * Y ->
  0 < y /\ Rabs (x / y - X / Y) <= 2.05 * (n * u) * (X / Y).
Proof.
  intros Hn Hu Nu HX HY Ex Ey. apply Rabs_le_inv in Ex. apply Rabs_le_inv in Ey. set (e := n * u) in *.
  assert (E0 : 0 < e) by (apply Rmult_lt_0_compat; lra). assert (Py : 0.999 * Y <= y) by nra. assert (Y0 : 0 < y) by lra. split; [exact Y0|].
  replace (x / y - X / Y) with ((x * Y - X * y) / (y * Y)) by (field; lra).
  replace (2.05 * e * (X / Y)) with (2.05 * e * X * y / (y * Y)) by (field; lra).
  assert (YY : 0 < y * Y) by (apply Rmult_lt_0_compat; assumption).
  unfold Rdiv. rewrite Rabs_mult, (Rabs_pos_eq (/ (y * Y))) by (left; apply Rinv_0_lt_compat; exact YY).
  apply Rmult_le_compat_r; [left; apply Rinv_0_lt_compat; exact YY|].
  assert (A : Rabs (x * Y - X * y) <= 2.04 * e * X * Y).
  { replace (x * Y - X * y) with ((x - X) * Y - X * (y - Y)) by ring. apply Rabs_le.
    assert (- (1.02 * e * X) * Y <= (x - X) * Y <= 1.02 * e * X * Y) by (split; apply Rmult_le_compat_r; lra).
    assert (X * - (1.02 * e * Y) <= X * (y - Y) <= X * (1.02 * e * Y)) by (split; apply Rmult_le_compat_l; lra). lra. }
  eapply Rle_trans; [exact A|]. assert (0 <= e * X) by (apply Rmult_le_pos; lra). nra.
Qed.
Lemma weight_fraction j (f : double * double -> bool) h : Few h -> (-450 <= j)%Z -> (j <= 450)%Z -> Weights (bpow radix2 j) h -> h <> [] -> bpow radix2 (-450) <= ExactWeight h ->
  let q := d_div (Wsum (filter f h)) (Wsum h) in let r := ExactWeight (filter f h) / ExactWeight h in
  finite q /\ 0 <= val q <= 1 /\ Rabs (val q - r) <= 4 * INR (length h) * roundoff * r + tiny.
Proof.
  intros L J J' W N LW q r. assert (Nu := few_samples _ L). assert (Hu := roundoff_small). assert (Ht := tiny_pos).
  assert (Lf : Few (filter f h)) by (unfold Few in *; assert (Q := filter_shorter f h); lia).
  assert (FF := part_weights _ f _ W). destruct (weight_close j h L J J' W) as [[Fy By] Ey]. destruct (weight_close j (filter f h) Lf J J' FF) as [[Fx Bx] Ex].
  destruct (part_le _ f h W) as [X0 XY]. assert (Y0 : 0 < ExactWeight h) by (assert (P := bpow_gt_0 radix2 (-450)); lra).
  assert (N1 : 1 <= INR (length h)) by (apply (le_INR 1); destruct h; [congruence|cbn; lia]).
  assert (Ex' : Rabs (val (Wsum (filter f h)) - ExactWeight (filter f h)) <= 1.02 * (INR (length h) * roundoff) * ExactWeight (filter f h)).
  { eapply Rle_trans; [exact Ex|]. apply Rmult_le_compat_r; [exact X0|]. apply Rmult_le_compat_l; [lra|]. apply Rmult_le_compat_r; [lra|]. apply le_INR, filter_shorter. }
  destruct (quotient_error _ _ _ _ _ _ N1 (proj1 Hu) Nu (conj X0 XY) Y0 Ex' Ey) as [Yp Q]. fold r in Q.
  destruct (rounded_part j f h L J J' W) as [R0 R1].
  set (t := val (Wsum (filter f h)) / val (Wsum h)) in *.
  assert (T : 0 <= t <= 1).
  { unfold t. split; [apply Rmult_le_pos; [lra|left; apply Rinv_0_lt_compat; exact Yp]|]. apply Rmult_le_reg_r with (val (Wsum h)); [exact Yp|]. unfold Rdiv. rewrite Rmult_assoc, Rinv_l by lra. lra. }
  destruct (fits t 0 ltac:(lia) ltac:(lia)) as [_ S]; [change (bpow radix2 0) with 1; rewrite Rabs_pos_eq; lra|].
  assert (D : finite q /\ val q = b64_round t).
  { apply div_ok; [unfold val in Yp; lra|exact Fx|exact S]. }
  destruct D as [Fq Eq]. split; [exact Fq|]. rewrite Eq. split.
  - split; [apply round_nonneg; lra|]. apply Rle_trans with (b64_round 1); [apply round_le; lra|]. rewrite (b64_exact_int 1) by (cbn; lia). lra.
  - assert (RN := round_near t). unfold near in RN. rewrite (Rabs_pos_eq t) in RN by lra.
    assert (R00 : 0 <= r) by (unfold r; apply Rmult_le_pos; [lra|left; apply Rinv_0_lt_compat; exact Y0]).
    assert (TT : t <= 1.01 * r) by (apply Rabs_le_inv in Q; assert (INR (length h) * roundoff * r <= / 8192 * r) by (apply Rmult_le_compat_r; lra); lra).
    assert (UT : roundoff * t <= 1.01 * (INR (length h) * roundoff * r)).
    { apply Rle_trans with (roundoff * (1.01 * r)); [apply Rmult_le_compat_l; lra|]. replace (roundoff * (1.01 * r)) with (1.01 * (1 * (roundoff * r))) by ring.
      rewrite (Rmult_assoc (INR (length h))). apply Rmult_le_compat_l; [lra|]. apply Rmult_le_compat_r; [apply Rmult_le_pos; lra|exact N1]. }
    assert (P0 : 0 <= INR (length h) * roundoff * r) by (apply Rmult_le_pos; [apply Rmult_le_pos; lra|exact R00]).
    eapply Rle_trans; [apply (close_trans _ _ _ _ _ RN Q)|]. lra.
Qed.
Lemma fractions_sum (g : nat -> double) (r : nat -> R) (k : R) (l : list nat) :
  (forall i, In i l -> Rabs (val (g i) - r i) <= k * r i + tiny) ->
  Rabs (total RN (fun i => val (g i)) l - total RN r l) <= k * total RN r l + INR (length l) * tiny.
Proof.
  induction l as [|i l IH]; intros H.
  - rewrite !total_nil. cbn [zero RN length INR]. rewrite Rminus_0_r, Rabs_R0. lra.
  - rewrite !total_cons by apply RN_field. cbn [add RN]. cbn [length]. rewrite S_INR.
    replace (val (g i) + total RN (fun i => val (g i)) l - (r i + total RN r l)) with ((val (g i) - r i) + (total RN (fun i => val (g i)) l - total RN r l)) by ring.
    replace (k * (r i + total RN r l) + (INR (length l) + 1) * tiny) with ((k * r i + tiny) + (k * total RN r l + INR (length l) * tiny)) by ring.
    apply Rabs_add_le'; [apply H; left; reflexivity|apply IH; intros; apply H; right; assumption].
Qed.

(** ** The theorem *)
Lemma double_whistogram : forall (c b : nat) (s0 : double) (w : R) (ops : list (dens_op (double * double))), let h := dens_pushes ops in
  (1 <= c)%nat -> (1 <= b)%nat -> (Z.of_nat (b + 1) <= 2 ^ 53)%Z -> (c <= length h)%nat -> Few h -> Within (2 ^ 960) (map fst h) ->
  Moderate w -> Weights w h -> / 2 ^ 450 <= ExactWeight h ->
  exists s m M (pos frac : nat -> double),
    weighted_density_run DoubleN (d_opp d_max) d_max c b s0 ops = Ok s /\ Spans (firstn c (map fst h)) m M /\
    weighted_density_result DoubleN s = map (fun i => (pos i, frac i)) (seq 0 (b + 2)) /\
    (val (pos 1%nat) = val m /\ (forall i j, (i <= j <= b + 1)%nat -> val (pos i) <= val (pos j)) /\
     forall i, (i <= b + 1)%nat -> finite (pos i) /\
       Rabs (val (pos i) - ExactPosition m M b i) <= 8 * roundoff * (Rabs (val m) + Rabs (val M)) + 4 * INR (b + 1) * tiny) /\
    (let share := fun i => ExactWeight (filter (fun e => FallsIn DoubleN b pos i (fst e)) h) / ExactWeight h in
     total RN share (seq 0 (b + 2)) = 1 /\
     (forall i, (i <= b + 1)%nat -> finite (frac i) /\ 0 <= val (frac i) <= 1 /\
        Rabs (val (frac i) - share i) <= 4 * INR (length h) * roundoff * share i + tiny) /\
     Rabs (total RN (fun pf => val (snd pf)) (weighted_density_result DoubleN s) - 1) <= 4 * INR (length h) * roundoff + INR (b + 2) * tiny).
Proof.
  intros c b s0 w ops h Hc Hb Hb53 Hn HC HW Hw Ww LW. apply (within_pow 960) in HW. change (Z.of_nat 960) with 960%Z in HW. rewrite low_pow in LW.
  destruct (moderate_pow w Hw) as (j & J & J' & Jw & _). assert (WJ := weights_le _ _ _ Jw Ww). assert (J450 : (j <= 450)%Z) by lia.
  set (P := fun x : double => finite x /\ Rabs (val x) <= bpow radix2 960).
  assert (HS : forall es : list double, es <> [] -> Forall P es -> Spans es (minimum es) (maximum es) /\ P (minimum es) /\ P (maximum es)).
  { intros es Ne F. assert (S : Spans es (minimum es) (maximum es)) by (apply extremes_span; [exact Ne|]; eapply Forall_impl; [|exact F]; intros a [A _]; exact A).
    rewrite Forall_forall in F. split; [exact S|]. destruct S as (S1 & S2 & _). split; apply F; assumption. }
  assert (HI : forall (es : list double) (x : double), es <> [] -> Forall P es -> P x ->
    exists i, bin_index DoubleN b (bin_positions DoubleN b (minimum es) (maximum es)) x = Ok i /\ (i <= b + 1)%nat).
  { intros es x Ne F [Fx _]. destruct (HS es Ne F) as ((S1 & S2 & S3) & [Fm Bm] & [FM BM]).
    destruct (falls_index (minimum es) (maximum es) b Fm FM Bm BM (proj1 (S3 _ S2)) Hb Hb53 x Fx) as (i & Ei & Hi & _). exists i; split; assumption. }
  assert (L := lawless_main DoubleN (double * double) fst snd (fun _ w => w) (d_opp d_max) d_max c b Hc P).
  assert (HI' : forall (es : list (double * double)) (x : double), es <> [] -> Forall P (map fst es) -> P x ->
    exists i, bin_index DoubleN b (bin_positions DoubleN b (lmin DoubleN (double * double) fst (d_opp d_max) d_max es) (lmax DoubleN (double * double) fst (d_opp d_max) d_max es)) x = Ok i /\ (i <= b + 1)%nat).
  { intros es x Ne F Px. unfold lmin, lmax. apply (HI (map fst es) x); [intros C; apply map_eq_nil in C; contradiction|exact F|exact Px]. }
  specialize (L HI' s0 (d_zero, d_zero) ops). cbv zeta in L. fold h in L. specialize (L HW Hn). clear HI'.
  destruct L as (s & E1 & E2). unfold lmin, lmax in E2. rewrite run_weights in E2.
  rewrite <- (firstn_map fst) in E2. set (xs := map fst h) in *.
  assert (Lx : length xs = length h) by apply map_length.
  assert (Ne : firstn c xs <> []).
  { intros C. assert (LL : length (firstn c xs) = 0%nat) by (rewrite C; reflexivity). rewrite firstn_length in LL. lia. }
  assert (FW : Forall P (firstn c xs)).
  { apply Forall_forall. intros x Hx. unfold Within in HW. rewrite Forall_forall in HW. apply HW. rewrite <- (firstn_skipn c xs). apply in_or_app; left; exact Hx. }
  destruct (HS _ Ne FW) as (SP & [Fm Bm] & [FM BM]). pose proof SP as (S1 & S2 & S3).
  change (min_run (dens_limits DoubleN (d_opp d_max) d_max) (firstn c xs)) with (minimum (firstn c xs)) in E2.
  change (max_run (dens_limits DoubleN (d_opp d_max) d_max) (firstn c xs)) with (maximum (firstn c xs)) in E2.
  set (m := minimum (firstn c xs)) in *. set (M := maximum (firstn c xs)) in *.
  assert (HmM : val m <= val M) by apply (proj1 (S3 _ S2)).
  set (p := pos m M b) in *. set (g := fun i (e : double * double) => FallsIn DoubleN b p i (fst e)).
  assert (FI : forall e, In e h -> exists i, bin_index DoubleN b (bin_positions DoubleN b m M) (fst e) = Ok i /\ (i <= b + 1)%nat /\ FallsIn DoubleN b p i (fst e) = true /\
    forall j, (j <= b + 1)%nat -> FallsIn DoubleN b p j (fst e) = true -> j = i).
  { intros e He. unfold Within in HW. rewrite Forall_forall in HW. destruct (HW (fst e) (in_map fst _ _ He)) as [Fx _].
    exact (falls_index m M b Fm FM Bm BM HmM Hb Hb53 (fst e) Fx). }
  set (fr := fun i => d_div (Wsum (filter (g i) h)) (Wsum h)).
  assert (MC : forall i, (i <= b + 1)%nat -> mass DoubleN (double * double) fst snd b (bin_positions DoubleN b m M) h i = Wsum (filter (g i) h)).
  { intros i Hi. unfold mass. rewrite run_weights. f_equal. apply filter_ext_in. intros e He. unfold bin_of, g.
    destruct (FI e He) as (k & Ek & Hk & Fk & U). rewrite Ek. destruct (Nat.eqb_spec k i) as [->|N]; [symmetry; exact Fk|].
    destruct (FallsIn DoubleN b p i (fst e)) eqn:EF; [|reflexivity]. exfalso. apply N. symmetry. apply U; assumption. }
  assert (RES : weighted_density_result DoubleN s = map (fun i => (p i, fr i)) (seq 0 (b + 2))).
  { eapply eq_trans; [exact E2|]. apply map_ext_in. intros i Hi. apply in_seq in Hi. rewrite MC by lia. reflexivity. }
  assert (SUM : total RN (fun i => ExactWeight (filter (g i) h)) (seq 0 (b + 2)) = ExactWeight h).
  { apply shared. intros e He. destruct (FI e He) as (i & _ & Hi & Fi & U). exists i. split; [lia|]. split; [exact Fi|]. intros k Hk. apply U. lia. }
  assert (Y0 : 0 < ExactWeight h) by (assert (Q := bpow_gt_0 radix2 (-450)); lra).
  assert (SH : total RN (fun i => ExactWeight (filter (g i) h) / ExactWeight h) (seq 0 (b + 2)) = 1).
  { apply eq_trans with (total RN (fun i => ExactWeight (filter (g i) h)) (seq 0 (b + 2)) / ExactWeight h); [|rewrite SUM; exact (Rinv_r _ (Rgt_not_eq _ _ Y0))].
    clear. induction (seq 0 (b + 2)) as [|i l IHl]; [rewrite !total_nil; cbn; unfold Rdiv; lra|]. rewrite !total_cons by apply RN_field. rewrite IHl. cbn [add RN]. unfold Rdiv. lra. }
  assert (Nh : h <> []) by (intros C; rewrite C in Hn; cbn in Hn; lia).
  assert (FR : forall i, finite (fr i) /\ 0 <= val (fr i) <= 1 /\
        Rabs (val (fr i) - ExactWeight (filter (g i) h) / ExactWeight h) <= 4 * INR (length h) * roundoff * (ExactWeight (filter (g i) h) / ExactWeight h) + tiny)
    by (intros i; exact (weight_fraction j (g i) h HC J J450 WJ Nh LW)).
  exists s, m, M, p, fr. split; [exact E1|]. split; [exact SP|]. split; [exact RES|]. split; [|split; [|split]].
  - split; [exact (pos_first m M b Fm FM Bm BM HmM Hb Hb53)|]. split.
    + intros i k [Hik Hk]. exact (pos_mono m M b Fm FM Bm BM HmM Hb Hb53 i k Hik Hk).
    + intros i Hi. split; [exact (proj1 (pos_ok m M b Fm FM Bm BM HmM Hb Hb53 i Hi))|exact (pos_error m M b Fm FM Bm BM HmM Hb Hb53 i Hi)].
  - exact SH.
  - intros i _. apply FR.
  - rewrite RES. rewrite total_map. cbn [snd].
    assert (NR := fractions_sum fr (fun i => ExactWeight (filter (g i) h) / ExactWeight h) (4 * INR (length h) * roundoff) (seq 0 (b + 2)) (fun i _ => proj2 (proj2 (FR i)))).
    rewrite SH, seq_length, Rmult_1_r in NR. exact NR.
Qed.
