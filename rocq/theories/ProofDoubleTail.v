(** Tails and tail quantiles of doubles. *)
From Coq Require Import ZArith List Bool Reals Lra Lia Arith Permutation Sorted FunctionalExtensionality.
From Flocq Require Import Core IEEE754.BinarySingleNaN.
From Verif Require Import Num NumFacts ModelBasic ModelRolling ModelTail ModelDouble ModelDoubleTail SpecStats SpecTail SpecDouble SpecDoubleTail
  ProofKahan ProofDouble ProofDouble2 ProofDouble4 ProofTail ProofTailTop ProofDoubleEx.
Import ListNotations.
Local Open Scope R_scope.

(** ** Two comparisons that agree on the samples give the same tail *)
Section Agree.
Variables A V : Type.
Variable H : HeapOps.
Variables pred pred' : A -> A -> bool.
Variable P : A -> Prop.
Hypothesis agree : forall a b, P a -> P b -> pred a b = pred' a b.

Lemma cmp_agree (l : list A) : Forall P l -> indirect_cmp pred l = indirect_cmp pred' l.
Proof.
  intros F. apply functional_extensionality; intros i. apply functional_extensionality; intros j. unfold indirect_cmp.
  destruct (nth_error l i) as [a|] eqn:Ea; [|reflexivity]. destruct (nth_error l j) as [b|] eqn:Eb; [|reflexivity].
  rewrite Forall_forall in F. apply agree; apply F; eapply nth_error_In; eauto.
Qed.
Lemma set_nth_P i x (l : list A) : Forall P l -> P x -> Forall P (set_nth i x l).
Proof.
  revert i; induction l as [|y l IH]; intros [|i] F Px; cbn; try constructor; inversion F; subst; auto.
Qed.
Lemma assign_agree l is vs i x v : Forall P l -> P x ->
  tail_assign H pred l is vs i x v = tail_assign H pred' l is vs i x v /\ Forall P (tl_samples (tail_assign (V:=V) H pred l is vs i x v)).
Proof.
  intros F Px. assert (F' := set_nth_P i x l F Px). unfold tail_assign. rewrite (cmp_agree _ F'). split; [reflexivity | exact F'].
Qed.
Lemma sort_agree (s : tail_state A V) : Forall P (tl_samples s) -> tail_sort H pred s = tail_sort H pred' s.
Proof. intros F. unfold tail_sort. rewrite (cmp_agree _ F). reflexivity. Qed.
Lemma result_agree (s : tail_state A V) : Forall P (tl_samples s) -> tail_result H pred s = tail_result H pred' s.
Proof. intros F. unfold tail_result. rewrite (sort_agree s F). reflexivity. Qed.
Lemma run_agree k nv (dA : A) (dV : V) ops : P dA -> Forall P (map fst (pushes ops)) ->
  tail_run H pred (tail_init k nv dA dV) ops = tail_run H pred' (tail_init k nv dA dV) ops /\
  forall s, tail_run H pred (tail_init k nv dA dV) ops = Ok s -> Forall P (tl_samples s).
Proof.
  intros Pd. induction ops as [|o ops IH] using rev_ind; intros F.
  - split; [reflexivity|]. intros s E. injection E as <-. cbn. apply Forall_forall. intros x Hx. apply repeat_spec in Hx. subst x. exact Pd.
  - unfold pushes in F. rewrite flat_map_app, map_app in F. apply Forall_app in F as [F1 F2]. destruct (IH F1) as [E I]. clear IH.
    unfold tail_run in *. rewrite !fold_left_app. cbn [fold_left]. rewrite <- E.
    destruct (fold_left (tail_step H pred) ops (Ok (tail_init k nv dA dV))) as [s| |] eqn:R; [|split; [reflexivity|discriminate]..].
    specialize (I s eq_refl). destruct o as [x vs|]; cbn [tail_step].
    + cbn in F2. assert (Px : P x) by (inversion F2; assumption).
      unfold tail_push. destruct (Nat.ltb _ _).
      { destruct (assign_agree (tl_samples s) (tl_indices s ++ [length (tl_indices s)]) (tl_variates s) (length (tl_indices s)) x vs I Px) as [Ea Ia].
        split; [rewrite Ea; reflexivity|]. intros s' Es. injection Es as <-. exact Ia. }
      destruct (tl_indices s) as [|top is] eqn:Ei; [split; [reflexivity|discriminate]|].
      destruct (nth_error (tl_samples s) top) as [t|] eqn:Et; [|split; [reflexivity|discriminate]].
      assert (Pt : P t) by (rewrite Forall_forall in I; apply I; eapply nth_error_In; eauto).
      rewrite (agree x t Px Pt), (cmp_agree _ I). destruct (pred' x t).
      * destruct (rev _) as [|back]; [split; [reflexivity|discriminate]|].
        destruct (assign_agree (tl_samples s) (pop_heap H (indirect_cmp pred' (tl_samples s)) (top :: is)) (tl_variates s) back x vs I Px) as [Ea Ia].
        split; [rewrite Ea; reflexivity|]. intros s' Es. injection Es as <-. exact Ia.
      * split; [reflexivity|]. intros s' Es. injection Es as <-. exact I.
    + split; [rewrite (sort_agree s I); reflexivity|]. intros s' Es. injection Es as <-. unfold tail_sort. destruct (tl_sorted s); exact I.
Qed.
Lemma tail_agree k xs t : Forall P xs -> IsTail pred' k xs t -> IsTail pred k xs t.
Proof.
  intros F (L & S & rest & HP & HR).
  assert (Fa : Forall P (t ++ rest)) by (eapply Permutation_Forall; eauto). apply Forall_app in Fa as [Ft Fr].
  rewrite Forall_forall in Ft, Fr.
  split; [exact L|]. split.
  - unfold SortedBy in *. clear L HP HR rest Fr. induction t as [|a t IH]; [constructor|]. apply StronglySorted_inv in S as [S1 S2].
    constructor; [apply IH; [exact S1|intros x Hx; apply Ft; right; exact Hx]|]. rewrite Forall_forall in *. intros b Hb.
    rewrite agree; [apply S2, Hb|apply Ft; right; exact Hb|apply Ft; left; reflexivity].
  - exists rest. split; [exact HP|]. intros a b Ha Hb. rewrite agree; [apply HR; assumption|apply Fr, Hb|apply Ft, Ha].
Qed.
End Agree.

(** ** The order of the doubles *)
Definition sane (x : double) : double := if is_nan x then d_zero else x.
Lemma sane_ok x : is_nan (sane x) = false.
Proof. unfold sane. destruct (is_nan x) eqn:E; [reflexivity|exact E]. Qed.
Definition pr' (lr : side) (a b : double) : bool := tail_pred DoubleN lr (sane a) (sane b).
Lemma pr'_sw lr : StrictWeak (pr' lr).
Proof.
  unfold pr'. destruct lr; constructor; cbn [tail_pred ltb DoubleN]; intros *; pose proof (sane_ok a) as Na; try pose proof (sane_ok b) as Nb; try pose proof (sane_ok c) as Nc;
  rewrite ?lt_rank_false, ?lt_rank_true by assumption; lra.
Qed.
Lemma pr_agree lr a b : ~ nan a -> ~ nan b -> tail_pred DoubleN lr a b = pr' lr a b.
Proof.
  unfold nan, pr', sane. intros Na Nb. destruct (is_nan a); [congruence|]. destruct (is_nan b); [congruence|]. reflexivity.
Qed.
Lemma more_extreme lr : MoreExtreme DoubleN lr = tail_pred DoubleN lr.
Proof. destruct lr; reflexivity. Qed.

Lemma double_tail (H : HeapOps) : HeapContract H -> forall (V : Type) (lr : side) (k nv : nat) (dA : double) (dV : V) (ops : list (tail_op double V)),
  (0 < k)%nat -> WellFormed nv ops -> ~ nan dA -> Numbers (map fst (pushes ops)) ->
  exists s t, tail_run H (tail_pred DoubleN lr) (tail_init k nv dA dV) ops = Ok s /\
    tail_result H (tail_pred DoubleN lr) s = Ok t /\ IsTail (MoreExtreme DoubleN lr) k (map fst (pushes ops)) t.
Proof.
  intros HC V lr k nv dA dV ops Hk HW Hd HN.
  destruct (tail_samples_spec H HC double V (pr' lr) (pr'_sw lr) k nv dA dV ops Hk HW) as (s & t & E1 & E2 & HT).
  destruct (run_agree double V H (tail_pred DoubleN lr) (pr' lr) (fun x => ~ nan x) (pr_agree lr) k nv dA dV ops Hd HN) as [E I].
  exists s, t. assert (E' := eq_trans E E1). split; [exact E'|]. split.
  - exact (eq_trans (result_agree double V H _ _ _ (pr_agree lr) s (I s E')) E2).
  - rewrite more_extreme. exact (tail_agree double _ _ _ (pr_agree lr) k _ t HN HT).
Qed.

(** ** Ranks *)
Lemma ceil_is (x : double) : is_finite x = true -> 0 <= val x -> INR (d_ceil x) - 1 < val x <= INR (d_ceil x).
Proof.
  intros F P. unfold d_ceil.
  destruct (Bnearbyint_correct 53 1024 prec_max mode_UP x) as (E & _ & _). cbn [round_mode] in E.
  assert (Q : IZR (Btrunc (Bnearbyint (prec_lt_emax_ := prec_max) mode_UP x)) = IZR (Zceil (val x))).
  { rewrite Btrunc_correct by exact prec_max. rewrite E. unfold round at 2, F2R, scaled_mantissa, cexp, FIX_exp; cbn [Fnum Fexp].
    change (bpow radix2 (- (0))) with 1. change (bpow radix2 0) with 1. rewrite !Rmult_1_r.
    unfold round, F2R, scaled_mantissa, cexp, FIX_exp; cbn [Fnum Fexp].
    change (bpow radix2 (- (0))) with 1. change (bpow radix2 0) with 1. rewrite !Rmult_1_r. rewrite Ztrunc_IZR. reflexivity. }
  apply eq_IZR in Q. rewrite Q. assert (B := Zceil_lb (val x)). assert (U := Zceil_ub (val x)).
  assert (N : (0 <= Zceil (val x))%Z).
  { apply le_IZR. lra. }
  rewrite INR_IZR_INZ, Z2Nat.id by exact N. lra.
Qed.

(** The computed share: within half an ulp of the exact one, positive, at most 1. *)
Definition share (lr : side) (p : double) : double := tail_level DoubleN lr p.
Lemma share_spec lr p : Probability p ->
  finite (share lr p) /\ 0 < val (share lr p) <= 1 /\ Rabs (val (share lr p) - ExactShare lr p) <= match lr with Left => 0 | Right => / 2 ^ 54 end.
Proof.
  intros [F [P0 P1]]. destruct lr; unfold share, tail_level, ExactShare; cbn [sub one DoubleN].
  - split; [exact F|]. split; [lra|]. rewrite Rminus_diag_eq by reflexivity. rewrite Rabs_R0. lra.
  - assert (L : b64_round (1 - val p) <= 1).
    { apply Rle_trans with (b64_round 1); [apply round_le; lra|]. rewrite (b64_exact_int 1) by (cbn; lia). lra. }
    assert (Q : bpow radix2 (-53) <= 1 - val p).
    { destruct (Rle_lt_dec (val p) (/ 2)) as [Hh|Hh].
      - assert (bpow radix2 (-53) <= / 2) by (change (/ 2) with (bpow radix2 (-1)); apply bpow_le; lia). lra.
      - assert (G := val_format p). unfold b64_format, generic_format, scaled_mantissa in G.
        assert (C : cexp radix2 (FLT_exp (-1074) 53) (val p) = (-53)%Z).
        { unfold cexp, FLT_exp. rewrite (mag_unique radix2 (val p) 0); [reflexivity|]. cbn -[Rlt Rle val]. rewrite Rabs_pos_eq by lra. lra. }
        rewrite C in G. set (m := Ztrunc (val p * bpow radix2 (- (-53)))) in G. unfold F2R in G. cbn [Fnum Fexp] in G.
        assert (Pb : 0 < bpow radix2 (-53)) by apply bpow_gt_0.
        assert (O : 1 = IZR (2 ^ 53) * bpow radix2 (-53)).
        { change (IZR (2 ^ 53)) with (bpow radix2 53). rewrite <- bpow_plus. reflexivity. }
        assert (M : (m < 2 ^ 53)%Z).
        { apply lt_IZR. apply Rmult_lt_reg_r with (1 := Pb). rewrite <- G, <- O. exact P1. }
        rewrite G, O. rewrite <- Rmult_minus_distr_r, <- minus_IZR. rewrite <- (Rmult_1_l (bpow radix2 (-53))) at 1.
        apply Rmult_le_compat_r; [lra|]. apply IZR_le. lia. }
    assert (Pq : 0 < bpow radix2 (-53)) by apply bpow_gt_0.
    assert (R : bpow radix2 (-53) <= b64_round (1 - val p)).
    { apply Rle_trans with (b64_round (bpow radix2 (-53))); [|apply round_le, Q].
      rewrite round_format by (apply generic_format_bpow; unfold FLT_exp; lia). lra. }
    destruct (sub_ok d_one p one_finite F) as [Fs Es].
    { rewrite one_value. fold (val p). rewrite Rabs_pos_eq by lra. apply Rle_lt_trans with (1 := L). apply (bpow_lt radix2 0 1024). reflexivity. }
    rewrite one_value in Es. fold (val p) in Es. unfold val at 1 2. fold (val p). change (@car DoubleN) with double. fold d_one. rewrite Es.
    split; [exact Fs|]. split; [lra|]. unfold val at 1. rewrite Es. fold (val p).
    assert (HU := error_le_half_ulp radix2 (FLT_exp (-1074) 53) (fun t => negb (Z.even t)) (1 - val p)). fold b64_round in HU.
    eapply Rle_trans; [exact HU|].
    assert (U : ulp radix2 (FLT_exp (-1074) 53) (1 - val p) <= bpow radix2 (-53)).
    { rewrite ulp_neq_0 by lra. apply bpow_le. unfold cexp, FLT_exp.
      assert (G : (mag radix2 (1 - val p) <= 0)%Z) by (apply mag_le_bpow; [lra|]; rewrite Rabs_pos_eq by lra; cbn -[Rlt val]; lra). lia. }
    replace (/ 2 ^ 54) with (/ 2 * bpow radix2 (-53)); [lra|].
    change (bpow radix2 (-53)) with (/ IZR (2 ^ 53)). lra.
Qed.

Lemma round_int_le r (k : nat) : (Z.of_nat k <= 2 ^ 53)%Z -> r <= INR k -> b64_round r <= INR k.
Proof. intros H L. apply round_le in L. rewrite INR_IZR_INZ in *. rewrite b64_exact_int in L by lia. exact L. Qed.
Lemma round_int_ge r (k : nat) : (Z.of_nat k <= 2 ^ 53)%Z -> INR k <= r -> INR k <= b64_round r.
Proof. intros H L. apply round_le in L. rewrite INR_IZR_INZ in *. rewrite b64_exact_int in L by lia. exact L. Qed.
Lemma rank_value lr n p : Probability p -> (1 <= n)%nat -> (Z.of_nat n <= 2 ^ 53)%Z ->
  let y := b64_round (INR n * val (share lr p)) in 0 < y <= INR n /\ INR (d_rank lr n p) - 1 < y <= INR (d_rank lr n p).
Proof.
  intros HP Hn Hn53 y. destruct (share_spec lr p HP) as (Fq & [Q0 Q1] & _). set (q := share lr p) in *.
  destruct (ofnat_exact n Hn53) as [Fn En].
  assert (N1 : 1 <= INR n) by (apply (le_INR 1 n), Hn).
  assert (Y0 : val q <= y).
  { apply Rle_trans with (b64_round (val q)); [rewrite round_format by apply val_format; lra|]. apply round_le. nra. }
  assert (Y1 : y <= INR n) by (apply round_int_le; [exact Hn53|nra]).
  assert (B : INR n <= IZR (2 ^ 53)) by (rewrite INR_IZR_INZ; apply IZR_le, Hn53).
  destruct (mul_ok (ofnat DoubleN n) q Fn Fq) as [Fm Em].
  { rewrite En. fold (val q) y. rewrite Rabs_pos_eq by lra. apply Rle_lt_trans with (1 := Y1). apply Rle_lt_trans with (1 := B).
    change (IZR (2 ^ 53)) with (bpow radix2 53). apply bpow_lt. reflexivity. }
  rewrite En in Em. fold (val q) in Em. fold y in Em. split; [lra|].
  unfold d_rank, tail_n. cbn [mul DoubleN]. fold (share lr p). fold q.
  assert (C := ceil_is (d_mul (ofnat DoubleN n) q) Fm). unfold val in C. rewrite Em in C. apply C. lra.
Qed.
Lemma rank_spec lr n p : Probability p -> (1 <= n)%nat -> (Z.of_nat n <= 2 ^ 52)%Z ->
  (1 <= d_rank lr n p <= n)%nat /\ forall R, ExactRank lr n p R ->
    (R <= d_rank lr n p + 1)%nat /\ (d_rank lr n p <= R + match lr with Left => 0 | Right => 1 end)%nat.
Proof.
  intros HP Hn Hn52. assert (Hn53 : (Z.of_nat n <= 2 ^ 53)%Z) by lia.
  destruct (rank_value lr n p HP Hn Hn53) as [[Y0 Y1] [C0 C1]].
  destruct (share_spec lr p HP) as (Fq & [Q0 Q1] & QE). set (q := share lr p) in *.
  set (y := b64_round (INR n * val q)) in *. set (r := d_rank lr n p) in *.
  assert (N1 : 1 <= INR n) by (apply (le_INR 1 n), Hn).
  assert (B : INR n <= 2 ^ 52) by (rewrite INR_IZR_INZ; apply IZR_le in Hn52; lra).
  assert (R1 : (1 <= r)%nat) by (apply INR_lt; cbn [INR]; lra).
  assert (R2 : (r <= n)%nat) by (assert (r < n + 1)%nat; [apply INR_lt; rewrite plus_INR; cbn [INR]; lra|lia]).
  split; [lia|]. intros R [E0 E1].
  assert (SH : 0 < ExactShare lr p < 1) by (destruct HP as [_ HP], lr; cbn [ExactShare]; lra).
  assert (Rn : (R <= n)%nat) by (assert (R < n + 1)%nat; [apply INR_lt; rewrite plus_INR; cbn [INR]; nra|lia]).
  assert (EB : Rabs (INR n * val q - INR n * ExactShare lr p) <= match lr with Left => 0 | Right => 1 / 4 end).
  { rewrite <- Rmult_minus_distr_l, Rabs_mult, Rabs_pos_eq by lra. destruct lr; [nra|].
    apply Rle_trans with (2 ^ 52 * / 2 ^ 54); [|lra]. apply Rmult_le_compat; [lra|apply Rabs_pos|lra|exact QE]. }
  destruct lr.
  - apply Rabs_le_inv in EB. split.
    + destruct R as [|R]; [lia|]. rewrite S_INR in E0. assert (INR R <= y) by (apply round_int_ge; [lia|lra]).
      assert (INR R <= INR r) by lra. apply INR_le in H0. lia.
    + assert (y <= INR R) by (apply round_int_le; [lia|lra]). assert (L : INR r < INR (R + 1)) by (rewrite plus_INR; cbn [INR]; lra). apply INR_lt in L. lia.
  - apply Rabs_le_inv in EB. split.
    + destruct (le_lt_dec R (r + 1)) as [|C]; [assumption|exfalso].
      assert (L : INR r + 2 <= INR R) by (apply Nat.le_succ_l, le_INR in C; rewrite S_INR, plus_INR in C; cbn [INR] in C; lra).
      assert (F : b64_format (INR (2 * R - 3) * bpow radix2 (-1))) by (apply scaled_format; lia).
      assert (V : INR (2 * R - 3) * bpow radix2 (-1) = INR R - 3 / 2).
      { rewrite minus_INR by lia. rewrite mult_INR. change (bpow radix2 (-1)) with (/ 2). cbn [INR]. lra. }
      rewrite V in F. assert (G : b64_round (INR R - 3 / 2) <= y) by (apply round_le; lra). rewrite round_format in G by exact F. lra.
    + assert (y <= INR (R + 1)) by (apply round_int_le; [lia|rewrite plus_INR; cbn [INR]; lra]).
      assert (L : INR r < INR (R + 2)) by (rewrite plus_INR in *; cbn [INR] in *; lra). apply INR_lt in L. lia.
Qed.

(** ** Quantiles and means of the tail *)
Lemma tail_nth lr k xs t m v : Numbers xs -> IsTail (MoreExtreme DoubleN lr) k xs t -> nth_error t m = Some v ->
  OrderStat (MoreExtreme DoubleN lr) xs (S m) v.
Proof.
  rewrite more_extreme. intros F HT Ev.
  assert (HT' : IsTail (pr' lr) k xs t).
  { apply (tail_agree double (pr' lr) (tail_pred DoubleN lr) (fun x => ~ nan x)); [intros; symmetry; apply pr_agree; assumption|exact F|exact HT]. }
  destruct (IsTail_nth (pr' lr) (pr'_sw lr) k xs t m v HT' Ev) as (a & b & HP & L & Ha & Hb).
  assert (Fa : Forall (fun x => ~ nan x) (a ++ v :: b)) by (eapply Permutation_Forall; [exact HP|exact F]).
  rewrite Forall_forall in Fa. assert (Nv : ~ nan v) by (apply Fa, in_elt).
  exists a, b. split; [exact HP|]. split; [exact L|]. split; intros y Hy.
  - rewrite pr_agree; [apply Ha, Hy|exact Nv|]. apply Fa, in_or_app. left; exact Hy.
  - rewrite pr_agree; [apply Hb, Hy| |exact Nv]. apply Fa, in_or_app. right; right; exact Hy.
Qed.
Lemma double_quantile (H : HeapOps) : HeapContract H -> forall (lr : side) (k : nat) (dA : double) (dV : unit) (ops : list (tail_op double unit)),
  (0 < k)%nat -> WellFormed 0 ops -> ~ nan dA -> Numbers (map fst (pushes ops)) ->
  exists s tl, tail_run H (tail_pred DoubleN lr) (tail_init k 0 dA dV) ops = Ok s /\ tail_result H (tail_pred DoubleN lr) s = Ok tl /\
  let xs := map fst (pushes ops) in
  forall p, Probability p -> xs <> [] -> (Z.of_nat (length xs) <= 2 ^ 52)%Z ->
  exists r, (1 <= r <= length xs)%nat /\
    (forall R, ExactRank lr (length xs) p R -> (R <= r + 1)%nat /\ (r <= R + match lr with Left => 0 | Right => 1 end)%nat) /\
    ((r < Nat.min k (length xs))%nat ->
       exists v, tail_quantile_result DoubleN d_ceil lr (length xs) tl p = Ok v /\ OrderStat (MoreExtreme DoubleN lr) xs r v) /\
    ((Nat.min k (length xs) <= r)%nat -> tail_quantile_result DoubleN d_ceil lr (length xs) tl p = NotANumber) /\
    ((r <= Nat.min k (length xs))%nat ->
       exists a, MostExtreme (MoreExtreme DoubleN lr) xs r a /\ non_coherent_tail_mean_result DoubleN d_ceil lr (length xs) tl p = Ok (lazy_mean a)) /\
    ((Nat.min k (length xs) < r)%nat -> non_coherent_tail_mean_result DoubleN d_ceil lr (length xs) tl p = NotANumber).
Proof.
  intros HC lr k dA dV ops Hk HW Hd HN.
  destruct (double_tail H HC unit lr k 0 dA dV ops Hk HW Hd HN) as (s & t & E1 & E2 & HT).
  exists s, t. split; [exact E1|]. split; [exact E2|]. intros xs p Hp Hne Hn. fold xs in HN, HT.
  assert (N1 : (1 <= length xs)%nat) by (destruct xs; [congruence|cbn; lia]).
  destruct (rank_spec lr (length xs) p Hp N1 Hn) as [HR HE].
  exists (d_rank lr (length xs) p). split; [exact HR|]. split; [exact HE|].
  assert (TL : length t = Nat.min k (length xs)) by apply HT.
  unfold tail_quantile_result, non_coherent_tail_mean_result. fold (d_rank lr (length xs) p). set (r := d_rank lr (length xs) p) in *.
  rewrite TL. repeat split; intros Hr.
  - destruct (Nat.ltb_spec r (Nat.min k (length xs))) as [_|C]; [|lia]. destruct r as [|m]; [lia|].
    destruct (nth_error t m) as [v|] eqn:Ev; [|apply nth_error_None in Ev; lia].
    exists v. split; [reflexivity|]. exact (tail_nth lr k xs t m v HN HT Ev).
  - destruct (Nat.ltb_spec r (Nat.min k (length xs))) as [C|_]; [lia|reflexivity].
  - destruct (Nat.leb_spec r (Nat.min k (length xs))) as [_|C]; [|lia].
    exists (firstn r t). destruct HT as (_ & HS & rest & HP & HB). split.
    + split; [rewrite firstn_length; lia|]. exists (skipn r t ++ rest). split; [rewrite app_assoc, firstn_skipn; exact HP|].
      intros x y Hx Hy. apply in_app_or in Hy as [Hy|Hy]; [|apply HB; [|exact Hy]; rewrite <- (firstn_skipn r t); apply in_or_app; left; exact Hx].
      unfold SortedBy in HS. rewrite <- (firstn_skipn r t) in HS. clear - HS Hx Hy.
      induction (firstn r t) as [|a l IH]; [destruct Hx|]. cbn in HS. apply StronglySorted_inv in HS as [S1 S2].
      destruct Hx as [->|Hx]; [|exact (IH S1 Hx)]. rewrite Forall_forall in S2. apply S2, in_or_app. right; exact Hy.
    + destruct r as [|m] eqn:Er; [lia|]. rewrite <- Er in *. rewrite lazy_mean_is. rewrite firstn_length, (Nat.min_l r (length t)) by lia. reflexivity.
  - destruct (Nat.leb_spec r (Nat.min k (length xs))) as [C|_]; [lia|reflexivity].
Qed.

(** ** A NaN in a cache of one sample *)
Section Stuck.
Variable A : Type.
Variable pred : A -> A -> bool.
Variable z : A.
Hypothesis stuck : forall x, pred x z = false.
Lemma one_sw : StrictWeak (indirect_cmp pred [z]).
Proof.
  assert (Z : forall i j, indirect_cmp pred [z] i j = match i, j with O, S _ => true | _, _ => false end).
  { intros [|i] [|j]; unfold indirect_cmp; cbn; [apply stuck|destruct j; reflexivity|destruct i; reflexivity..]. }
  constructor; intros *; rewrite ?Z; repeat match goal with |- context [match ?x with O => _ | S _ => _ end] => destruct x end; congruence.
Qed.
Lemma one_heap : IsHeap (indirect_cmp pred [z]) [O].
Proof. intros [|[|i]] a b Hi Ea Eb; [lia|discriminate Eb..]. Qed.
Lemma one_stays (H : HeapOps) : HeapContract H -> forall (dA : A) (xs : list A),
  exists s, tail_run H pred (tail_init 1 0 dA tt) (map (fun x => TPush x []) (z :: xs)) = Ok s /\ tail_result H pred s = Ok [z].
Proof.
  intros HC dA xs. exists {| tl_sorted := false; tl_indices := [O]; tl_samples := [z]; tl_variates := [] |}. split.
  - induction xs as [|x xs IH] using rev_ind.
    + unfold tail_run. cbn [map fold_left tail_step]. unfold tail_push, tail_assign. cbn [tail_init tl_indices tl_samples tl_variates repeat length Nat.ltb Nat.leb app set_nth map combine].
      destruct (hc_push H HC _ one_sw [] O) as [P _]; [intros [|i] a b Hi Ea Eb; [lia|discriminate Eb]|].
      cbn [app] in P. apply Permutation_sym, Permutation_length_1_inv in P. rewrite P. reflexivity.
    + rewrite app_comm_cons, map_app. unfold tail_run in *. rewrite fold_left_app, IH. cbn [map fold_left tail_step]. unfold tail_push. cbn [tl_indices tl_samples length Nat.ltb Nat.leb nth_error].
      rewrite stuck. reflexivity.
  - unfold tail_result, tail_sort. cbn [tl_sorted tl_indices tl_samples].
    destruct (hc_sort H HC _ one_sw [O] one_heap) as [P _]. apply Permutation_sym, Permutation_length_1_inv in P. rewrite P. reflexivity.
Qed.
End Stuck.
Lemma nan_stays (H : HeapOps) : HeapContract H -> forall (lr : side) (dA : double) (xs : list double),
  exists s, tail_run H (tail_pred DoubleN lr) (tail_init 1 0 dA tt) (map (fun x => TPush x []) (d_nan :: xs)) = Ok s /\
    tail_result H (tail_pred DoubleN lr) s = Ok [d_nan].
Proof.
  intros HC lr. apply (one_stays double (tail_pred DoubleN lr) d_nan); [|exact HC].
  intros x. destruct lr; cbn [tail_pred ltb DoubleN]; [apply lt_nan_r|apply lt_nan_l]; reflexivity.
Qed.

(** ** Examples *)
Definition ten : list (tail_op double unit) := map (fun z => TPush (dbl z 0) []) [7;3;10;1;9;2;8;4;6;5]%Z.
Definition ten_quantile (lr : side) (k : nat) (p : double) : outcome (option (Z * Z)) :=
  match tail_run sorting_heap (tail_pred DoubleN lr) (tail_init k 0 d_zero tt) ten with
  | Ok s => match tail_result sorting_heap (tail_pred DoubleN lr) s with
            | Ok t => match tail_quantile_result DoubleN d_ceil lr 10 t p with Ok v => Ok (shown_double v) | NotANumber => NotANumber | UB => UB end
            | _ => UB end
  | _ => UB end.
Lemma tenth_prob : Probability tenth /\ val tenth = IZR 3602879701896397 / 2 ^ 55.
Proof.
  assert (E : val tenth = IZR 3602879701896397 / 2 ^ 55).
  { replace tenth with (B754_finite (prec := 53) (emax := 1024) false 7205759403792794 (-56) eq_refl).
    2:{ apply B2SF_inj. vm_compute. reflexivity. }
    unfold val, B2R, F2R. cbn [Fnum Fexp cond_Zopp]. change (bpow radix2 (-56)) with (/ IZR (2 ^ 56)). lra. }
  split; [|exact E]. split; [vm_compute; reflexivity|]. rewrite E. lra.
Qed.
Lemma rank_off : Probability tenth /\ ExactRank Left 10 tenth 2 /\ d_rank Left 10 tenth = 1%nat /\ ten_quantile Left 5 tenth = Ok (Some (4503599627370496, -52)%Z).
Proof.
  destruct tenth_prob as [P E]. split; [exact P|]. split; [unfold ExactRank, ExactShare; rewrite E; cbn [INR]; lra|].
  split; vm_compute; reflexivity.
Qed.
Lemma ten_ok : Numbers (map fst (pushes ten)) /\ WellFormed 0 ten /\ ~ nan d_zero.
Proof.
  split; [|split; [|discriminate]].
  - repeat constructor; intros N; vm_compute in N; discriminate N.
  - repeat constructor.
Qed.
