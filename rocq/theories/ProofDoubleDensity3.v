(** The histogram of doubles: the theorem. *)
From Coq Require Import ZArith List Bool Reals Lra Lia Arith.
From Flocq Require Import Core Relative IEEE754.BinarySingleNaN.
From Verif Require Import Num NumFacts ModelBasic ModelMinMax ModelDensity ModelDouble SpecStats SpecDensity SpecDouble SpecDoubleDensity
  ProofBasic ProofKahan ProofDouble ProofDouble2 ProofDouble4 ProofDensity ProofDoubleEx ProofDoubleDensity ProofDoubleDensity2.
Import ListNotations.
Local Open Scope R_scope.

(** ** Extremes of finite samples *)
Lemma extremes_span (xs : list double) : xs <> [] -> Forall finite xs -> Spans xs (minimum xs) (maximum xs).
Proof.
  intros N F. rewrite Forall_forall in F. destruct xs as [|y ys]; [congruence|]. set (xs := y :: ys) in *.
  assert (Hy : In y xs) by (left; reflexivity). assert (Fy := F y Hy). unfold finite in Fy.
  assert (Ny : is_nan y = false) by (destruct y; try discriminate; reflexivity).
  assert (Hm : In (minimum xs) xs) by (apply (minimum_in xs y Hy Ny); intros ->; discriminate Fy).
  assert (HM : In (maximum xs) xs) by (apply (maximum_in xs y Hy Ny); intros ->; discriminate Fy).
  split; [exact Hm|]. split; [exact HM|]. intros x Hx. assert (Fx := F x Hx). split.
  - apply lt_false; [exact Fx|exact (F _ Hm)|apply minimum_least, Hx].
  - apply lt_false; [exact (F _ HM)|exact Fx|apply maximum_greatest, Hx].
Qed.

(** ** Counting *)
Lemma run_ones (xs : list double) : run_amt DoubleN double (fun _ => d_one) xs = ofnat DoubleN (length xs).
Proof.
  induction xs as [|x xs IH] using rev_ind; [reflexivity|]. rewrite run_amt_snoc, IH, app_length, Nat.add_1_r. reflexivity.
Qed.
Lemma filter_shorter {A} (f : A -> bool) l : (length (filter f l) <= length l)%nat.
Proof. induction l as [|a l IH]; cbn; [lia|]. destruct (f a); cbn; lia. Qed.
Lemma one_each (xs : list double) (f : nat -> double -> bool) (n : nat) :
  (forall x, In x xs -> exists i, (i < n)%nat /\ f i x = true /\ forall j, (j < n)%nat -> f j x = true -> j = i) ->
  list_sum (map (fun i => length (filter (f i) xs)) (seq 0 n)) = length xs.
Proof.
  induction xs as [|x xs IH]; intros H.
  - cbn. induction (seq 0 n) as [|i l IHl]; [reflexivity|exact IHl].
  - cbn [length]. rewrite <- IH by (intros y Hy; apply H; right; exact Hy).
    destruct (H x (or_introl eq_refl)) as (i & Hi & Fi & U).
    assert (G : forall l, NoDup l -> (forall j, In j l -> (j < n)%nat) ->
      list_sum (map (fun j => length (filter (f j) (x :: xs))) l) = ((if in_dec Nat.eq_dec i l then 1 else 0) + list_sum (map (fun j => length (filter (f j) xs)) l))%nat).
    { induction l as [|j l IHl]; intros ND HL; [reflexivity|]. inversion ND as [|? ? NJ ND']; subst. cbn [map list_sum fold_right].
      fold (list_sum (map (fun j => length (filter (f j) (x :: xs))) l)). fold (list_sum (map (fun j => length (filter (f j) xs)) l)).
      rewrite IHl by (auto; intros; apply HL; right; assumption). cbn [filter].
      destruct (f j x) eqn:Ej.
      - assert (j = i) by (apply U; [apply HL; left; reflexivity|exact Ej]). subst j.
        destruct (in_dec Nat.eq_dec i l) as [C|_]; [contradiction|]. destruct (in_dec Nat.eq_dec i (i :: l)) as [_|C]; [cbn; lia|exfalso; apply C; left; reflexivity].
      - destruct (in_dec Nat.eq_dec i l) as [C|C]; destruct (in_dec Nat.eq_dec i (j :: l)) as [D|D]; cbn [length]; try lia.
        + exfalso. apply D. right; exact C.
        + destruct D as [->|D]; [congruence|contradiction]. }
    rewrite G; [|apply seq_NoDup|intros j Hj; apply in_seq in Hj; lia].
    destruct (in_dec Nat.eq_dec i (seq 0 n)) as [_|C]; [reflexivity|]. exfalso. apply C, in_seq. lia.
Qed.

(** ** Fractions *)
Lemma fraction_ok k n : (k <= n)%nat -> (1 <= n)%nat -> (Z.of_nat n <= 2 ^ 53)%Z ->
  finite (d_div (ofnat DoubleN k) (ofnat DoubleN n)) /\ 0 <= val (d_div (ofnat DoubleN k) (ofnat DoubleN n)) <= 1 /\
  Rabs (val (d_div (ofnat DoubleN k) (ofnat DoubleN n)) - INR k / INR n) <= roundoff * (INR k / INR n).
Proof.
  intros Hkn Hn Hn53. destruct (ofnat_exact k ltac:(lia)) as [Fk Ek]. destruct (ofnat_exact n Hn53) as [Fn En].
  assert (N1 : 1 <= INR n) by (apply (le_INR 1 n), Hn). assert (KN := le_INR _ _ Hkn). assert (K0 := pos_INR k).
  assert (N53 : INR n <= IZR (2 ^ 53)) by (rewrite INR_IZR_INZ; apply IZR_le, Hn53).
  set (q := INR k / INR n).
  assert (Q : 0 <= q <= 1).
  { unfold q. split; [apply Rmult_le_pos; [lra|left; apply Rinv_0_lt_compat; lra]|]. apply Rmult_le_reg_r with (INR n); [lra|]. unfold Rdiv. rewrite Rmult_assoc, Rinv_l by lra. lra. }
  assert (R : 0 <= b64_round q <= 1).
  { split; [apply round_nonneg; lra|]. apply Rle_trans with (b64_round 1); [apply round_le; lra|]. rewrite (b64_exact_int 1) by (cbn; lia). lra. }
  destruct (div_ok (ofnat DoubleN k) (ofnat DoubleN n)) as [F E]; [rewrite En; lra|exact Fk| |].
  { rewrite Ek, En. fold q. rewrite Rabs_pos_eq by lra. apply Rle_lt_trans with (bpow radix2 0); [cbn; lra|]. apply bpow_lt. lia. }
  rewrite Ek, En in E. fold q in E. unfold finite, val. rewrite E. split; [exact F|]. split; [exact R|].
  destruct (Nat.eq_dec k 0) as [->|Hk].
  { unfold q. cbn [INR]. unfold Rdiv. rewrite Rmult_0_l, round_0, Rmult_0_r, Rminus_0_r, Rabs_R0. lra. }
  assert (K1 : 1 <= INR k) by (apply (le_INR 1 k); lia).
  assert (QL : bpow radix2 (-1022) <= q).
  { apply Rle_trans with (bpow radix2 (-53)); [apply bpow_le; lia|]. unfold q. apply Rmult_le_reg_r with (INR n); [lra|]. unfold Rdiv. rewrite Rmult_assoc, Rinv_l, Rmult_1_r by lra.
    apply Rle_trans with 1; [|exact K1]. apply Rle_trans with (bpow radix2 (-53) * IZR (2 ^ 53)); [apply Rmult_le_compat_l; [apply bpow_ge_0|exact N53]|].
    change (IZR (2 ^ 53)) with (bpow radix2 53). rewrite <- bpow_plus. cbn. lra. }
  assert (REL := relative_error_N_FLT radix2 (-1074) 53 eq_refl (fun t => negb (Z.even t)) q). change (-1074 + 53 - 1)%Z with (-1022)%Z in REL.
  rewrite (Rabs_pos_eq q) in REL by lra. specialize (REL QL). fold b64_round in REL. eapply Rle_trans; [exact REL|].
  apply Rmult_le_compat_r; [lra|]. rewrite roundoff_is. unfold b64_u. right. change (/ 2) with (bpow radix2 (-1)). rewrite <- bpow_plus. reflexivity.
Qed.
Lemma fractions_near (g : nat -> double) (h : nat -> R) (l : list nat) :
  (forall i, In i l -> Rabs (val (g i) - h i) <= roundoff * h i) ->
  Rabs (total RN (fun i => val (g i)) l - total RN h l) <= roundoff * total RN h l.
Proof.
  induction l as [|i l IH]; intros H.
  - rewrite !total_nil. cbn [zero RN]. rewrite Rminus_0_r, Rabs_R0. lra.
  - rewrite !total_cons by apply RN_field. cbn [add RN].
    replace (val (g i) + total RN (fun i => val (g i)) l - (h i + total RN h l)) with ((val (g i) - h i) + (total RN (fun i => val (g i)) l - total RN h l)) by ring.
    rewrite Rmult_plus_distr_l. apply Rabs_add_le'; [apply H; left; reflexivity|apply IH; intros; apply H; right; assumption].
Qed.
Lemma counts_total (cnt : nat -> nat) (n : R) (l : list nat) : total RN (fun i => INR (cnt i) / n) l = INR (list_sum (map cnt l)) / n.
Proof.
  induction l as [|i l IH]; [rewrite total_nil; cbn; lra|]. rewrite total_cons by apply RN_field. rewrite IH. cbn [map list_sum fold_right add RN].
  fold (list_sum (map cnt l)). rewrite plus_INR. symmetry. apply Rdiv_plus_distr.
Qed.

(** ** The theorem *)
Lemma double_histogram : forall (c b : nat) (s0 : double) (ops : list (dens_op double)), let xs := dens_pushes ops in
  (1 <= c)%nat -> (1 <= b)%nat -> (Z.of_nat (b + 1) <= 2 ^ 53)%Z -> (c <= length xs)%nat -> Countable xs -> Within (2 ^ 960) xs ->
  exists s m M (pos : nat -> double) (cnt : nat -> nat),
    density_run DoubleN (d_opp d_max) d_max c b s0 ops = Ok s /\ Spans (firstn c xs) m M /\
    density_result DoubleN s = map (fun i => (pos i, d_div (ofnat DoubleN (cnt i)) (ofnat DoubleN (length xs)))) (seq 0 (b + 2)) /\
    (val (pos 1%nat) = val m /\ (forall i j, (i <= j <= b + 1)%nat -> val (pos i) <= val (pos j)) /\
     forall i, (i <= b + 1)%nat -> finite (pos i) /\
       Rabs (val (pos i) - ExactPosition m M b i) <= 8 * roundoff * (Rabs (val m) + Rabs (val M)) + 4 * INR (b + 1) * tiny) /\
    ((forall i, (i <= b + 1)%nat -> cnt i = length (filter (FallsIn DoubleN b pos i) xs)) /\ list_sum (map cnt (seq 0 (b + 2))) = length xs) /\
    ((forall i, (i <= b + 1)%nat -> let f := d_div (ofnat DoubleN (cnt i)) (ofnat DoubleN (length xs)) in
        finite f /\ 0 <= val f <= 1 /\ Rabs (val f - INR (cnt i) / INR (length xs)) <= roundoff * (INR (cnt i) / INR (length xs))) /\
     Rabs (total RN (fun pf => val (snd pf)) (density_result DoubleN s) - 1) <= roundoff).
Proof.
  intros c b s0 ops xs Hc Hb Hb53 Hn HC HW. apply (within_pow 960) in HW. change (Z.of_nat 960) with 960%Z in HW.
  set (P := fun x : double => finite x /\ Rabs (val x) <= bpow radix2 960).
  assert (HS : forall es : list double, es <> [] -> Forall P es -> Spans es (minimum es) (maximum es) /\ P (minimum es) /\ P (maximum es)).
  { intros es Ne F. assert (S : Spans es (minimum es) (maximum es)) by (apply extremes_span; [exact Ne|]; eapply Forall_impl; [|exact F]; intros a [A _]; exact A).
    rewrite Forall_forall in F. split; [exact S|]. destruct S as (S1 & S2 & _). split; apply F; assumption. }
  assert (HI : forall (es : list double) (x : double), es <> [] -> Forall P es -> P x ->
    exists i, bin_index DoubleN b (bin_positions DoubleN b (minimum es) (maximum es)) x = Ok i /\ (i <= b + 1)%nat).
  { intros es x Ne F [Fx _]. destruct (HS es Ne F) as ((S1 & S2 & S3) & [Fm Bm] & [FM BM]).
    destruct (falls_index (minimum es) (maximum es) b Fm FM Bm BM (proj1 (S3 _ S2)) Hb Hb53 x Fx) as (i & Ei & Hi & _). exists i; split; assumption. }
  assert (L := lawless_main DoubleN double (fun x => x) (fun _ => d_one) (fun n _ => ofnat DoubleN n) (d_opp d_max) d_max c b Hc P).
  assert (HI' : forall (es : list double) (x : double), es <> [] -> Forall P (map (fun x => x) es) -> P x ->
    exists i, bin_index DoubleN b (bin_positions DoubleN b (lmin DoubleN double (fun x => x) (d_opp d_max) d_max es) (lmax DoubleN double (fun x => x) (d_opp d_max) d_max es)) x = Ok i /\ (i <= b + 1)%nat).
  { intros es x Ne F Px. unfold lmin, lmax. rewrite map_id in *. exact (HI es x Ne F Px). }
  specialize (L HI' s0 d_zero ops). cbv zeta in L. fold xs in L. rewrite map_id in L. specialize (L HW Hn). clear HI'.
  destruct L as (s & E1 & E2). unfold lmin, lmax in E2. rewrite map_id in E2.
  assert (Ne : firstn c xs <> []).
  { intros C. assert (LL : length (firstn c xs) = 0%nat) by (rewrite C; reflexivity). rewrite firstn_length in LL. lia. }
  assert (FW : Forall P (firstn c xs)).
  { apply Forall_forall. intros x Hx. unfold Within in HW. rewrite Forall_forall in HW. apply HW. rewrite <- (firstn_skipn c xs). apply in_or_app; left; exact Hx. }
  destruct (HS _ Ne FW) as (SP & [Fm Bm] & [FM BM]). pose proof SP as (S1 & S2 & S3).
  change (min_run (dens_limits DoubleN (d_opp d_max) d_max) (firstn c xs)) with (minimum (firstn c xs)) in E2.
  change (max_run (dens_limits DoubleN (d_opp d_max) d_max) (firstn c xs)) with (maximum (firstn c xs)) in E2.
  set (m := minimum (firstn c xs)) in *. set (M := maximum (firstn c xs)) in *.
  assert (HmM : val m <= val M) by apply (proj1 (S3 _ S2)).
  set (p := pos m M b) in *. set (cnt := fun i => length (filter (FallsIn DoubleN b p i) xs)).
  assert (FI : forall x, In x xs -> exists i, bin_index DoubleN b (bin_positions DoubleN b m M) x = Ok i /\ (i <= b + 1)%nat /\ FallsIn DoubleN b p i x = true /\
    forall j, (j <= b + 1)%nat -> FallsIn DoubleN b p j x = true -> j = i).
  { intros x Hx. unfold Within in HW. rewrite Forall_forall in HW. destruct (HW x Hx) as [Fx _].
    exact (falls_index m M b Fm FM Bm BM HmM Hb Hb53 x Fx). }
  assert (MC : forall i, (i <= b + 1)%nat -> mass DoubleN double (fun x => x) (fun _ => d_one) b (bin_positions DoubleN b m M) xs i = ofnat DoubleN (cnt i)).
  { intros i Hi. unfold mass. rewrite run_ones. f_equal. unfold cnt. f_equal. apply filter_ext_in. intros x Hx. unfold bin_of.
    destruct (FI x Hx) as (j & Ej & Hj & Fj & U). rewrite Ej. destruct (Nat.eqb_spec j i) as [->|N]; [symmetry; exact Fj|].
    destruct (FallsIn DoubleN b p i x) eqn:EF; [|reflexivity]. exfalso. apply N. symmetry. apply U; assumption. }
  assert (RES : density_result DoubleN s = map (fun i => (p i, d_div (ofnat DoubleN (cnt i)) (ofnat DoubleN (length xs)))) (seq 0 (b + 2))).
  { eapply eq_trans; [exact E2|]. apply map_ext_in. intros i Hi. apply in_seq in Hi. rewrite MC by lia. reflexivity. }
  assert (SUM : list_sum (map cnt (seq 0 (b + 2))) = length xs).
  { apply one_each. intros x Hx. destruct (FI x Hx) as (i & _ & Hi & Fi & U). exists i. split; [lia|]. split; [exact Fi|]. intros j Hj. apply U. lia. }
  assert (CN : forall i, (cnt i <= length xs)%nat).
  { intros i. apply filter_shorter. }
  assert (N1 : (1 <= length xs)%nat) by lia. assert (N1R : 1 <= INR (length xs)) by (apply (le_INR 1), N1).
  exists s, m, M, p, cnt. split; [exact E1|]. split; [exact SP|]. split; [exact RES|]. split; [|split; [|split]].
  - split; [exact (pos_first m M b Fm FM Bm BM HmM Hb Hb53)|]. split.
    + intros i j [Hij Hj]. exact (pos_mono m M b Fm FM Bm BM HmM Hb Hb53 i j Hij Hj).
    + intros i Hi. split; [exact (proj1 (pos_ok m M b Fm FM Bm BM HmM Hb Hb53 i Hi))|exact (pos_error m M b Fm FM Bm BM HmM Hb Hb53 i Hi)].
  - split; [reflexivity|exact SUM].
  - intros i _. apply fraction_ok; [apply CN|exact N1|exact HC].
  - rewrite RES. rewrite total_map. cbn [snd].
    assert (NR := fractions_near (fun i => d_div (ofnat DoubleN (cnt i)) (ofnat DoubleN (length xs))) (fun i => INR (cnt i) / INR (length xs)) (seq 0 (b + 2))).
    rewrite counts_total, SUM in NR. replace (INR (length xs) / INR (length xs)) with 1 in NR by (field; lra). rewrite Rmult_1_r in NR. apply NR.
    intros i _. apply fraction_ok; [apply CN|exact N1|exact HC].
Qed.
