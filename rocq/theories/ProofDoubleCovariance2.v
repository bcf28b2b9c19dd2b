(** The accuracy of covariances of doubles. *)
From Coq Require Import ZArith List Bool Reals Lra Lia Arith Psatz Permutation.
From Flocq Require Import Core IEEE754.BinarySingleNaN.
From Verif Require Import Num NumFacts ModelBasic ModelRounding ModelDouble SpecStats SpecDouble SpecDoubleVariance ProofBasic ProofBasic2 ProofKahan ProofSets ProofVector ProofDouble ProofDouble2 ProofDouble3 ProofDoubleEx ProofDoubleVariance ProofDoubleVariance2 ProofDoubleVariance3 ProofDoubleVariance4 ProofDoubleCovariance.
Import ListNotations.
Local Open Scope R_scope.

Definition dcov (h : list (double * double)) : double := cs_cov DoubleN (cov_set_run DoubleN d_zero d_zero h).
Definition pvals (h : list (double * double)) : list (R * R) := map (fun p => (val (fst p), val (snd p))) h.
Lemma pvals_fst h : map fst (pvals h) = vals (map fst h).
Proof. unfold pvals, vals. rewrite !map_map. reflexivity. Qed.
Lemma pvals_snd h : map snd (pvals h) = vals (map snd h).
Proof. unfold pvals, vals. rewrite !map_map. reflexivity. Qed.
Lemma pvals_snoc h x y : pvals (h ++ [(x, y)]) = pvals h ++ [(val x, val y)].
Proof. apply map_app. Qed.

Lemma dcov_snoc h x y : h <> [] -> dcov (h ++ [(x, y)]) =
  d_add (d_div (d_mul (dcov h) (ofnat DoubleN (length h))) (ofnat DoubleN (S (length h))))
    (d_div (d_mul (d_sub (lazy_mean (map snd (h ++ [(x, y)]))) y) (d_sub (lazy_mean (map fst (h ++ [(x, y)]))) x)) (ofnat DoubleN (length h))).
Proof.
  intros N. assert (C := cov_count DoubleN d_zero d_zero (h ++ [(x, y)])). assert (E1 := cov_sum DoubleN d_zero d_zero (h ++ [(x, y)])). assert (E2 := cov_sumv DoubleN d_zero d_zero (h ++ [(x, y)])).
  unfold dcov. unfold cov_set_run in *. rewrite fold_left_app in *. cbn [fold_left] in *. fold (cov_set_run DoubleN d_zero d_zero h) in *.
  unfold cov_set_push in *. cbn [cs_cov cs_count cs_sum cs_sumv fst snd] in *. rewrite E1, E2, C.
  rewrite !lazy_mean_is, !map_length, !app_length, !Nat.add_1_r. unfold covariance_op.
  destruct h as [|p h]; [congruence |]. cbn [length Nat.ltb Nat.leb]. rewrite Nat.sub_succ, Nat.sub_0_r. reflexivity.
Qed.
Lemma cov_exact_snoc (h : list (R * R)) (x y : R) : h <> [] -> Covariance RN (h ++ [(x, y)])
  = Covariance RN h * INR (length h) / (INR (length h) + 1)
    + (Mean RN (map snd (h ++ [(x, y)])) - y) * (Mean RN (map fst (h ++ [(x, y)])) - x) / INR (length h).
Proof.
  intros N. assert (N' : h ++ [(x, y)] <> []) by (destruct h; discriminate).
  rewrite <- (cov_run_spec RN RN_field h N), <- (cov_run_spec RN RN_field _ N').
  refine (eq_trans (cov_snoc RN RN_field h x y) _). unfold covariance_op. destruct h as [|p h]; [congruence |].
  cbn [length Nat.ltb Nat.leb]. rewrite Nat.sub_succ, Nat.sub_0_r. cbn [add mul sub div RN]. rewrite !R_ofnat. rewrite <- !S_INR. reflexivity.
Qed.
Lemma total_bound {X : Type} (f : X -> R) (l : list X) b : (forall x, In x l -> Rabs (f x) <= b) -> Rabs (total RN f l) <= INR (length l) * b.
Proof.
  induction l as [|x l IH]; intros H; [cbn; rewrite Rabs_R0; lra |].
  change (total RN f (x :: l)) with (f x + total RN f l). cbn [length]. rewrite S_INR. eapply Rle_trans; [apply Rabs_triang |].
  assert (H1 := H x (or_introl eq_refl)). assert (H2 := IH (fun y I => H y (or_intror I))). lra.
Qed.
Lemma cov_bound a b (h : list (R * R)) : h <> [] -> 0 < a -> 0 < b -> (forall p, In p h -> Rabs (fst p) <= a /\ Rabs (snd p) <= b) -> Rabs (Covariance RN h) <= 2 * (a * b).
Proof.
  intros N HA HB H. assert (P : 0 < INR (length h)) by (apply INR_pos; destruct h; [congruence | cbn; lia]).
  unfold Covariance, average. assert (S := SXY_raw RN RN_field h N). unfold SXY in S. rewrite S. cbn [div mul sub RN]. rewrite !R_ofnat.
  assert (T1 := total_bound (fun p => fst p * snd p) h (a * b)). assert (T2 := total_bound fst h a (fun p I => proj1 (H p I))). assert (T3 := total_bound snd h b (fun p I => proj2 (H p I))).
  assert (T1' : Rabs (total RN (fun p => fst p * snd p) h) <= INR (length h) * (a * b)).
  { apply T1. intros p I. destruct (H p I). rewrite Rabs_mult. apply Rmult_le_compat; auto using Rabs_pos. }
  change (mul RN) with Rmult. cbn [car RN] in *. set (n := INR (length h)) in *.
  set (q := total RN (fun p => fst p * snd p) h) in *. set (s := total RN fst h) in *. set (r := total RN snd h) in *.
  assert (M : Rabs (s * r) <= n * a * (n * b)) by (rewrite Rabs_mult; apply Rmult_le_compat; first [apply Rabs_pos | assumption]).
  change (Rabs ((q - s * r / n) / n) <= 2 * (a * b)).
  replace ((q - s * r / n) / n) with (q / n - s * r / (n * n)) by (field; lra).
  assert (Q1 : Rabs (q / n) <= a * b).
  { unfold Rdiv. rewrite Rabs_mult, (Rabs_pos_eq (/ n)) by (left; apply Rinv_0_lt_compat; lra). apply Rmult_le_reg_r with n; [lra |]. rewrite Rmult_assoc, Rinv_l by lra. lra. }
  assert (Q2 : Rabs (s * r / (n * n)) <= a * b).
  { assert (0 < n * n) by nra. unfold Rdiv. rewrite Rabs_mult, (Rabs_pos_eq (/ (n * n))) by (left; apply Rinv_0_lt_compat; lra). apply Rmult_le_reg_r with (n * n); [lra |]. rewrite Rmult_assoc, Rinv_l by lra. nra. }
  apply Rabs_le_inv in Q1. apply Rabs_le_inv in Q2. apply Rabs_le. lra.
Qed.
Lemma tiny_two j k : (-450 <= j)%Z -> (-450 <= k)%Z -> 1000 * tiny <= roundoff * (bpow radix2 j * bpow radix2 k).
Proof.
  intros J K. rewrite tiny_is, roundoff_is. unfold b64_u. change (/ 2) with (bpow radix2 (-1)).
  apply Rle_trans with (bpow radix2 10 * (bpow radix2 (-1) * bpow radix2 (-1074))).
  - apply Rmult_le_compat_r; [apply Rmult_le_pos; apply bpow_ge_0 |]. change (bpow radix2 10) with 1024. lra.
  - rewrite <- !bpow_plus. apply bpow_le. lia.
Qed.
Lemma lazy_near k xs : (Z.of_nat (length xs) <= 2 ^ 40)%Z -> (-450 <= k)%Z -> (k <= 450)%Z -> xs <> [] -> Within (bpow radix2 k) xs ->
  below k (lazy_mean xs) /\ Rabs (val (lazy_mean xs) - Mean RN (vals xs)) <= 2 * INR (length xs) * roundoff * bpow radix2 k.
Proof.
  intros L K K' N W. destruct (lazy_close k xs L ltac:(lia) ltac:(lia) N W) as (F & B & E). split; [split; assumption |]. rewrite Mean_vals. cbn [car RN] in *.
  destruct (tiny_small k K) as [T _]. assert (N1 : 1 <= INR (length xs)). { replace 1 with (INR 1) by reflexivity. apply le_INR. destruct xs; [congruence | cbn; lia]. }
  assert (Hu := roundoff_small). assert (PB := bpow_gt_0 radix2 k). set (c := roundoff * bpow radix2 k) in *. assert (0 <= c) by (unfold c; nra).
  eapply Rle_trans; [exact E |]. replace (1.02 * (INR (length xs) * roundoff) * bpow radix2 k) with (1.02 * (INR (length xs) * c)) by (unfold c; lra).
  replace (2 * INR (length xs) * roundoff * bpow radix2 k) with (2 * (INR (length xs) * c)) by (unfold c; ring). nra.
Qed.

Lemma cov_close i j h : (Z.of_nat (length h) <= 2 ^ 40)%Z -> (-450 <= i)%Z -> (i <= 450)%Z -> (-450 <= j)%Z -> (j <= 450)%Z -> h <> [] ->
  Within (bpow radix2 i) (map fst h) -> Within (bpow radix2 j) (map snd h) ->
  below (i + j + 2) (dcov h) /\
  Rabs (val (dcov h) - Covariance RN (pvals h)) <= 64 * INR (length h) * roundoff * (bpow radix2 i * bpow radix2 j).
Proof.
  intros L I I' J J'. assert (Hu := roundoff_small). assert (Ht := tiny_pos). set (A := bpow radix2 i). set (B := bpow radix2 j).
  assert (PA : 0 < A) by apply bpow_gt_0. assert (PB : 0 < B) by apply bpow_gt_0. assert (PW : 0 < A * B) by nra.
  assert (Near : forall h, (Z.of_nat (length h) <= 2 ^ 40)%Z -> h <> [] -> Within A (map fst h) -> Within B (map snd h) -> finite (dcov h) ->
    Rabs (val (dcov h) - Covariance RN (pvals h)) <= 64 * INR (length h) * roundoff * (A * B) -> below (i + j + 2) (dcov h)).
  { intros g G N WA WB F E. split; [exact F |]. assert (C : Rabs (Covariance RN (pvals g)) <= 2 * (A * B)).
    { apply cov_bound; [destruct g; [congruence | discriminate] | exact PA | exact PB |]. intros p In_p. unfold pvals in In_p. apply in_map_iff in In_p as (q & <- & Iq). cbn [fst snd].
      unfold Within in *. rewrite Forall_forall in WA, WB. split; [apply (WA (fst q)) | apply (WB (snd q))]; apply in_map; exact Iq. }
    assert (D := close_bound _ _ _ _ E C). rewrite !bpow_plus. change (bpow radix2 2) with 4. fold A B.
    assert (Nu := few_samples _ G). set (n := INR (length g)) in *. assert (n * roundoff * (A * B) <= / 8192 * (A * B)) by (apply Rmult_le_compat_r; lra). lra. }
  induction h as [|[x y] h IH] using rev_ind; intros N WA WB; [congruence |].
  assert (G : finite (dcov (h ++ [(x, y)])) /\ Rabs (val (dcov (h ++ [(x, y)])) - Covariance RN (pvals (h ++ [(x, y)]))) <= 64 * INR (length (h ++ [(x, y)])) * roundoff * (A * B)).
  2:{ destruct G as [G1 G2]. split; [apply Near; assumption | exact G2]. }
  destruct h as [|p h'].
  { split; [reflexivity |]. replace (val (dcov ([] ++ [(x, y)]))) with 0 by reflexivity.
    replace (Covariance RN (pvals ([] ++ [(x, y)]))) with 0.
    - rewrite Rminus_0_r, Rabs_R0. cbn [app length INR]. nra.
    - symmetry. rewrite <- (cov_run_spec RN RN_field) by discriminate. cbn. unfold covariance_init. cbn. lra. }
  set (h := p :: h') in *. assert (Nh : h <> []) by discriminate. assert (Np : pvals h <> []) by discriminate.
  assert (L0 : (Z.of_nat (length h) <= 2 ^ 40)%Z) by (rewrite app_length in L; cbn [length] in L; lia).
  assert (La : length (map fst (h ++ [(x, y)])) = length (h ++ [(x, y)])) by apply map_length. assert (Lb : length (map snd (h ++ [(x, y)])) = length (h ++ [(x, y)])) by apply map_length.
  destruct (lazy_near i (map fst (h ++ [(x, y)]))) as [Ma Ea]; [rewrite La; exact L | lia | lia | discriminate | exact WA |].
  destruct (lazy_near j (map snd (h ++ [(x, y)]))) as [Mb Eb]; [rewrite Lb; exact L | lia | lia | discriminate | exact WB |].
  assert (Xa := exact_mean_le A (map fst (h ++ [(x, y)])) ltac:(discriminate) WA). assert (Xb := exact_mean_le B (map snd (h ++ [(x, y)])) ltac:(discriminate) WB).
  rewrite <- Mean_vals in Xa, Xb. rewrite La in Ea. rewrite Lb in Eb. rewrite <- pvals_fst in Ea, Xa. rewrite <- pvals_snd in Eb, Xb.
  assert (Ls : length (h ++ [(x, y)]) = S (length h)) by (rewrite app_length; cbn; lia).
  assert (WA0 := WA). assert (WB0 := WB). rewrite map_app in WA0, WB0. cbn [map fst snd] in WA0, WB0.
  apply Forall_app in WA0 as [WA0 Wx]. inversion Wx as [|? ? Bx _]; subst. apply Forall_app in WB0 as [WB0 Wy]. inversion Wy as [|? ? By _]; subst.
  destruct (IH L0 Nh WA0 WB0) as [Bv Ev].
  assert (Cb : Rabs (Covariance RN (pvals h)) <= 2 * (A * B)).
  { apply cov_bound; [discriminate | exact PA | exact PB |]. intros q Iq. unfold pvals in Iq. apply in_map_iff in Iq as (q' & <- & Iq). cbn [fst snd].
    unfold Within in *. rewrite Forall_forall in WA0, WB0. split; [apply (WA0 (fst q')) | apply (WB0 (snd q'))]; apply in_map; exact Iq. }
  rewrite Ls, S_INR in *. rewrite pvals_snoc in *. rewrite (cov_exact_snoc (pvals h) (val x) (val y)) by exact Np. replace (length (pvals h)) with (length h) by (symmetry; apply map_length).
  rewrite dcov_snoc by exact Nh.
  destruct (ofnat_below (length h) L0) as [Bn En]. assert (Nu := few_samples _ L). rewrite S_INR in Nu.
  assert (N1 : 1 <= INR (length h)). { replace 1 with (INR 1) by reflexivity. apply le_INR. unfold h. cbn; lia. }
  destruct (mul_below (i + j + 2) 40 _ _ ltac:(lia) ltac:(lia) Bv Bn) as [Ba Na]. rewrite En in Na.
  destruct (div_below (i + j + 2 + 40) _ (S (length h)) ltac:(lia) ltac:(lia) Ba) as [Bb Nb]; [lia | eapply Z.le_trans; [exact L | discriminate] |]. rewrite S_INR in Nb.
  destruct (sub_below i _ x ltac:(lia) ltac:(lia) Ma Bx) as [Bd Nd]. destruct (sub_below j _ y ltac:(lia) ltac:(lia) Mb By) as [Be Ne].
  destruct (mul_below (j + 1) (i + 1) _ _ ltac:(lia) ltac:(lia) Be Bd) as [Bq Nq].
  destruct (div_below (j + 1 + (i + 1)) _ (length h) ltac:(lia) ltac:(lia) Bq) as [Br Nr]; [unfold h; cbn; lia | eapply Z.le_trans; [exact L0 | discriminate] |].
  apply below_le with (k := (i + j + 42)%Z) in Bb; [| lia]. apply below_le with (k := (i + j + 42)%Z) in Br; [| lia].
  destruct (add_below (i + j + 42) _ _ ltac:(lia) ltac:(lia) Bb Br) as [Bw Nw]. split; [exact (proj1 Bw) |].
  replace (64 * (INR (length h) + 1) * roundoff * (A * B)) with (64 * (INR (length h) + 1) * roundoff * (B * A)) by ring.
  assert (T := tiny_two i j I J). fold A B in T, Ea, Eb. cbn [car RN] in *. rewrite (Rmult_comm A B) in *.
  refine (cov_step B A roundoff tiny (INR (length h)) PB PA (proj1 Hu) (Rlt_le _ _ Ht) N1 _ T _ _ _ _ _ _ _ _ _ _ _ _ _ _ _ Ev Cb Na Nb (proj2 By) (proj2 Mb) Xb Eb Ne (proj2 Bx) (proj2 Ma) Xa Ea Nd Nq Nr Nw).
  lra.
Qed.
