(** The accuracy of the default rolling variance of doubles. *)
From Coq Require Import ZArith List Bool Reals Lra Lia Arith Psatz.
From Flocq Require Import Core IEEE754.BinarySingleNaN.
From Verif Require Import Num NumFacts ModelBasic ModelRolling ModelRounding ModelDouble SpecStats SpecRolling SpecDouble SpecDoubleVariance SpecDoubleMoment SpecDoubleRolling ProofBasic ProofBasic2 ProofRolling ProofKahan ProofDouble ProofDouble2 ProofDouble3 ProofDouble4 ProofDouble5 ProofDoubleEx
  ProofDoubleVariance ProofDoubleVariance2 ProofDoubleVariance3 ProofDoubleVariance4 ProofDoubleMoment ProofDoubleMoment2 ProofDoubleRolling ProofDoubleRolling2.
Import ListNotations.
Local Open Scope R_scope.

(** ** The exact sum of squared deviations *)
Definition S2 (xs : list double) : R := total RN (fun x => x * x) (vals xs).
Definition SS (xs : list double) : R := S2 xs - INR (length xs) * (ExactMean xs * ExactMean xs).
Lemma S2_snoc xs x : S2 (xs ++ [x]) = S2 xs + val x * val x.
Proof.
  unfold S2, vals. induction xs as [|y xs IH]; [cbn; ring |]. cbn [app map].
  change (val y * val y + total RN (fun x => x * x) (map val (xs ++ [x])) = val y * val y + total RN (fun x => x * x) (map val xs) + val x * val x). cbn [car RN] in *. rewrite IH. ring.
Qed.
Lemma S2_cons y xs : S2 (y :: xs) = val y * val y + S2 xs. Proof. reflexivity. Qed.
Lemma S2_within B xs : Within B xs -> 0 <= S2 xs <= INR (length xs) * (B * B).
Proof.
  induction 1 as [|x xs [F H] _ IH]; [unfold S2; cbn; lra |]. rewrite S2_cons. cbn [length]. rewrite S_INR.
  assert (val x * val x <= B * B) by (apply Rabs_le_inv in H; nra). nra.
Qed.
Lemma deviations m xs : total RN (fun x => power RN (x - m) 2) (vals xs) = S2 xs - 2 * m * ExactSum xs + INR (length xs) * (m * m).
Proof.
  induction xs as [|x xs IH]; [unfold S2, ExactSum; cbn; ring |]. rewrite S2_cons. cbn [length]. rewrite S_INR.
  change ((val x - m) * ((val x - m) * 1) + total RN (fun x => power RN (x - m) 2) (vals xs) = val x * val x + S2 xs - 2 * m * (val x + ExactSum xs) + (INR (length xs) + 1) * (m * m)).
  cbn [car RN] in *. rewrite IH. ring.
Qed.
Lemma mean_sum xs : xs <> [] -> ExactSum xs = INR (length xs) * ExactMean xs.
Proof. intros N. assert (H := one_le xs N). unfold ExactMean. field. lra. Qed.
Lemma mean_sum' xs : ExactSum xs = INR (length xs) * ExactMean xs.
Proof. destruct xs as [|x xs]; [unfold ExactSum, ExactMean; cbn; ring | apply mean_sum; discriminate]. Qed.
Lemma SS_deviations xs : SS xs = total RN (fun x => power RN (x - ExactMean xs) 2) (vals xs).
Proof. rewrite deviations, mean_sum'. unfold SS. ring. Qed.
Lemma SS_within B xs : Within B xs -> 0 <= SS xs <= INR (length xs) * (B * B).
Proof.
  intros W. split.
  - rewrite SS_deviations. generalize (ExactMean xs). intros m. clear. generalize (vals xs). intros v. induction v as [|x l IH]; [right; reflexivity |].
    change (0 <= (x - m) * ((x - m) * 1) + total RN (fun x => power RN (x - m) 2) l). apply Rplus_le_le_0_compat; [rewrite Rmult_1_r; exact (Rle_0_sqr (x - m)) | exact IH].
  - assert (H := S2_within B xs W). unfold SS. assert (0 <= INR (length xs) * (ExactMean xs * ExactMean xs)) by (apply Rmult_le_pos; [apply pos_INR | nra]). lra.
Qed.
Lemma SS_fill xs x : SS (xs ++ [x]) = SS xs + (val x - ExactMean (xs ++ [x])) * (val x - ExactMean xs).
Proof.
  unfold SS. rewrite S2_snoc, app_length. cbn [length]. assert (H := mean_sum' xs). assert (n0 := pos_INR (length xs)).
  assert (E : ExactMean (xs ++ [x]) = (INR (length xs) * ExactMean xs + val x) / (INR (length xs) + 1)).
  { unfold ExactMean at 1. rewrite exact_snoc, app_length, H, plus_INR. reflexivity. }
  rewrite E, plus_INR. change (INR 1) with 1. field. lra.
Qed.
Lemma SS_roll w w' x y : (1 <= length w)%nat -> length w' = length w -> w ++ [x] = y :: w' ->
  SS w' = SS w + (val x - ExactMean w') * (val x - ExactMean w) - (val y - ExactMean w') * (val y - ExactMean w).
Proof.
  intros L L' E. assert (n1 := one_le_nat _ L).
  assert (A : ExactSum w + val x = val y + ExactSum w') by (rewrite <- exact_snoc, E; reflexivity).
  assert (Q : S2 w + val x * val x = val y * val y + S2 w') by (rewrite <- S2_snoc, E; reflexivity).
  assert (H := mean_sum' w). assert (H' := mean_sum' w'). rewrite L' in H'. unfold SS. rewrite L'. set (n := INR (length w)) in *.
  set (m := ExactMean w) in *. set (m' := ExactMean w') in *. assert (D : n * (m' - m) = val x - val y) by lra.
  replace (S2 w') with (S2 w + val x * val x - val y * val y) by lra.
  replace (S2 w + val x * val x - val y * val y - n * (m' * m')) with (S2 w - n * (m * m) + (val x * val x - val y * val y) - (n * (m' - m)) * (m' + m)) by ring. rewrite D. ring.
Qed.

(** ** One step *)
Section Step.
  Variable k : Z.
  Hypothesis K : (-450 <= k <= 450)%Z.
  Let B := bpow radix2 k.
  Let PB : 0 < B. Proof. apply bpow_gt_0. Qed.
  Let W := B * B.
  Let PW : 0 < W. Proof. unfold W. nra. Qed.
  Let Hu := roundoff_small.
  Let T : 1000 * tiny <= roundoff * B. Proof. apply tiny_low. lia. Qed.
  Let TW : 1000 * tiny <= roundoff * W. Proof. unfold W, B. rewrite <- bpow_plus. apply tiny_low. lia. Qed.
  Let uW : 0 < roundoff * W. Proof. nra. Qed.
  Let us : roundoff <= / 1000000. Proof. unfold roundoff. apply Rinv_le; [lra |]. apply Rle_trans with (2 ^ 20); [lra | apply Rle_pow; [lra | lia]]. Qed.

  Lemma round_square r c j : c <= IZR (Zpower radix2 j) -> (0 <= j <= 60)%Z -> Rabs r <= c * W -> Rabs (b64_round r) < bpow radix2 1024.
  Proof.
    intros C J R. assert (C' : Rabs r <= bpow radix2 (j + (k + k))).
    { rewrite !bpow_plus, <- IZR_Zpower by lia. eapply Rle_trans; [exact R |]. apply Rmult_le_compat_r; [left; exact PW | exact C]. }
    eapply Rle_lt_trans; [apply round_abs; [| exact C']; apply generic_format_bpow; unfold FLT_exp; lia | apply bpow_lt; lia].
  Qed.
  Lemma round_err r c : Rabs r <= c -> Rabs (b64_round r - r) <= roundoff * c + roundoff * W / 1000.
  Proof. intros R. assert (H := near_le roundoff tiny _ _ _ ltac:(lra) (round_near r) R). lra. Qed.

  Lemma minus_close x m M e : finite x -> finite m -> Rabs (val x) <= B -> Rabs (val m) <= 1.01 * B -> Rabs (val m - M) <= e ->
    finite (d_sub x m) /\ Rabs (val (d_sub x m)) <= 2.02 * B /\ Rabs (val (d_sub x m) - (val x - M)) <= e + 2.02 * (roundoff * B).
  Proof.
    intros Fx Fm Bx Bm E. assert (D : Rabs (val x - val m) <= 2.01 * B) by (apply Rabs_le_inv in Bx; apply Rabs_le_inv in Bm; apply Rabs_le; lra).
    assert (L : Rabs (b64_round (val x - val m)) < bpow radix2 1024 /\ Rabs (b64_round (val x - val m) - (val x - val m)) <= (2.01 + / 1000) * (roundoff * B)).
    { apply (round_few k ltac:(lia) _ 2.01 2); [change (IZR (Zpower radix2 2)) with 4; lra | lia | exact D]. }
    destruct L as [L R]. destruct (sub_ok x m Fx Fm L) as [F V]. fold (val (d_sub x m)) (val x) (val m) in V. rewrite <- V in R.
    assert (uB : 0 < roundoff * B) by nra. assert (uB' : roundoff * B <= / 1000000 * B) by (apply Rmult_le_compat_r; lra).
    split; [exact F |]. apply Rabs_le_inv in R. apply Rabs_le_inv in D. apply Rabs_le_inv in E. split; apply Rabs_le; lra.
  Qed.
  Lemma product_close x m m' M M' e : finite x -> finite m -> finite m' -> Rabs (val x) <= B -> Rabs (val m) <= 1.01 * B -> Rabs (val m') <= 1.01 * B ->
    Rabs M' <= B -> Rabs (val m - M) <= e -> Rabs (val m' - M') <= e ->
    let p := d_mul (d_sub x m') (d_sub x m) in
    finite p /\ Rabs (val p) <= 4.2 * W /\ Rabs (val p - (val x - M') * (val x - M)) <= 4.05 * (B * e) + 13 * (roundoff * W).
  Proof.
    intros Fx Fm Fm' Bx Bm Bm' BM E E'. cbv zeta.
    destruct (minus_close x m' M' e Fx Fm' Bx Bm' E') as (Fa & Ba & Ea). destruct (minus_close x m M e Fx Fm Bx Bm E) as (Fb & Bb & Eb).
    assert (P : Rabs (val (d_sub x m') * val (d_sub x m)) <= 4.1 * W).
    { rewrite Rabs_mult. apply Rle_trans with (2.02 * B * (2.02 * B)); [apply Rmult_le_compat; auto using Rabs_pos | unfold W; nra]. }
    assert (L : Rabs (b64_round (val (d_sub x m') * val (d_sub x m))) < bpow radix2 1024) by (apply (round_square _ 4.1 3); [change (IZR (Zpower radix2 3)) with 8; lra | lia | exact P]).
    destruct (mul_ok _ _ Fa Fb L) as [F V]. fold (val (d_mul (d_sub x m') (d_sub x m))) (val (d_sub x m')) (val (d_sub x m)) in V.
    assert (R := round_err _ _ P). rewrite <- V in R.
    assert (D : Rabs (val x - M') <= 2 * B) by (apply Rabs_le_inv in Bx; apply Rabs_le_inv in BM; apply Rabs_le; lra).
    assert (C := close_mult _ _ _ _ _ _ _ _ Ea Eb D Bb). assert (X := close_trans _ _ _ _ _ R C).
    assert (uW' : roundoff * W <= / 1000000 * W) by (apply Rmult_le_compat_r; lra).
    split; [exact F |]. split; [apply Rabs_le_inv in R; apply Rabs_le_inv in P; apply Rabs_le; lra |].
    eapply Rle_trans; [exact X |]. assert (e0 : 0 <= e) by (eapply Rle_trans; [apply Rabs_pos | exact E]).
    assert (0 <= B * e) by nra. unfold W in *. nra.
  Qed.

  Lemma r_mean_close0 N M xs : (1 <= M)%nat -> (1 <= N)%nat -> Few xs -> Within B xs -> forall s, rolling N M xs s ->
    finite (r_mean s) /\ Rabs (val (r_mean s) - ExactMean (LastN N xs)) <= 8 * INR (length xs) * (roundoff * B) /\ Rabs (ExactMean (LastN N xs)) <= B.
  Proof.
    intros HM HN L WB s E. destruct xs as [|x xs].
    - injection E as <-. assert (M0 : r_mean (roll_init DoubleN d_zero) = d_zero) by (apply B2SF_inj; vm_compute; reflexivity). rewrite M0.
      split; [reflexivity |]. assert (X : ExactMean (LastN N []) = 0) by (unfold ExactMean, ExactSum, LastN; cbn; unfold Rdiv; apply Rmult_0_l). rewrite X.
      change (val d_zero) with 0. rewrite Rminus_0_r, Rabs_R0. cbn [length INR]. lra.
    - destruct (r_mean_close k ltac:(lia) N M (x :: xs) HM HN L WB ltac:(discriminate) s E) as [F C]. split; [exact F |]. split; [exact C |].
      apply exact_mean_le; [apply LastN_nonempty; [exact HN | discriminate] | apply LastN_Forall; exact WB].
  Qed.
  Lemma r_ss_close N M xs : (1 <= M)%nat -> (1 <= N)%nat -> Few xs -> Within B xs -> forall s, rolling N M xs s ->
    finite (r_ss s) /\ Rabs (val (r_ss s) - SS (LastN N xs)) <= 110 * (INR (length xs) * INR (length xs)) * (roundoff * W).
  Proof.
    intros HM HN. induction xs as [|x xs IH] using rev_ind; intros L WB s E.
    { injection E as <-. assert (M0 : r_ss (roll_init DoubleN d_zero) = d_zero) by (apply B2SF_inj; vm_compute; reflexivity). rewrite M0.
      split; [reflexivity |]. assert (X : SS (LastN N []) = 0) by (unfold SS, S2, LastN; cbn; ring). rewrite X. change (val d_zero) with 0. rewrite Rminus_0_r, Rabs_R0. cbn [length INR]. lra. }
    destruct (r_mean_close0 N M (xs ++ [x]) HM HN L WB s E) as (Fm' & Em' & BM').
    assert (Nu' := few_samples _ L). assert (WB0 := WB). apply Forall_app in WB as [WB Wx]. inversion Wx as [|? ? [Fx Bx] _]; subst.
    assert (L' : Few xs) by (unfold Few in *; rewrite app_length in L; cbn [length] in L; lia).
    rewrite app_length in *. cbn [length] in *. rewrite plus_INR in *. change (INR 1) with 1 in *.
    destruct (roll_var_step DoubleN N M d_zero xs x s HM E) as (r & Er & S). cbv zeta in S. change (ro_mean DoubleN) with r_mean in S. change (car DoubleN) with double in S.
    destruct (r_mean_close0 N M xs HM HN L' WB r Er) as (Fm & Em & BM). destruct (IH L' WB r Er) as [Fv Ev]. clear IH.
    change (snd (ro_var DoubleN r)) with (r_ss r) in S. change (snd (ro_var DoubleN s)) with (r_ss s) in S.
    assert (VW := SS_within B _ (LastN_Forall _ N xs WB)). fold W in VW. assert (LL := LastN_length N xs).
    assert (VW' := SS_within B _ (LastN_Forall _ N (xs ++ [x]) WB0)).
    assert (cn : INR (length (LastN N xs)) <= INR (length xs)) by (apply le_INR; lia).
    assert (n0 := pos_INR (length xs)). assert (n40 : INR (length xs) <= bpow radix2 40) by (rewrite INR_IZR_INZ, <- IZR_Zpower by lia; apply IZR_le; exact L').
    change (bpow radix2 40) with 1099511627776 in n40. set (n := INR (length xs)) in *.
    set (w := LastN N xs) in *. set (w' := LastN N (xs ++ [x])) in *. set (m := r_mean r) in *. set (m' := r_mean s) in *. set (v := r_ss r) in *.
    assert (uB : 0 < roundoff * B) by nra.
    set (e := 8 * (n + 1) * (roundoff * B)) in *.
    assert (e1 : e <= / 1024 * B) by (unfold e; replace (8 * (n + 1) * (roundoff * B)) with (8 * ((n + 1) * roundoff) * B) by ring; apply Rmult_le_compat_r; lra).
    assert (Eme : Rabs (val m - ExactMean w) <= e) by (eapply Rle_trans; [exact Em |]; unfold e; nra).
    assert (Bm : Rabs (val m) <= 1.01 * B) by (assert (H := close_bound _ _ _ _ Eme BM); lra).
    assert (Bm' : Rabs (val m') <= 1.01 * B) by (assert (H := close_bound _ _ _ _ Em' BM'); lra).
    assert (Be : B * e = 8 * (n + 1) * (roundoff * W)) by (unfold e, W; ring).
    destruct (product_close x m m' _ _ e Fx Fm Fm' Bx Bm Bm' BM' Eme Em') as (Fp & Bp & Ep). cbv zeta in *. rewrite Be in Ep.
    set (p := d_mul (d_sub x m') (d_sub x m)) in *.
    assert (nuW : 0 <= n * (roundoff * W)) by nra.
    assert (En : 110 * (n * n) * (roundoff * W) <= 0.02 * (n * W)).
    { replace (110 * (n * n) * (roundoff * W)) with (110 * (n * roundoff) * (n * W)) by ring. apply Rmult_le_compat_r; [nra |]. lra. }
    assert (cW : INR (length w) * W <= n * W) by (apply Rmult_le_compat_r; lra).
    assert (B1 : Rabs (val v + val p) <= (1.02 * n + 4.2) * W) by (apply Rabs_le_inv in Ev; apply Rabs_le_inv in Bp; apply Rabs_le; lra).
    assert (L1 : Rabs (b64_round (val v + val p)) < bpow radix2 1024) by (apply (round_square _ (1.02 * n + 4.2) 50); [change (IZR (Zpower radix2 50)) with 1125899906842624; lra | lia | exact B1]).
    destruct (add_ok v p Fv Fp L1) as [F1 V1]. fold (val (d_add v p)) (val v) (val p) in V1. assert (R1 := round_err _ _ B1). rewrite <- V1 in R1.
    set (P := (val x - ExactMean w') * (val x - ExactMean w)) in *.
    assert (E1 : Rabs (val (d_add v p) - (SS w + P)) <= 110 * (n * n) * (roundoff * W) + 52 * (n + 1) * (roundoff * W)).
    { apply Rabs_le_inv in R1. apply Rabs_le_inv in Ev. apply Rabs_le_inv in Ep. apply Rabs_le. nra. }
    replace (110 * ((n + 1) * (n + 1)) * (roundoff * W)) with (110 * (n * n) * (roundoff * W) + (220 * n + 110) * (roundoff * W)) by ring.
    destruct S as [(y & Ey & Ly & _ & Sv) | (Lt & _ & Sv)].
    - assert (Y : finite y /\ Rabs (val y) <= B).
      { assert (I : In y (w ++ [x])) by (rewrite Ey; left; reflexivity). apply in_app_or in I as [I | [<- | []]]; [| split; assumption].
        exact (proj1 (Forall_forall _ _) (LastN_Forall _ N xs WB) y I). }
      destruct Y as [Fy By].
      destruct (product_close y m m' _ _ e Fy Fm Fm' By Bm Bm' BM' Eme Em') as (Fq & Bq & Eq). cbv zeta in *. rewrite Be in Eq.
      set (q := d_mul (d_sub y m') (d_sub y m)) in *. set (Q := (val y - ExactMean w') * (val y - ExactMean w)) in *.
      assert (uWs : roundoff * W <= / 1000000 * W) by (apply Rmult_le_compat_r; lra).
      assert (B2 : Rabs (val (d_add v p) - val q) <= (1.03 * n + 8.5) * W).
      { apply Rabs_le_inv in R1. apply Rabs_le_inv in B1. apply Rabs_le_inv in Bq. assert (roundoff * ((1.02 * n + 4.2) * W) <= / 1000000 * ((1.02 * n + 4.2) * W)) by (apply Rmult_le_compat_r; nra). apply Rabs_le. nra. }
      assert (L2 : Rabs (b64_round (val (d_add v p) - val q)) < bpow radix2 1024) by (apply (round_square _ (1.03 * n + 8.5) 50); [change (IZR (Zpower radix2 50)) with 1125899906842624; lra | lia | exact B2]).
      destruct (sub_ok (d_add v p) q F1 Fq L2) as [F2 V2]. fold (val (d_sub (d_add v p) q)) (val (d_add v p)) (val q) in V2. assert (R2 := round_err _ _ B2). rewrite <- V2 in R2.
      assert (X : SS w' = SS w + P - Q).
      { unfold P, Q. apply SS_roll; [rewrite Ly; exact HN | rewrite Ly; unfold w'; rewrite LastN_length, app_length; cbn [length]; rewrite LL in Ly; lia | exact Ey]. }
      assert (E2 : Rabs (val (d_sub (d_add v p) q) - SS w') <= 110 * (n * n) * (roundoff * W) + (220 * n + 110) * (roundoff * W)).
      { rewrite X. apply Rabs_le_inv in R2. apply Rabs_le_inv in E1. apply Rabs_le_inv in Eq. apply Rabs_le. nra. }
      assert (Sv' : r_ss s = prevent_underflow DoubleN (d_sub (d_add v p) q)) by exact Sv. rewrite Sv'. unfold prevent_underflow. cbn [ltb zero DoubleN].
      destruct (d_lt (d_sub (d_add v p) q) d_zero) eqn:Lz; [| split; assumption].
      apply (lt_true _ d_zero F2 eq_refl) in Lz. change (B2R d_zero) with 0 in Lz. fold (val (d_sub (d_add v p) q)) in Lz. split; [reflexivity |].
      change (val d_zero) with 0. destruct VW' as [VP _]. apply Rabs_le_inv in E2. apply Rabs_le. lra.
    - assert (Sv' : r_ss s = d_add v p) by exact Sv. rewrite Sv'. split; [exact F1 |].
      assert (Ew : w = xs) by (unfold w, LastN; replace (length xs - N)%nat with 0%nat by lia; reflexivity).
      assert (Ew' : w' = xs ++ [x]) by (unfold w', LastN; rewrite app_length; cbn [length]; replace (length xs + 1 - N)%nat with 0%nat by lia; reflexivity).
      assert (X : SS w' = SS w + P) by (unfold P; rewrite Ew, Ew'; apply SS_fill). rewrite X.
      eapply Rle_trans; [exact E1 |]. nra.
  Qed.
End Step.

Lemma rolling_variance_accurate N M k xs : (1 <= M)%nat -> (2 <= N)%nat -> (2 <= length xs)%nat -> Few xs -> (-450 <= k <= 450)%Z -> Within (powerRZ 2 k) xs ->
  exists s, rolling N M xs s /\ finite (r_variance N s) /\
    Rabs (val (r_variance N s) - ExactSampleVariance (LastN N xs)) <= 120 * (INR (length xs) * INR (length xs) / INR (length (LastN N xs) - 1)) * roundoff * powerRZ 2 (k + k).
Proof.
  intros HM HN L2 L K WB. rewrite <- !(bpow_powerRZ radix2) in *. destruct (roll_run_total DoubleN N M d_zero xs HM) as [s E]. exists s. split; [exact E |].
  destruct (r_ss_close k K N M xs HM ltac:(lia) L WB s E) as [F C]. rewrite <- bpow_plus in C.
  assert (VW := SS_within _ _ (LastN_Forall _ N xs WB)). rewrite <- bpow_plus in VW.
  assert (LL := LastN_length N xs). assert (PW := bpow_gt_0 radix2 (k + k)). set (W := bpow radix2 (k + k)) in *. assert (Hu := roundoff_small).
  unfold r_variance, ro_variance, rolling_variance_result. rewrite (run_count N M xs HM s E). destruct (Nat.ltb_spec (Nat.min (length xs) N) 2) as [H|_]; [lia |].
  change (snd (ro_var DoubleN s)) with (r_ss s). rewrite <- LL. set (w := LastN N xs) in *. set (c := length w) in *.
  assert (c2 : (2 <= c)%nat) by (unfold c; lia). assert (Hc : INR c = INR (c - 1) + 1) by (rewrite <- S_INR; f_equal; lia).
  assert (d1 : 1 <= INR (c - 1)) by (apply one_le_nat; lia). assert (cn : INR c <= INR (length xs)) by (apply le_INR; unfold c; lia).
  assert (XV : ExactSampleVariance w = SS w / INR (c - 1)).
  { unfold ExactSampleVariance, SampleVariance. cbn [div RN]. rewrite R_ofnat, map_length. fold c. f_equal. rewrite SS_deviations. fold (vals w). rewrite Mean_vals. reflexivity. }
  rewrite XV. destruct (ofnat_exact (c - 1)) as [Fn En]; [unfold Few in L; unfold c; lia |].
  set (d := INR (c - 1)) in *. set (n := INR (length xs)) in *. set (v := r_ss s) in *. assert (Nu := few_samples _ L). fold n in Nu.
  set (q := n * n / d). assert (dn : d <= n) by lra.
  assert (Eq : q * d = n * n) by (unfold q; field; lra). assert (qn : n <= q) by (apply Rmult_le_reg_r with d; [lra |]; rewrite Eq; nra).
  assert (Q1 : Rabs (val v / d - SS w / d) <= 110 * q * (roundoff * W)).
  { replace (val v / d - SS w / d) with ((val v - SS w) * / d) by (field; lra). rewrite Rabs_mult, (Rabs_pos_eq (/ d)) by (left; apply Rinv_0_lt_compat; lra).
    apply Rmult_le_reg_r with d; [lra |]. rewrite Rmult_assoc, Rinv_l, Rmult_1_r by lra. replace (110 * q * (roundoff * W) * d) with (110 * (q * d) * (roundoff * W)) by ring. rewrite Eq. exact C. }
  assert (Q2 : 0 <= SS w / d <= 2 * W).
  { split; [apply Rmult_le_pos; [lra | left; apply Rinv_0_lt_compat; lra] |]. apply Rmult_le_reg_r with d; [lra |]. unfold Rdiv. rewrite Rmult_assoc, Rinv_l, Rmult_1_r by lra. nra. }
  assert (n2 : 2 <= n) by (unfold n; replace 2 with (INR 2) by reflexivity; apply le_INR; exact L2).
  assert (T : 1000 * tiny <= roundoff * W) by (apply tiny_low; lia).
  assert (uW : 0 < roundoff * W) by nra.
  assert (n40 : n <= 1099511627776) by (unfold n; rewrite INR_IZR_INZ; apply IZR_le; exact L).
  assert (qs : q * roundoff <= 134217728).
  { unfold q. apply Rmult_le_reg_r with d; [lra |]. replace (n * n / d * roundoff * d) with (n * (n * roundoff)) by (field; lra). nra. }
  assert (Q3 : Rabs (val v / d) <= 2 * W + 110 * (q * roundoff) * W) by (apply Rabs_le_inv in Q1; apply Rabs_le; nra).
  assert (Q4 : Rabs (val v / d) <= bpow radix2 (40 + (k + k))) by (rewrite bpow_plus; fold W; change (bpow radix2 40) with 1099511627776; nra).
  assert (R : Rabs (b64_round (val v / d)) <= bpow radix2 (40 + (k + k))) by (apply round_abs; [apply generic_format_bpow; unfold FLT_exp; lia | exact Q4]).
  destruct (div_ok v (ofnat DoubleN (c - 1))) as [F' V]; [rewrite En; lra | exact F | rewrite En; eapply Rle_lt_trans; [exact R | apply bpow_lt; lia] |].
  rewrite En in V. split; [exact F' |]. change (div DoubleN) with d_div. unfold val at 1. rewrite V. fold (val v) d.
  assert (N1 := near_le roundoff tiny _ _ _ ltac:(lra) (round_near (val v / d)) Q3).
  assert (us : roundoff <= / 1000000) by (unfold roundoff; apply Rinv_le; [lra |]; apply Rle_trans with (2 ^ 20); [lra | apply Rle_pow; [lra | lia]]).
  assert (D := close_trans _ _ _ _ _ N1 Q1). eapply Rle_trans; [exact D |].
  assert (Z1 : roundoff * (110 * (q * roundoff) * W) <= / 1000 * (q * (roundoff * W))).
  { replace (roundoff * (110 * (q * roundoff) * W)) with (110 * roundoff * (q * (roundoff * W))) by ring. apply Rmult_le_compat_r; [apply Rmult_le_pos; lra | lra]. }
  assert (Z2 : 2 * (roundoff * W) <= q * (roundoff * W)) by (apply Rmult_le_compat_r; lra).
  replace (120 * q * roundoff * W) with (120 * (q * (roundoff * W))) by ring. nra.
Qed.

(** ** Examples *)
Lemma filling_ok : exists s, rolling 3 2 [big1; big2; tenth] s.
Proof. apply roll_run_total. lia. Qed.
Lemma rolling_three_ok : (2 <= length [big1; big2; tenth])%nat /\ length (LastN 2 [big1; big2; tenth]) = 2%nat /\ Few [big1; big2; tenth] /\ (-450 <= 28 <= 450)%Z /\ Within (powerRZ 2 28) [big1; big2; tenth].
Proof. destruct three_moments_ok as (L & _ & V). split; [cbn; lia |]. split; [reflexivity |]. split; [exact L |]. split; [lia | exact V]. Qed.
