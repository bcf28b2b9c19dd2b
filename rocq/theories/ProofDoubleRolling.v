(** The accuracy of rolling means and rolling moments of doubles. *)
From Coq Require Import ZArith List Bool Reals Lra Lia Arith Psatz.
From Flocq Require Import Core IEEE754.BinarySingleNaN.
From Verif Require Import Num NumFacts ModelBasic ModelRolling ModelRounding ModelDouble SpecStats SpecRolling SpecDouble SpecDoubleVariance SpecDoubleMoment ProofBasic ProofBasic2 ProofRolling ProofKahan ProofDouble ProofDouble2 ProofDouble3 ProofDouble4 ProofDouble5 ProofDoubleEx
  ProofDoubleVariance ProofDoubleVariance2 ProofDoubleVariance3 ProofDoubleVariance4 ProofDoubleMoment ProofDoubleMoment2.
Import ListNotations.
Local Open Scope R_scope.

(** ** The default rolling mean *)
Section Step.
  Variable k : Z.
  Hypothesis K : (-900 <= k <= 900)%Z.
  Let B := bpow radix2 k.
  Let PB : 0 < B. Proof. apply bpow_gt_0. Qed.
  Let Hu := roundoff_small.
  Let T : 1000 * tiny <= roundoff * B. Proof. apply tiny_low. lia. Qed.

  (** A rounded value within a few times [B]. *)
  Lemma round_few r c j : c <= IZR (Zpower radix2 j) -> (0 <= j <= 60)%Z -> Rabs r <= c * B ->
    Rabs (b64_round r) < bpow radix2 1024 /\ Rabs (b64_round r - r) <= (c + / 1000) * (roundoff * B).
  Proof.
    intros C J R. assert (C' : Rabs r <= bpow radix2 (j + k)).
    { rewrite bpow_plus, <- IZR_Zpower by lia. eapply Rle_trans; [exact R |]. apply Rmult_le_compat_r; [left; exact PB | exact C]. }
    split.
    - eapply Rle_lt_trans; [apply round_abs; [| exact C']; apply generic_format_bpow; unfold FLT_exp; lia | apply bpow_lt; lia].
    - assert (H := near_le roundoff tiny _ _ _ ltac:(lra) (round_near r) R). nra.
  Qed.
  Lemma quotient_few r c n : 1 <= n -> Rabs r <= c * B -> Rabs (r / n) <= c * B.
  Proof. intros H R. apply bound_div; assumption. Qed.

  (** [d = fl(p - q)], [e = fl(d / n)]. *)
  Lemma gap p q n : finite p -> finite q -> Rabs (val p - val q) <= 2.01 * B -> (1 <= n)%nat -> (Z.of_nat n <= 2 ^ 53)%Z ->
    finite (d_div (d_sub p q) (ofnat DoubleN n)) /\ Rabs (val (d_div (d_sub p q) (ofnat DoubleN n)) - (val p - val q) / INR n) <= 4.06 * (roundoff * B) /\
    Rabs (val (d_div (d_sub p q) (ofnat DoubleN n))) <= 2.07 * B.
  Proof.
    intros Fp Fq D N C. destruct (round_few _ 2.01 2 ltac:(change (IZR (Zpower radix2 2)) with 4; lra) ltac:(lia) D) as [L1 E1].
    destruct (sub_ok p q Fp Fq L1) as [F1 V1]. fold (val (d_sub p q)) (val p) (val q) in V1. rewrite <- V1 in E1.
    destruct (ofnat_exact n C) as [Fn En]. assert (n1 := one_le_nat n N).
    assert (uB : roundoff * B <= / 100 * B) by (apply Rmult_le_compat_r; lra).
    assert (D1 : Rabs (val (d_sub p q)) <= 2.04 * B) by (apply Rabs_le_inv in D; apply Rabs_le_inv in E1; apply Rabs_le; lra).
    assert (D2 := quotient_few _ _ _ n1 D1).
    destruct (round_few _ 2.04 2 ltac:(change (IZR (Zpower radix2 2)) with 4; lra) ltac:(lia) D2) as [L2 E2].
    destruct (div_ok (d_sub p q) (ofnat DoubleN n)) as [F2 V2]; [rewrite En; lra | exact F1 | rewrite En; exact L2 |].
    rewrite En in V2. split; [exact F2 |]. unfold val at 1 4. rewrite V2. fold (val (d_sub p q)).
    assert (Q := close_div _ _ _ (INR n) n1 E1). assert (X := close_trans _ _ _ _ _ E2 Q).
    assert (uB0 : 0 < roundoff * B) by nra. split; [lra |]. apply Rabs_le_inv in E2. apply Rabs_le_inv in D2. apply Rabs_le. lra.
  Qed.
  Lemma toward_close m a x n : finite m -> finite a -> finite x -> Rabs (val m) <= 1.01 * B -> Rabs (val a) <= 1.01 * B -> Rabs (val x) <= B ->
    (1 <= n)%nat -> (Z.of_nat n <= 2 ^ 53)%Z ->
    finite (toward DoubleN m a x n) /\ Rabs (val (toward DoubleN m a x n) - (val m + (val x - val a) / INR n)) <= 8 * (roundoff * B).
  Proof.
    intros Fm Fa Fx Bm Ba Bx N C. assert (n1 := one_le_nat n N). assert (uB : 0 < roundoff * B) by nra.
    unfold toward. cbn [ltb sub add div DoubleN]. destruct (d_lt x a) eqn:L1; [| destruct (d_lt a x) eqn:L2].
    - destruct (gap a x n Fa Fx) as (F & E & D); [apply Rabs_le_inv in Ba; apply Rabs_le_inv in Bx; apply Rabs_le; lra | exact N | exact C |].
      set (q := d_div (d_sub a x) (ofnat DoubleN n)) in *.
      assert (S : Rabs (val m - val q) <= 3.08 * B) by (apply Rabs_le_inv in Bm; apply Rabs_le_inv in D; apply Rabs_le; lra).
      destruct (round_few _ 3.08 2 ltac:(change (IZR (Zpower radix2 2)) with 4; lra) ltac:(lia) S) as [L E3].
      destruct (sub_ok m q Fm F L) as [F' V]. split; [exact F' |]. unfold val at 1. rewrite V. fold (val m) (val q).
      replace (val m + (val x - val a) / INR n) with (val m - (val a - val x) / INR n) by (field; lra).
      apply Rabs_le_inv in E. apply Rabs_le_inv in E3. apply Rabs_le. lra.
    - destruct (gap x a n Fx Fa) as (F & E & D); [apply Rabs_le_inv in Ba; apply Rabs_le_inv in Bx; apply Rabs_le; lra | exact N | exact C |].
      set (q := d_div (d_sub x a) (ofnat DoubleN n)) in *.
      assert (S : Rabs (val m + val q) <= 3.08 * B) by (apply Rabs_le_inv in Bm; apply Rabs_le_inv in D; apply Rabs_le; lra).
      destruct (round_few _ 3.08 2 ltac:(change (IZR (Zpower radix2 2)) with 4; lra) ltac:(lia) S) as [L E3].
      destruct (add_ok m q Fm F L) as [F' V]. split; [exact F' |]. unfold val at 1. rewrite V. fold (val m) (val q).
      apply Rabs_le_inv in E. apply Rabs_le_inv in E3. apply Rabs_le. lra.
    - apply (lt_false x a Fx Fa) in L1. apply (lt_false a x Fa Fx) in L2. split; [exact Fm |].
      assert (X : val x = val a) by (unfold val; lra). rewrite X. replace (val m - (val m + (val a - val a) / INR n)) with 0 by (field; lra). rewrite Rabs_R0. lra.
  Qed.

  Lemma exact_mean_within xs : xs <> [] -> Within B xs -> Rabs (ExactMean xs) <= B.
  Proof. apply exact_mean_le. Qed.

  Lemma r_mean_close N M xs : (1 <= M)%nat -> (1 <= N)%nat -> Few xs -> Within B xs -> xs <> [] -> forall s, rolling N M xs s ->
    finite (r_mean s) /\ Rabs (val (r_mean s) - ExactMean (LastN N xs)) <= 8 * INR (length xs) * (roundoff * B).
  Proof.
    intros HM HN. assert (uB : 0 < roundoff * B) by nra. induction xs as [|x xs IH] using rev_ind; intros L W NE s E; [congruence |]. clear NE.
    apply Forall_app in W as [W Wx]. inversion Wx as [|? ? [Fx Bx] _]; subst.
    assert (L' : Few xs) by (unfold Few in *; rewrite app_length in L; cbn [length] in L; lia).
    assert (Nu := few_samples _ L'). unfold Few in L, L'. rewrite app_length in *. cbn [length] in *.
    destruct (roll_var_step DoubleN N M d_zero xs x s HM E) as (r & Er & S). cbv zeta in S. change (ro_mean DoubleN) with r_mean in S. change (car DoubleN) with double in S.
    rewrite plus_INR. change (INR 1) with 1.
    destruct xs as [|z zs] eqn:Exs.
    - (* the first sample *)
      injection Er as <-. destruct S as [(y & Ey & Ly & _) | (_ & Sm & _)].
      { rewrite LastN_length in Ly. cbn in Ly. lia. }
      assert (M0 : r_mean (roll_init DoubleN d_zero) = d_zero) by (apply B2SF_inj; vm_compute; reflexivity). rewrite M0 in Sm.
      destruct (toward_close d_zero d_zero x 1 eq_refl eq_refl Fx) as [F C]; [change (val d_zero) with 0; rewrite Rabs_R0; lra | change (val d_zero) with 0; rewrite Rabs_R0; lra | exact Bx | lia | lia |].
      cbn [length] in Sm. rewrite Sm. split; [exact F |].
      assert (W1 : LastN N ([] ++ [x]) = [x]) by (unfold LastN; cbn [app length]; replace (1 - N)%nat with 0%nat by lia; reflexivity). rewrite W1.
      unfold ExactMean. cbn [length]. change (ExactSum [x]) with (val x + 0). change (val d_zero) with 0 in C. change (INR 1) with 1 in *. change (INR (length [])) with 0.
      change (INR 0) with 0. replace ((val x + 0) / 1) with (0 + (val x - 0) / 1) by (field). lra.
    - rewrite <- Exs in *. assert (NE : xs <> []) by (subst; discriminate). clear z zs Exs.
      destruct (IH L' W NE r Er) as [Fm Em]. set (w := LastN N xs) in *.
      assert (NEw : w <> []) by (apply LastN_nonempty; assumption).
      assert (Bw := exact_mean_within w NEw (LastN_Forall _ N xs W)).
      assert (n0 := pos_INR (length xs)).
      assert (Bm : Rabs (val (r_mean r)) <= 1.01 * B).
      { assert (H := close_bound _ _ _ _ Em Bw). assert (8 * INR (length xs) * (roundoff * B) <= 8 * / 8192 * B) by (replace (8 * INR (length xs) * (roundoff * B)) with (8 * (INR (length xs) * roundoff) * B) by ring; apply Rmult_le_compat_r; lra). lra. }
      destruct S as [(y & Ey & Ly & Sm & _) | (Lt & Sm & _)]; rewrite Sm.
      + rewrite app_length in Sm |- *. cbn [length]. fold w in Ey, Ly. assert (Ln : (N <= length xs)%nat) by (unfold w in Ly; rewrite LastN_length in Ly; lia).
        replace (Nat.min (length xs + 1) N) with N by lia.
        assert (Y : finite y /\ Rabs (val y) <= B).
        { assert (I : In y (w ++ [x])) by (rewrite Ey; left; reflexivity). apply in_app_or in I as [I | [<- | []]]; [| split; assumption].
          exact (proj1 (Forall_forall _ _) (LastN_Forall _ N xs W) y I). }
        destruct Y as [Fy By].
        destruct (toward_close (r_mean r) y x N Fm Fy Fx Bm ltac:(lra) Bx HN ltac:(lia)) as [F C]. split; [exact F |].
        assert (X : ExactSum w + val x = val y + ExactSum (LastN N (xs ++ [x]))) by (rewrite <- exact_snoc, Ey; reflexivity).
        assert (Lw' : length (LastN N (xs ++ [x])) = N) by (rewrite LastN_length, app_length; cbn [length]; lia).
        assert (N1 := one_le_nat N HN).
        assert (X' : ExactMean (LastN N (xs ++ [x])) = ExactMean w + (val x - val y) / INR N).
        { unfold ExactMean. rewrite Lw', Ly. replace (ExactSum (LastN N (xs ++ [x]))) with (ExactSum w + val x - val y) by lra. field. lra. }
        rewrite X'. apply Rabs_le_inv in C. apply Rabs_le_inv in Em. apply Rabs_le. lra.
      + assert (C53 : (Z.of_nat (S (length xs)) <= 2 ^ 53)%Z) by lia.
        destruct (toward_close (r_mean r) (r_mean r) x (S (length xs)) Fm Fm Fx Bm Bm Bx ltac:(lia) C53) as [F C]. split; [exact F |].
        assert (Ew : w = xs) by (unfold w, LastN; replace (length xs - N)%nat with 0%nat by lia; reflexivity).
        assert (Ew' : LastN N (xs ++ [x]) = xs ++ [x]) by (unfold LastN; rewrite app_length; cbn [length]; replace (length xs + 1 - N)%nat with 0%nat by lia; reflexivity).
        rewrite Ew' in *. rewrite Ew in *. clear Ew' Ew w. assert (n1 := one_le xs NE). rewrite S_INR in C.
        unfold ExactMean in *. rewrite exact_snoc, app_length, plus_INR. change (INR (length [x])) with 1.
        set (n := INR (length xs)) in *. set (m := val (r_mean r)) in *. set (S := ExactSum xs) in *.
        replace (m + (val x - m) / (n + 1)) with ((m - S / n) * (n / (n + 1)) + (S + val x) / (n + 1)) in C by (field; lra).
        assert (P : Rabs ((m - S / n) * (n / (n + 1))) <= 8 * n * (roundoff * B)).
        { rewrite Rabs_mult. assert (Q : 0 <= n / (n + 1) <= 1).
          { split; [apply Rmult_le_pos; [lra | left; apply Rinv_0_lt_compat; lra] |]. apply Rmult_le_reg_r with (n + 1); [lra |]. unfold Rdiv. rewrite Rmult_assoc, Rinv_l; lra. }
          rewrite (Rabs_pos_eq (n / (n + 1))) by lra. assert (0 <= Rabs (m - S / n)) by apply Rabs_pos. nra. }
        apply Rabs_le_inv in C. apply Rabs_le_inv in P. apply Rabs_le. lra.
  Qed.
End Step.
Lemma rolling_mean_accurate N M k xs : (1 <= M)%nat -> (1 <= N)%nat -> Few xs -> xs <> [] -> (-900 <= k <= 900)%Z -> Within (powerRZ 2 k) xs ->
  exists s, rolling N M xs s /\ finite (r_mean s) /\ Rabs (val (r_mean s) - ExactMean (LastN N xs)) <= 8 * INR (length xs) * roundoff * powerRZ 2 k.
Proof.
  intros HM HN L NE K W. rewrite <- (bpow_powerRZ radix2) in *. destruct (roll_run_total DoubleN N M d_zero xs HM) as [s E]. exists s. split; [exact E |].
  rewrite Rmult_assoc. exact (r_mean_close k K N M xs HM HN L W NE s E).
Qed.
