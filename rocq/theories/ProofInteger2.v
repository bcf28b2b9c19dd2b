(** Floating results and rolling windows over integer samples: lemmas behind C52. *)
From Coq Require Import List ZArith Bool Lia Field.
From Verif Require Import Num NumFacts ModelPSquare ModelMinMax ModelBasic ModelRolling ModelNumeric ModelInteger
  SpecStats SpecInteger SpecRolling ProofBasic ProofBasic2 ProofRolling ProofNumeric ProofInteger.
Import ListNotations.
Open Scope Z_scope.

(** ** rolling sums in the integer type *)
Section Windows.
Variable T : itype.
Hypothesis HW : StandardWidth T.
Let Hpos : 1 <= bits T := width_pos T HW.
Notation Rep := (Representable T).
Notation Wide := (signed T = true /\ 32 <= bits T).

Lemma LastN_in {A} (P : A -> Prop) N xs : Forall P xs -> Forall P (LastN N xs).
Proof. intros H. unfold LastN. rewrite <- (firstn_skipn (length xs - N) xs) in H. apply Forall_app in H. tauto. Qed.
Lemma LastN_nil {A} N : LastN N (@nil A) = [].
Proof. reflexivity. Qed.
(** the window before [x] arrives, without its oldest element once it is full *)
Lemma LastN_pred {A} N (xs : list A) y t : LastN N xs = y :: t -> length (LastN N xs) = N -> LastN (N - 1) xs = t.
Proof.
  intros E HL. rewrite LastN_length in HL. unfold LastN in *.
  destruct N as [|N]; [rewrite Nat.sub_0_r, skipn_all in E; discriminate|].
  replace (length xs - (S N - 1))%nat with (1 + (length xs - S N))%nat by lia.
  rewrite <- skipn_skipn'. rewrite E. reflexivity.
Qed.
Lemma LastN_all {A} N (xs : list A) : (length xs <= N)%nat -> LastN N xs = xs.
Proof. intros H. unfold LastN. replace (length xs - N)%nat with 0%nat by lia. reflexivity. Qed.

Lemma rolling_run_snoc N xs x : int_rolling_sum_run T N (xs ++ [x]) = int_rolling_sum_push T N (int_rolling_sum_run T N xs) x.
Proof. unfold int_rolling_sum_run. rewrite fold_left_app. reflexivity. Qed.

Lemma rolling_sum_wraps N xs : Wrapping T -> Forall Rep xs ->
  int_rolling_sum_run T N xs = Ok (LastN (N + 1) xs, conv T (Sum (LastN N xs))).
Proof.
  intros Hw. induction xs as [|x xs IH] using rev_ind; intros HF.
  - cbn. rewrite conv_id; [reflexivity | exact Hpos | apply rep_small; exact HW].
  - apply Forall_app in HF as [HF Hx]. assert (Hx' := Forall_inv Hx).
    rewrite rolling_run_snoc, (IH HF). unfold int_rolling_sum_push. cbn [obnd fst snd].
    rewrite buf_push. unfold int_rolling_sum_op.
    destruct (window_step N xs x) as (EB & [(Hfull & Hl & Hl' & y & Ey) | (Hfull & Ew & Hl)]); cbv zeta in *.
    + rewrite Hfull, Ey. cbn [obnd].
      assert (Hy : Rep y).
      { assert (H : Forall Rep (y :: LastN N (xs ++ [x]))).
        { rewrite <- Ey. apply LastN_in. apply Forall_app. split; assumption. }
        exact (Forall_inv H). }
      rewrite store_wraps; auto using conv_rep.
      2:{ intros Hb. apply (narrow_sub T); auto using conv_rep. }
      cbn [obnd]. rewrite store_wraps; auto using conv_rep.
      2:{ intros Hb. apply (narrow_add T); auto using conv_rep. }
      cbn [obnd]. rewrite conv_sub, conv_add by exact Hpos. do 3 f_equal.
      assert (E : Sum (LastN N xs ++ [x]) = Sum (y :: LastN N (xs ++ [x]))) by now rewrite <- EB, Ey.
      rewrite Sum_snoc in E. cbn [Sum fold_right] in E. unfold Sum in *. cbn [fold_right] in E. lia.
    + rewrite Hfull. cbn [obnd]. rewrite store_wraps; auto using conv_rep.
      2:{ intros Hb. apply (narrow_add T); auto using conv_rep. }
      cbn [obnd]. rewrite conv_add by exact Hpos. now rewrite Ew, Sum_snoc.
Qed.

Lemma rolling_fits_dec N xs : {RollingFits T N xs} + {~ RollingFits T N xs}.
Proof.
  apply prefix_dec. intros l. destruct (fits_dec T (Sum (LastN N l))) as [a|a]; [|right; tauto].
  destruct (fits_dec T (Sum (LastN (N - 1) (removelast l)))); [left | right]; tauto.
Qed.
Lemma rolling_fits_last N xs : RollingFits T N xs -> Rep (Sum (LastN N xs)).
Proof.
  intros H. destruct xs as [|x xs] using rev_ind; [rewrite LastN_nil; apply rep_small; exact HW|].
  apply prefix_snoc in H. tauto.
Qed.
Lemma rolling_step_value N xs x : (1 <= N)%nat -> Forall Rep xs -> Rep x -> Rep (Sum (LastN N xs)) ->
  int_rolling_sum_op T N (LastN (N + 1) (xs ++ [x])) (Sum (LastN N xs)) x
  = obnd (if rwp1_full N (LastN (N + 1) (xs ++ [x])) then
            store T (arith T T Z.sub (Sum (LastN N xs)) (Sum (LastN N xs) - Sum (LastN (N - 1) xs)))
          else Ok (Sum (LastN N xs)))
      (fun s => store T (arith T T Z.add s x))
  /\ Sum (LastN N (xs ++ [x])) = (if rwp1_full N (LastN (N + 1) (xs ++ [x])) then Sum (LastN (N - 1) xs) else Sum (LastN N xs)) + x
  /\ (rwp1_full N (LastN (N + 1) (xs ++ [x])) = true -> Rep (Sum (LastN N xs) - Sum (LastN (N - 1) xs)))
  /\ (rwp1_full N (LastN (N + 1) (xs ++ [x])) = false -> LastN (N - 1) xs = LastN N xs).
Proof.
  intros HN HF Hx HS. unfold int_rolling_sum_op.
  destruct (window_step N xs x) as (EB & [(Hfull & Hl & Hl' & y & Ey) | (Hfull & Ew & Hl)]); cbv zeta in *.
  - rewrite Hfull, Ey. destruct (LastN N xs) as [|y' t] eqn:E; [cbn in Hl; lia|].
    assert (y' = y /\ LastN N (xs ++ [x]) = t ++ [x]) as [-> Et].
    { rewrite Ey in EB. cbn [app] in EB. injection EB as -> ->. split; reflexivity. }
    assert (Ep : LastN (N - 1) xs = t) by (apply (LastN_pred N xs y); [exact E | now rewrite E]).
    rewrite Ep. assert (Ey' : Sum (y :: t) - Sum t = y) by (unfold Sum; cbn [fold_right]; lia).
    rewrite Ey'. split; [reflexivity|]. split; [now rewrite Et, Sum_snoc|]. split; [|discriminate].
    intros _. assert (H := LastN_in Rep N xs HF). rewrite E in H. exact (Forall_inv H).
  - rewrite Hfull. split; [reflexivity|]. split; [now rewrite Ew, Sum_snoc|]. split; [discriminate|]. intros _.
    rewrite LastN_length in Hl. rewrite !LastN_all by lia. reflexivity.
Qed.
Lemma rolling_sum_exact N xs : (1 <= N)%nat -> Forall Rep xs -> RollingFits T N xs ->
  int_rolling_sum_run T N xs = Ok (LastN (N + 1) xs, Sum (LastN N xs)).
Proof.
  intros HN. induction xs as [|x xs IH] using rev_ind; intros HF HP; [reflexivity|].
  apply prefix_snoc in HP as [HP [H1 H2]]. rewrite removelast_last in H2.
  apply Forall_app in HF as [HF Hx]. assert (Hx' := Forall_inv Hx).
  rewrite rolling_run_snoc, (IH HF HP). unfold int_rolling_sum_push. cbn [obnd fst snd]. rewrite buf_push.
  destruct (rolling_step_value N xs x HN HF Hx' (rolling_fits_last N xs HP)) as (E & ES & Hd & He). rewrite E.
  rewrite ES in *. destruct (rwp1_full N _) eqn:EF.
  - rewrite (store_exact T Z.sub); auto using rolling_fits_last.
    2:{ match goal with |- Rep ?a => replace a with (Sum (LastN (N - 1) xs)) by lia end. exact H2. }
    cbn [obnd]. match goal with |- context [Z.add ?a x] => idtac end.
    replace (Sum (LastN N xs) - (Sum (LastN N xs) - Sum (LastN (N - 1) xs))) with (Sum (LastN (N - 1) xs)) by lia.
    rewrite (store_exact T Z.add) by auto. reflexivity.
  - cbn [obnd]. rewrite (store_exact T Z.add) by auto using rolling_fits_last. reflexivity.
Qed.
Lemma rolling_sum_overflow N xs : Wide -> (1 <= N)%nat -> Forall Rep xs -> ~ RollingFits T N xs ->
  int_rolling_sum_run T N xs = UB.
Proof.
  intros Hw HN. induction xs as [|x xs IH] using rev_ind; intros HF HP; [exfalso; apply HP, prefix_nil|].
  unfold RollingFits in HP. rewrite prefix_snoc, removelast_last in HP.
  apply Forall_app in HF as [HF Hx]. assert (Hx' := Forall_inv Hx).
  rewrite rolling_run_snoc. destruct (rolling_fits_dec N xs) as [D|D]; [|now rewrite IH].
  rewrite (rolling_sum_exact N xs HN HF D). unfold int_rolling_sum_push. cbn [obnd fst snd]. rewrite buf_push.
  destruct (rolling_step_value N xs x HN HF Hx' (rolling_fits_last N xs D)) as (E & ES & Hd & He). rewrite E.
  assert (HS := rolling_fits_last N xs D). fold (RollingFits T N xs) in HP.
  destruct (rwp1_full N _) eqn:EF.
  - destruct (fits_dec T (Sum (LastN (N - 1) xs))) as [F|F].
    + rewrite (store_exact T Z.sub); auto.
      2:{ match goal with |- Rep ?a => replace a with (Sum (LastN (N - 1) xs)) by lia end. exact F. }
      cbn [obnd].
      replace (Sum (LastN N xs) - (Sum (LastN N xs) - Sum (LastN (N - 1) xs))) with (Sum (LastN (N - 1) xs)) by lia.
      rewrite (store_overflow T Z.add); try tauto. rewrite <- ES. tauto.
    + rewrite (store_overflow T Z.sub); try tauto.
      match goal with |- ~ Rep ?a => replace a with (Sum (LastN (N - 1) xs)) by lia end. exact F.
  - cbn [obnd]. rewrite (store_overflow T Z.add); try tauto. rewrite <- ES. intros C.
    apply HP. split; [exact D|]. split; [exact C|]. rewrite He by reflexivity. exact HS.
Qed.
End Windows.

(** ** of_Z is a ring homomorphism *)
Section Float.
Variable K : Num.
Hypothesis HK : FieldLaws K.
Local Notation F := (car K).
Add Field KfieldI : (fl_field K HK).

Lemma of_Z_diff a b : of_Z K (Z.of_nat a - Z.of_nat b) = sub K (ofnat K a) (ofnat K b).
Proof.
  destruct (Nat.le_gt_cases b a) as [H|H].
  - replace (Z.of_nat a - Z.of_nat b) with (Z.of_nat (a - b)) by lia. rewrite of_Z_of_nat.
    replace (ofnat K a) with (ofnat K ((a - b) + b)) by (f_equal; lia). rewrite (ofnat_add K HK). ring.
  - destruct (b - a)%nat as [|d] eqn:E; [lia|].
    replace (Z.of_nat a - Z.of_nat b) with (Z.neg (Pos.of_succ_nat d)) by lia. cbn [of_Z].
    rewrite SuccNat2Pos.id_succ. replace b with (S d + a)%nat by lia. rewrite (ofnat_add K HK). ring.
Qed.
Lemma Z_diff z : exists a b, z = Z.of_nat a - Z.of_nat b.
Proof. destruct (Z_le_gt_dec 0 z); [exists (Z.to_nat z), O | exists O, (Z.to_nat (- z))]; lia. Qed.
Lemma of_Z_add x y : of_Z K (x + y) = add K (of_Z K x) (of_Z K y).
Proof.
  destruct (Z_diff x) as (a & b & ->). destruct (Z_diff y) as (c & d & ->).
  replace (Z.of_nat a - Z.of_nat b + (Z.of_nat c - Z.of_nat d)) with (Z.of_nat (a + c) - Z.of_nat (b + d)) by lia.
  rewrite !of_Z_diff, !(ofnat_add K HK). ring.
Qed.
Lemma of_Z_opp x : of_Z K (- x) = opp K (of_Z K x).
Proof.
  destruct (Z_diff x) as (a & b & ->).
  replace (- (Z.of_nat a - Z.of_nat b)) with (Z.of_nat b - Z.of_nat a) by lia. rewrite !of_Z_diff. ring.
Qed.
Lemma of_Z_sub x y : of_Z K (x - y) = sub K (of_Z K x) (of_Z K y).
Proof. unfold Z.sub. rewrite of_Z_add, of_Z_opp. ring. Qed.
Lemma of_Z_mul x y : of_Z K (x * y) = mul K (of_Z K x) (of_Z K y).
Proof.
  destruct (Z_diff x) as (a & b & ->). destruct (Z_diff y) as (c & d & ->).
  replace ((Z.of_nat a - Z.of_nat b) * (Z.of_nat c - Z.of_nat d))
    with (Z.of_nat (a * c + b * d) - Z.of_nat (a * d + b * c)) by lia.
  rewrite !of_Z_diff, !(ofnat_add K HK), !(ofnat_mul K HK). ring.
Qed.
Lemma of_Z_neq0 z : z <> 0 -> of_Z K z <> zero K.
Proof.
  intros Hz. destruct z as [|p|p]; [congruence| |]; cbn [of_Z]; destruct (Pos2Nat.is_succ p) as [n ->];
    intros E; apply (ofnat_S_neq0 K HK n); [exact E|].
  replace (ofnat K (S n)) with (opp K (opp K (ofnat K (S n)))) by ring. rewrite E. ring.
Qed.
Lemma of_Z_inj x y : of_Z K x = of_Z K y -> x = y.
Proof.
  intros E. destruct (Z.eq_dec (x - y) 0) as [e|e]; [lia|]. exfalso. apply (of_Z_neq0 (x - y) e).
  rewrite of_Z_sub, E. ring.
Qed.
Lemma of_Z_pow x n : of_Z K (x ^ Z.of_nat n) = power K (of_Z K x) n.
Proof.
  induction n as [|n IH]; [change (ofnat K 1 = one K); cbn [ofnat]; ring|]. rewrite Nat2Z.inj_succ, Z.pow_succ_r by lia.
  rewrite of_Z_mul, IH. reflexivity.
Qed.
Lemma of_Z_Sum xs : of_Z K (Sum xs) = total K (fun x => x) (map (of_Z K) xs).
Proof.
  induction xs as [|x xs IH]; [reflexivity|]. cbn [map]. rewrite (total_cons K). change (Sum (x :: xs)) with (x + Sum xs).
  now rewrite of_Z_add, IH.
Qed.
Lemma of_Z_SumOfPowers n xs : of_Z K (SumOfPowers n xs) = total K (fun x => power K x n) (map (of_Z K) xs).
Proof.
  induction xs as [|x xs IH]; [reflexivity|]. cbn [map]. rewrite (total_cons K).
  change (SumOfPowers n (x :: xs)) with (x ^ Z.of_nat n + SumOfPowers n xs).
  now rewrite of_Z_add, IH, of_Z_pow.
Qed.
Lemma fdiv_Mean s xs : s = Sum xs -> fdiv_int K s (Z.of_nat (length xs)) = Mean K (map (of_Z K) xs).
Proof. intros ->. unfold fdiv_int, Mean, average. now rewrite of_Z_Sum, of_Z_of_nat, map_length. Qed.
Lemma fdiv_Moment n s xs : s = SumOfPowers n xs -> fdiv_int K s (Z.of_nat (length xs)) = Moment K n (map (of_Z K) xs).
Proof. intros ->. unfold fdiv_int, Moment, average. now rewrite of_Z_SumOfPowers, of_Z_of_nat, map_length. Qed.
Lemma fdiv_Mean_iff s xs : xs <> [] -> (fdiv_int K s (Z.of_nat (length xs)) = Mean K (map (of_Z K) xs) <-> s = Sum xs).
Proof.
  intros Hne. split; [|apply fdiv_Mean]. intros E. apply of_Z_inj.
  unfold fdiv_int, Mean, average in E. rewrite of_Z_of_nat, map_length, <- of_Z_Sum in E.
  assert (Hn : ofnat K (length xs) <> zero K) by (destruct xs; [contradiction | apply (ofnat_S_neq0 K HK)]).
  assert (H : forall a, a = mul K (div K a (ofnat K (length xs))) (ofnat K (length xs))) by (intros; field; exact Hn).
  rewrite (H (of_Z K s)), E. symmetry. apply H.
Qed.
End Float.
