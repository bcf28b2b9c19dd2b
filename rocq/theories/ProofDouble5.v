(** Rolling statistics of doubles. *)
From Coq Require Import ZArith List Bool Reals Lra Lia Arith.
From Flocq Require Import Core IEEE754.BinarySingleNaN.
From Verif Require Import Num NumFacts ModelBasic ModelRolling ModelRounding ModelDouble SpecStats SpecRolling SpecDouble
  ProofBasic ProofRolling ProofKahan ProofDouble ProofDouble2 ProofDouble3 ProofDouble4.
Import ListNotations.
Local Open Scope R_scope.

Section AnyNumbers.
  Context (K : Num).
  Lemma npow_fuel_total x f : forall n, (1 <= n)%nat -> (n <= f)%nat -> exists p, npow_fuel K f x n = Some p.
  Proof.
    induction f as [|f IH]; intros n H1 H2; [lia |]. cbn [npow_fuel]. destruct (Nat.eqb_spec n 1); [eauto |].
    assert (B : (1 <= Nat.div n 2 <= f)%nat) by (split; [apply Nat.div_le_lower_bound; lia | apply Nat.div_le_upper_bound; lia]).
    destruct (IH (Nat.div n 2)) as [p ->]; [lia | lia |]. eauto.
  Qed.
  Lemma npow_total x n : (1 <= n)%nat -> exists p, npow K x n = Some p.
  Proof. intros H. apply npow_fuel_total; lia. Qed.
  Lemma moment_op_total M N buf sum x : (1 <= M)%nat -> buf <> [] -> exists p, rolling_moment_op K M N buf sum x = Some p.
  Proof.
    intros H B. unfold rolling_moment_op. destruct (npow_total x M H) as [p ->]. destruct buf as [|y buf]; [congruence |].
    destruct (npow_total y M H) as [q ->]. destruct (rwp1_full _ _); eauto.
  Qed.

  (** One more sample, whatever the arithmetic. *)
  Lemma roll_run_snoc N M s0 xs x : (1 <= M)%nat -> forall s', roll_run K N M s0 (xs ++ [x]) = Some s' ->
    exists s, roll_run K N M s0 xs = Some s /\ ro_buf K s' = rwp1_op N (ro_buf K s) x /\
      rolling_sum_op K N (ro_buf K s') (ro_sum K s) x = Some (ro_sum K s') /\
      immediate_rolling_mean_op K N (ro_buf K s') (ro_mean K s) x = Some (ro_mean K s') /\
      rolling_variance_op K N (ro_buf K s') (ro_var K s) (ro_mean K s') x = Some (ro_var K s').
  Proof.
    intros HM s' E. unfold roll_run in *. rewrite fold_left_app in E. cbn [fold_left] in E.
    destruct (fold_left _ xs _) as [s|]; [| discriminate E]. exists s. split; [reflexivity |].
    cbn [roll_push] in E. destruct (rolling_sum_op _ _ _ _ _) as [sum|] eqn:E1; [| discriminate E].
    destruct (rolling_moment_op _ M _ _ _ _); [| discriminate E]. destruct (rolling_moment_op _ 2 _ _ _ _); [| discriminate E].
    destruct (immediate_rolling_mean_op _ _ _ _ _) as [mean|] eqn:E2; [| discriminate E].
    destruct (rolling_variance_op _ _ _ _ _ _) as [var|] eqn:E3; [| discriminate E].
    injection E as <-. cbn [ro_buf ro_sum ro_mean ro_var]. auto.
  Qed.
  Lemma roll_run_buf N M s0 xs : (1 <= M)%nat -> forall s, roll_run K N M s0 xs = Some s -> ro_buf K s = LastN (N + 1) xs.
  Proof.
    intros HM. induction xs as [|x xs IH] using rev_ind; intros s E; [injection E as <-; reflexivity |].
    destruct (roll_run_snoc N M s0 xs x HM s E) as (r & Er & Eb & _). rewrite Eb, (IH r Er). apply buf_push.
  Qed.
  Lemma roll_run_total N M s0 xs : (1 <= M)%nat -> exists s, roll_run K N M s0 xs = Some s.
  Proof.
    intros HM. induction xs as [|x xs [s E]] using rev_ind; [eexists; reflexivity |].
    assert (B := roll_run_buf N M s0 xs HM s E). unfold roll_run in *. rewrite fold_left_app, E. cbn [fold_left roll_push]. rewrite B, buf_push.
    assert (NE : LastN (N + 1) (xs ++ [x]) <> []) by (apply LastN_nonempty; [lia | destruct xs; discriminate]).
    destruct (moment_op_total M N (LastN (N + 1) (xs ++ [x])) (ro_mom K s) x HM NE) as [m1 ->].
    destruct (moment_op_total 2 N (LastN (N + 1) (xs ++ [x])) (ro_mom2 K s) x ltac:(lia) NE) as [m2 ->].
    unfold rolling_sum_op, immediate_rolling_mean_op, rolling_variance_op. destruct (ro_var K s) as [p q].
    destruct (LastN (N + 1) (xs ++ [x])) as [|y t]; [congruence |]. destruct (rwp1_full _ _); eexists; reflexivity.
  Qed.
  (** The mean the variance remembers is the mean. *)
  Lemma roll_prev N M s0 xs : (1 <= M)%nat -> forall s, roll_run K N M s0 xs = Some s -> fst (ro_var K s) = ro_mean K s.
  Proof.
    intros HM. destruct xs as [|x xs _] using rev_ind; intros s E; [injection E as <-; reflexivity |].
    destruct (roll_run_snoc N M s0 xs x HM s E) as (r & _ & _ & _ & _ & E3). unfold rolling_variance_op in E3.
    destruct (ro_var K r) as [p q]. destruct (rwp1_full _ _); [destruct (ro_buf K s); [discriminate E3 |] |]; injection E3 as <-; reflexivity.
  Qed.
  (** The step of the sum in terms of the window. *)
  Lemma roll_sum_step N M s0 xs x s' : (1 <= M)%nat -> roll_run K N M s0 (xs ++ [x]) = Some s' -> exists s, roll_run K N M s0 xs = Some s /\
    ((exists y, LastN N xs ++ [x] = y :: LastN N (xs ++ [x]) /\ length (LastN N xs) = N /\ ro_sum K s' = add K (sub K (ro_sum K s) y) x)
     \/ (LastN N (xs ++ [x]) = LastN N xs ++ [x] /\ ro_sum K s' = add K (ro_sum K s) x)).
  Proof.
    intros HM E. destruct (roll_run_snoc N M s0 xs x HM s' E) as (s & Er & _ & E1 & _).
    exists s. split; [exact Er |]. rewrite (roll_run_buf N M s0 _ HM s' E) in E1. unfold rolling_sum_op in E1.
    destruct (window_step N xs x) as (EB & [(HF & Hl & Hl' & y & Ey) | (HF & Ew & Hl)]); cbv zeta in *; rewrite HF in E1.
    - left. rewrite Ey in E1. exists y. split; [rewrite <- EB; exact Ey |]. injection E1 as E1. auto.
    - right. split; [exact Ew |]. injection E1 as E1. auto.
  Qed.
  (** The step of the mean and of the sum of squares. *)
  Definition toward (mean a b : car K) (c : nat) : car K :=
    if ltb K b a then sub K mean (div K (sub K a b) (ofnat K c)) else if ltb K a b then add K mean (div K (sub K b a) (ofnat K c)) else mean.
  Lemma roll_var_step N M s0 xs x s' : (1 <= M)%nat -> roll_run K N M s0 (xs ++ [x]) = Some s' -> exists s, roll_run K N M s0 xs = Some s /\
    let m := ro_mean K s in let m' := ro_mean K s' in let v := snd (ro_var K s) in let v' := snd (ro_var K s') in
    ((exists y, LastN N xs ++ [x] = y :: LastN N (xs ++ [x]) /\ length (LastN N xs) = N /\ m' = toward m y x (Nat.min (length (xs ++ [x])) N) /\
        v' = prevent_underflow K (sub K (add K v (mul K (sub K x m') (sub K x m))) (mul K (sub K y m') (sub K y m))))
     \/ (length xs < N /\ m' = toward m m x (S (length xs)) /\ v' = add K v (mul K (sub K x m') (sub K x m))))%nat.
  Proof.
    intros HM E. destruct (roll_run_snoc N M s0 xs x HM s' E) as (s & Er & _ & _ & E2 & E3).
    exists s. split; [exact Er |]. assert (Ep := roll_prev N M s0 xs HM s Er). cbv zeta.
    rewrite (roll_run_buf N M s0 _ HM s' E) in E2, E3. unfold immediate_rolling_mean_op in E2. unfold rolling_variance_op in E3. rewrite count_of_buf in E2.
    destruct (ro_var K s) as [p q]. cbn [fst] in Ep. subst p. cbn [snd].
    destruct (window_step N xs x) as (EB & [(HF & Hl & Hl' & y & Ey) | (HF & Ew & Hl)]); cbv zeta in *; rewrite HF in E2, E3.
    - left. rewrite Ey in E2, E3. exists y. split; [rewrite <- EB; exact Ey |]. injection E2 as E2. split; [exact Hl |]. split; [symmetry; exact E2 |].
      injection E3 as E3. rewrite <- E3. reflexivity.
    - right. rewrite LastN_length in Hl. split; [lia |]. injection E2 as E2. injection E3 as E3. rewrite <- E3. split; [| reflexivity].
      rewrite <- E2. rewrite app_length. cbn [length]. replace (Nat.min (length xs + 1) N) with (S (length xs)) by lia. reflexivity.
  Qed.
End AnyNumbers.

(** ** Rolling sum *)
Definition r_ss (s : roll DoubleN) : double := snd (ro_var DoubleN s).

Lemma r_sum_step N M (xs : list double) (x : double) s' : (1 <= M)%nat -> rolling N M (xs ++ [x]) s' -> exists s, rolling N M xs s /\
  ((exists y, LastN N xs ++ [x] = y :: LastN N (xs ++ [x]) /\ length (LastN N xs) = N /\ r_sum s' = d_add (d_sub (r_sum s) y) x)
   \/ (LastN N (xs ++ [x]) = LastN N xs ++ [x] /\ r_sum s' = d_add (r_sum s) x)).
Proof. exact (roll_sum_step DoubleN N M d_zero xs x s'). Qed.

Lemma r_sum_finite_all N M xs : (1 <= M)%nat -> forall s, rolling N M xs s -> finite (r_sum s) -> Forall finite xs.
Proof.
  intros HM. induction xs as [|x xs IH] using rev_ind; intros s E F; [constructor |].
  destruct (r_sum_step N M xs x s HM E) as (r & Er & [(y & _ & _ & Es) | (_ & Es)]); rewrite Es in F; apply add_fin in F as (F1 & F2 & _).
  - apply sub_fin in F1 as (F1 & _). apply Forall_app. split; [apply (IH r Er F1) | repeat constructor; exact F2].
  - apply Forall_app. split; [apply (IH r Er F1) | repeat constructor; exact F2].
Qed.

Lemma LastN_Forall {A} (P : A -> Prop) N xs : Forall P xs -> Forall P (LastN N xs).
Proof.
  intros H. unfold LastN. rewrite <- (firstn_skipn (length xs - N) xs) in H. apply Forall_app in H. apply H.
Qed.
Lemma LastN_short {A} N (xs : list A) : (length (LastN N xs) <= N)%nat.
Proof. rewrite LastN_length. lia. Qed.
Lemma exact_bound b xs : Within b xs -> Rabs (ExactSum xs) <= INR (length xs) * b.
Proof.
  induction xs as [|x xs IH]; intros W; [unfold ExactSum; cbn; rewrite Rabs_R0; lra |].
  inversion W as [|? ? [_ Bx] W']; subst. change (ExactSum (x :: xs)) with (val x + ExactSum xs). cbn [length]. rewrite S_INR.
  rewrite Rmult_plus_distr_r, Rmult_1_l, Rplus_comm. apply Rabs_add_le; [apply IH; exact W' | exact Bx].
Qed.
Lemma exact_bound_N b N xs : 0 <= b -> Within b xs -> (length xs <= N)%nat -> Rabs (ExactSum xs) <= INR N * b.
Proof.
  intros B W L. eapply Rle_trans; [apply exact_bound; exact W |]. apply Rmult_le_compat_r; [exact B | apply le_INR; exact L].
Qed.
Lemma round_sub (x y : double) : exists d, Rabs d <= roundoff /\ b64_round (val x - val y) = (val x - val y) * (1 + d).
Proof. rewrite roundoff_is. apply (rm_sub _ _ _ b64_rounding); apply val_format. Qed.

(** One rounded operation on a value with error [E], towards an exact value of at most [T]. *)
Lemma drift_step (S T E s : R) d : 0 <= E -> Rabs d <= roundoff -> Rabs S <= T -> Rabs (s - S) <= E * T ->
  Rabs (s * (1 + d) - S) <= ((1 + E) * (1 + roundoff) - 1) * T.
Proof.
  intros HE Hd HS Hs. assert (A := step_bound S T E s 0 d 0 HE Hd HS). rewrite Rabs_R0, !Rplus_0_r, Rmult_0_l, !Rplus_0_r in A. apply A. exact Hs.
Qed.

Lemma r_sum_error b N M xs : (1 <= M)%nat -> (1 <= N)%nat -> 0 <= b -> Within b xs -> forall s, rolling N M xs s -> finite (r_sum s) ->
  Rabs (val (r_sum s) - ExactSum (LastN N xs)) <= ((1 + roundoff) ^ (2 * length xs) - 1) * (INR N * b).
Proof.
  intros HM HN Hb. assert (Hu := roundoff_small). induction xs as [|x xs IH] using rev_ind; intros W s E F.
  - injection E as <-. change (r_sum (roll_init DoubleN d_zero)) with d_zero. unfold ExactSum. cbn. rewrite Rminus_0_r, Rabs_R0. lra.
  - apply Forall_app in W as [W Wx]. inversion Wx as [|? ? [Fx Bx] _]; subst.
    rewrite app_length. cbn [length]. replace (2 * (length xs + 1))%nat with (S (S (2 * length xs))) by lia. cbn [pow].
    set (P := (1 + roundoff) ^ (2 * length xs)) in *. assert (P1 : 1 <= P) by apply pow_ge_1.
    set (T := INR N * b) in *. assert (T0 : 0 <= T) by (apply Rmult_le_pos; [apply pos_INR | exact Hb]).
    replace ((1 + roundoff) * ((1 + roundoff) * P) - 1) with ((1 + ((1 + (P - 1)) * (1 + roundoff) - 1)) * (1 + roundoff) - 1) by ring.
    assert (Ww : Within b (LastN N xs ++ [x])) by (apply Forall_app; split; [apply LastN_Forall; exact W | exact Wx]).
    assert (W'' : Within b (LastN N (xs ++ [x]))) by (apply LastN_Forall, Forall_app; split; assumption).
    destruct (r_sum_step N M xs x s HM E) as (r & Er & [(y & Ey & Lw & Es) | (Ew & Es)]); rewrite Es in F |- *; apply add_fin in F as (F1 & F2 & V2).
    + apply sub_fin in F1 as (F0 & _ & V1). specialize (IH W r Er F0).
      assert (X : ExactSum (LastN N xs) + val x = val y + ExactSum (LastN N (xs ++ [x]))) by (rewrite <- exact_snoc, Ey; reflexivity).
      set (w := LastN N xs) in *. set (w' := LastN N (xs ++ [x])) in *.
      unfold val at 1. rewrite V2. destruct (round_add (d_sub (r_sum r) y) x) as (d2 & D2 & R2). unfold val in R2. rewrite R2, V1.
      destruct (round_sub (r_sum r) y) as (d1 & D1 & R1). unfold val in R1. rewrite R1. fold (val (r_sum r)) (val y) (val x).
      assert (Bt : Rabs (ExactSum w - val y) <= T).
      { destruct w as [|z t]; [cbn in Lw; lia |]. injection Ey as Ez _. subst z. change (ExactSum (y :: t)) with (val y + ExactSum t).
        replace (val y + ExactSum t - val y) with (ExactSum t) by ring. apply exact_bound_N; [exact Hb | | cbn in Lw; lia].
        apply Forall_app in Ww as [Ww _]. inversion Ww; assumption. }
      apply drift_step; [nra | exact D2 | apply exact_bound_N; [exact Hb | exact W'' | apply LastN_short] |].
      replace ((val (r_sum r) - val y) * (1 + d1) + val x - ExactSum w') with ((val (r_sum r) - val y) * (1 + d1) - (ExactSum w - val y)) by lra.
      apply drift_step; [lra | exact D1 | exact Bt |].
      replace (val (r_sum r) - val y - (ExactSum w - val y)) with (val (r_sum r) - ExactSum w) by ring. exact IH.
    + specialize (IH W r Er F1). rewrite Ew in *. rewrite exact_snoc.
      unfold val at 1. rewrite V2. destruct (round_add (r_sum r) x) as (d2 & D2 & R2). unfold val in R2. rewrite R2. fold (val (r_sum r)) (val x).
      set (w := LastN N xs) in *.
      apply drift_step; [nra | exact D2 | |].
      * rewrite <- exact_snoc. apply exact_bound_N; [exact Hb | exact Ww |]. rewrite <- Ew. apply LastN_short.
      * replace (val (r_sum r) + val x - (ExactSum w + val x)) with (val (r_sum r) - ExactSum w) by ring.
        eapply Rle_trans; [exact IH |]. apply Rmult_le_compat_r; [exact T0 |]. nra.
Qed.

(** Integers: no error, for ever. *)
Lemma integer_sum b xs : Integers b xs -> exists z, ExactSum xs = IZR z /\ (Z.abs z <= Z.of_nat (length xs) * b)%Z.
Proof.
  induction 1 as [|x xs (F & z & E & B) _ (t & Et & Bt)]; [exists 0%Z; split; [reflexivity | cbn; lia] |].
  exists (z + t)%Z. change (ExactSum (x :: xs)) with (val x + ExactSum xs). rewrite plus_IZR, E, Et. split; [reflexivity |]. cbn [length]. lia.
Qed.
Lemma r_sum_integers b N M xs : (1 <= M)%nat -> (1 <= N)%nat -> (Z.of_nat N * b <= 2 ^ 53)%Z -> Integers b xs ->
  forall s, rolling N M xs s -> finite (r_sum s) /\ val (r_sum s) = ExactSum (LastN N xs).
Proof.
  intros HM HN Hb. induction xs as [|x xs IH] using rev_ind; intros W s E; [injection E as <-; split; reflexivity |].
  apply Forall_app in W as [W Wx]. inversion Wx as [|? ? (Fx & z & Ez & Bz) _]; subst.
  assert (Ww : Integers b (LastN N xs ++ [x])) by (apply Forall_app; split; [apply LastN_Forall; exact W | exact Wx]).
  assert (W'' : Integers b (LastN N (xs ++ [x]))) by (apply LastN_Forall, Forall_app; split; assumption).
  destruct (integer_sum b _ W'') as (t' & Et' & Bt'). assert (L' := LastN_short N (xs ++ [x])).
  assert (b0 : (0 <= b)%Z) by lia.
  destruct (r_sum_step N M xs x s HM E) as (r & Er & [(y & Ey & Lw & Es) | (Ew & Es)]); rewrite Es; destruct (IH W r Er) as [Fr Vr].
  - assert (X : ExactSum (LastN N xs) + val x = val y + ExactSum (LastN N (xs ++ [x]))) by (rewrite <- exact_snoc, Ey; reflexivity).
    set (w := LastN N xs) in *. set (w' := LastN N (xs ++ [x])) in *.
    assert (Y : finite y /\ exists u, ExactSum w - val y = IZR u /\ (Z.abs u <= Z.of_nat N * b)%Z).
    { destruct w as [|v t]; [cbn in Lw; lia |]. injection Ey as Ev _. subst v. apply Forall_app in Ww as [Ww _]. inversion Ww as [|? ? [Fy _] Wt]; subst.
      split; [exact Fy |]. destruct (integer_sum b t Wt) as (u & Eu & Bu). exists u. change (ExactSum (y :: t)) with (val y + ExactSum t).
      split; [lra |]. cbn [length]. nia. }
    destruct Y as (Fy & u & Eu & Bu). unfold val in Vr, Eu.
    destruct (sub_ok (r_sum r) y Fr Fy) as [F1 V1]; [rewrite Vr, Eu, b64_exact_int by lia; apply int_small; lia |].
    rewrite Vr, Eu, b64_exact_int in V1 by lia.
    assert (V : B2R (d_sub (r_sum r) y) + B2R x = IZR t') by (rewrite V1, <- Eu, <- Et'; unfold val in X; lra).
    destruct (add_ok (d_sub (r_sum r) y) x F1 Fx) as [F2 V2]; [rewrite V, b64_exact_int by nia; apply int_small; nia |].
    split; [exact F2 |]. unfold val at 1. rewrite V2, V, Et'. apply b64_exact_int. nia.
  - assert (V : B2R (r_sum r) + B2R x = IZR t') by (rewrite <- Et', Ew, exact_snoc, <- Vr; reflexivity).
    destruct (add_ok (r_sum r) x Fr Fx) as [F2 V2]; [rewrite V, b64_exact_int by nia; apply int_small; nia |].
    split; [exact F2 |]. unfold val at 1. rewrite V2, V, Et'. apply b64_exact_int. nia.
Qed.
