(** Proofs about min, max and integer sums. *)
From Coq Require Import List ZArith Bool Lia Permutation.
From Verif Require Import Num ModelMinMax.
Import ListNotations.

(** [lltb] is a strict total order. *)
Record OrderLaws (L : Limits) : Prop := {
  ol_irrefl : forall x, lltb L x x = false;
  ol_trans : forall x y z, lltb L x y = true -> lltb L y z = true -> lltb L x z = true;
  ol_total : forall x y, lltb L x y = false -> lltb L y x = false -> x = y
}.

Section Order.
Variable L : Limits.
Hypothesis HL : OrderLaws L.
Local Notation A := (lcar L).

Lemma ge_trans (x y z : A) : lltb L x y = false -> lltb L y z = false -> lltb L x z = false.
Proof.
  intros H1 H2. destruct (lltb L x z) eqn:E; [|reflexivity]. exfalso.
  destruct (lltb L y x) eqn:E1.
  - rewrite (ol_trans L HL y x z E1 E) in H2. discriminate.
  - rewrite (ol_total L HL x y H1 E1) in *. congruence.
Qed.

Lemma lt_ge (x y : A) : lltb L x y = true -> lltb L y x = false.
Proof.
  intros H. destruct (lltb L y x) eqn:E; [|reflexivity].
  pose proof (ol_trans L HL _ _ _ H E) as C. rewrite (ol_irrefl L HL) in C. discriminate.
Qed.

Lemma min_fold xs m :
  let r := fold_left (min_assign L) xs m in
  (In r xs \/ r = m) /\ lltb L m r = false /\ (forall x, In x xs -> lltb L x r = false).
Proof.
  revert m; induction xs as [|x xs IH]; intros m; cbn [fold_left].
  - split; [right; reflexivity|]. split; [apply (ol_irrefl L HL) | intros _ []].
  - specialize (IH (min_assign L m x)). cbv zeta in *.
    set (r := fold_left (min_assign L) xs (min_assign L m x)) in *.
    destruct IH as (Hin & Hle & Hall). unfold min_assign in *.
    destruct (lltb L x m) eqn:E.
    + split; [destruct Hin as [H | ->]; left; [right; exact H | left; reflexivity]|].
      split; [apply ge_trans with x; [apply lt_ge; exact E | exact Hle]|].
      intros y [<-|Hy]; auto.
    + split; [destruct Hin as [H | ->]; [left; right; exact H | right; reflexivity]|].
      split; [exact Hle|].
      intros y [<-|Hy]; auto. apply ge_trans with m; assumption.
Qed.

Lemma max_fold xs m :
  let r := fold_left (max_assign L) xs m in
  (In r xs \/ r = m) /\ lltb L r m = false /\ (forall x, In x xs -> lltb L r x = false).
Proof.
  revert m; induction xs as [|x xs IH]; intros m; cbn [fold_left].
  - split; [right; reflexivity|]. split; [apply (ol_irrefl L HL) | intros _ []].
  - specialize (IH (max_assign L m x)). cbv zeta in *.
    set (r := fold_left (max_assign L) xs (max_assign L m x)) in *.
    destruct IH as (Hin & Hle & Hall). unfold max_assign in *.
    destruct (lltb L m x) eqn:E.
    + split; [destruct Hin as [H | ->]; left; [right; exact H | left; reflexivity]|].
      split; [apply ge_trans with x; [exact Hle | apply lt_ge; exact E]|].
      intros y [<-|Hy]; auto.
    + split; [destruct Hin as [H | ->]; [left; right; exact H | right; reflexivity]|].
      split; [exact Hle|].
      intros y [<-|Hy]; auto. apply ge_trans with m; assumption.
Qed.

Lemma min_run_spec xs :
  (exists x, In x xs /\ lltb L (highest L) x = false) ->
  In (min_run L xs) xs /\ (forall x, In x xs -> lltb L x (min_run L xs) = false).
Proof.
  intros (x & Hx & Hh). unfold min_run, min_init.
  destruct (min_fold xs (highest L)) as (Hin & Hle & Hall).
  split; [|exact Hall]. destruct Hin as [H|H]; [exact H|].
  rewrite H. specialize (Hall x Hx). rewrite H in Hall.
  rewrite <- (ol_total L HL x (highest L) Hall Hh). exact Hx.
Qed.

Lemma max_run_spec xs :
  (exists x, In x xs /\ lltb L x (lowest L) = false) ->
  In (max_run L xs) xs /\ (forall x, In x xs -> lltb L (max_run L xs) x = false).
Proof.
  intros (x & Hx & Hh). unfold max_run, max_init.
  destruct (max_fold xs (lowest L)) as (Hin & Hle & Hall).
  split; [|exact Hall]. destruct Hin as [H|H]; [exact H|].
  rewrite H. specialize (Hall x Hx). rewrite H in Hall.
  rewrite (ol_total L HL (lowest L) x Hall Hh). exact Hx.
Qed.

Lemma min_run_perm xs ys : Permutation xs ys -> min_run L xs = min_run L ys.
Proof.
  intros HP. unfold min_run.
  destruct (min_fold xs (min_init L)) as (Hi1 & Hl1 & Ha1).
  destruct (min_fold ys (min_init L)) as (Hi2 & Hl2 & Ha2). cbv zeta in *.
  set (a := fold_left (min_assign L) xs (min_init L)) in *.
  set (b := fold_left (min_assign L) ys (min_init L)) in *.
  apply (ol_total L HL).
  - destruct Hi1 as [H | ->]; [|exact Hl2]. apply Ha2. eapply Permutation_in; eauto.
  - destruct Hi2 as [H | ->]; [|exact Hl1]. apply Ha1. eapply Permutation_in; [symmetry|]; eauto.
Qed.

Lemma max_run_perm xs ys : Permutation xs ys -> max_run L xs = max_run L ys.
Proof.
  intros HP. unfold max_run.
  destruct (max_fold xs (max_init L)) as (Hi1 & Hl1 & Ha1).
  destruct (max_fold ys (max_init L)) as (Hi2 & Hl2 & Ha2). cbv zeta in *.
  set (a := fold_left (max_assign L) xs (max_init L)) in *.
  set (b := fold_left (max_assign L) ys (max_init L)) in *.
  apply (ol_total L HL).
  - destruct Hi2 as [H | ->]; [|exact Hl1]. apply Ha1. eapply Permutation_in; [symmetry|]; eauto.
  - destruct Hi1 as [H | ->]; [|exact Hl2]. apply Ha2. eapply Permutation_in; eauto.
Qed.
End Order.

Lemma IntL_laws w : OrderLaws (IntL w).
Proof. constructor; cbn; intros; rewrite ?Z.ltb_lt, ?Z.ltb_ge in *; lia. Qed.
Lemma FloatL_laws m : OrderLaws (FloatL m).
Proof.
  constructor; cbn.
  - intros [|z|]; cbn; auto using Z.ltb_irrefl.
  - intros [|x|] [|y|] [|z|]; cbn; auto; try discriminate; rewrite !Z.ltb_lt; lia.
  - intros [|x|] [|y|]; cbn; auto; try discriminate. rewrite !Z.ltb_ge. intros. f_equal. lia.
Qed.

(** ** integers *)
Definition Ztotal (l : list Z) : Z := fold_right Z.add 0%Z l.
Lemma Ztotal_app a b : Ztotal (a ++ b) = (Ztotal a + Ztotal b)%Z.
Proof. induction a as [|x a IH]; cbn [app Ztotal fold_right]; fold Ztotal; unfold Ztotal in *; lia. Qed.

Lemma isum_ub w xs : fold_left (isum_op w) xs UB = UB.
Proof. induction xs; cbn; auto. Qed.

Lemma isum_run_ok w s0 xs :
  (forall p q, xs = p ++ q -> p <> [] -> in_range w (s0 + Ztotal p) = true) ->
  isum_run w s0 xs = Ok (s0 + Ztotal xs)%Z.
Proof.
  unfold isum_run. revert s0; induction xs as [|x xs IH]; intros s0 H; cbn [fold_left].
  - cbn. rewrite Z.add_0_r. reflexivity.
  - unfold isum_op at 2.
    replace (in_range w (s0 + x)) with true.
    2:{ symmetry. specialize (H [x] xs eq_refl). cbn [Ztotal fold_right] in H.
        rewrite Z.add_0_r in H. apply H. discriminate. }
    rewrite IH.
    + cbn [Ztotal fold_right]. f_equal. unfold Ztotal. lia.
    + intros p q -> Hp. specialize (H (x :: p) q eq_refl). cbn [Ztotal fold_right] in H.
      rewrite <- Z.add_assoc. apply H. discriminate.
Qed.

Lemma isum_run_bad w s0 xs p q :
  xs = p ++ q -> p <> [] -> in_range w (s0 + Ztotal p) = false -> isum_run w s0 xs = UB.
Proof.
  intros -> Hp Hr. unfold isum_run. rewrite fold_left_app.
  replace (fold_left (isum_op w) p (Ok s0)) with (@UB Z); [apply isum_ub|].
  symmetry. revert s0 Hp Hr. induction p as [|x p IH]; intros s0 Hp Hr; [congruence|].
  cbn [fold_left]. unfold isum_op at 2. destruct (in_range w (s0 + x)) eqn:E; [|apply isum_ub].
  destruct p as [|y p].
  - cbn [Ztotal fold_right] in Hr. rewrite Z.add_0_r in Hr. congruence.
  - apply IH; [discriminate|]. rewrite <- Hr. f_equal. cbn [Ztotal fold_right]. unfold Ztotal. lia.
Qed.

Lemma usum_run_spec w s0 xs : (0 <= w)%Z -> (0 <= s0 < 2 ^ w)%Z ->
  usum_run w s0 xs = ((s0 + Ztotal xs) mod 2 ^ w)%Z.
Proof.
  intros Hw Hs. unfold usum_run.
  assert (Hm : (0 < 2 ^ w)%Z) by (apply Z.pow_pos_nonneg; lia).
  revert s0 Hs; induction xs as [|x xs IH]; intros s0 Hs; cbn [fold_left].
  - cbn. rewrite Z.add_0_r, Z.mod_small; auto.
  - rewrite IH by (unfold usum_op; apply Z.mod_pos_bound; lia).
    unfold usum_op. rewrite Zplus_mod_idemp_l. f_equal. cbn [Ztotal fold_right]. unfold Ztotal. lia.
Qed.

Lemma Ztotal_perm a b : Permutation a b -> Ztotal a = Ztotal b.
Proof. induction 1; cbn in *; unfold Ztotal in *; lia. Qed.

Lemma in_range_iff w z : in_range w z = true <-> (- 2 ^ (w - 1) <= z < 2 ^ (w - 1))%Z.
Proof. unfold in_range. rewrite andb_true_iff, Z.leb_le, Z.ltb_lt. reflexivity. Qed.
Lemma isum_run_ok' w s0 xs :
  (forall p q, xs = p ++ q -> p <> [] -> (- 2 ^ (w - 1) <= s0 + Ztotal p < 2 ^ (w - 1))%Z) ->
  isum_run w s0 xs = Ok (s0 + Ztotal xs)%Z.
Proof. intros H. apply isum_run_ok. intros p q E Hp. apply in_range_iff. eapply H; eauto. Qed.
Lemma isum_run_bad' w s0 xs p q :
  xs = p ++ q -> p <> [] -> ~ (- 2 ^ (w - 1) <= s0 + Ztotal p < 2 ^ (w - 1))%Z ->
  isum_run w s0 xs = UB.
Proof.
  intros E Hp Hr. apply (isum_run_bad w s0 xs p q E Hp).
  destruct (in_range w (s0 + Ztotal p)) eqn:H; [|reflexivity]. apply in_range_iff in H. contradiction.
Qed.
Lemma infinite_samples (m : Z) : exists xs : list xval, xs <> [] /\
  ~ In (min_run (FloatL m) xs) xs /\ exists ys : list xval, ys <> [] /\ ~ In (max_run (FloatL m) ys) ys.
Proof.
  exists [PosInf]; split; [discriminate|]; split;
   [ intros [H|[]]; discriminate
   | exists [NegInf]; split; [discriminate | intros [H|[]]; discriminate] ].
Qed.
