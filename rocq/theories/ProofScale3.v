(** Rolling statistics in another unit, and the statistics of doubles. *)
From Coq Require Import List Bool Arith Lia ZArith Reals Lra.
From Flocq Require Import Core IEEE754.BinarySingleNaN.
From Verif Require Import Num ModelBasic ModelMinMax ModelRolling ModelTail ModelHeap ModelDouble SpecDouble SpecMirror SpecScale ProofDouble ProofDouble4 ProofMirror ProofMirror2 ProofMirror3 ProofMirror4 ProofScale ProofScale2.
Import ListNotations.

Section AnyArithmetic.
  Context (K L : Num) (R X : Z -> car K -> car L -> Prop).
  Definition move (A : Num) (m f x : car A) (n : nat) : car A :=
    if ltb A x f then sub A m (div A (sub A f x) (ofnat A n)) else if ltb A f x then add A m (div A (sub A x f) (ofnat A n)) else m.
  Context (R_zero : forall d, R d (zero K) (zero L)) (R_one : R 0%Z (one K) (one L))
    (R_add : forall d a b x y, R d a b -> R d x y -> R d (add K a x) (add L b y))
    (R_sub : forall d a b x y, R d a b -> R d x y -> R d (sub K a x) (sub L b y))
    (R_mul : forall d e a b x y, R d a b -> R e x y -> R (d + e)%Z (mul K a x) (mul L b y))
    (R_div : forall d e a b x y, R d a b -> R e x y -> R (d - e)%Z (div K a x) (div L b y))
    (X_R : forall d a b, X d a b -> R d a b)
    (R_move : forall d m m' f f' x y n, R d m m' -> X d f f' -> X d x y -> R d (move K m f x n) (move L m' f' y n))
    (R_move_self : forall d m m' x y n, R d m m' -> X d x y -> R d (move K m m x n) (move L m' m' y n))
    (d : Z).
  Lemma unit_cb cap b b' x y : Forall2 (X d) b b' -> X d x y -> Forall2 (X d) (cb_push cap b x) (cb_push cap b' y).
  Proof.
    intros F H. unfold cb_push. rewrite <- (Forall2_length _ _ _ F). destruct (Nat.eqb _ _); [| apply Forall2_app; auto].
    inversion F; subst; [constructor | apply Forall2_app; auto].
  Qed.
  Lemma unit_full N b b' : Forall2 (X d) b b' -> rwp1_full N b = rwp1_full N b'.
  Proof. intros F. unfold rwp1_full, cb_full. now rewrite (Forall2_length _ _ _ F). Qed.
  Lemma unit_count N b b' : Forall2 (X d) b b' -> rolling_count_result N b = rolling_count_result N b'.
  Proof. intros F. unfold rolling_count_result. now rewrite (Forall2_length _ _ _ F), (unit_full _ _ _ F). Qed.
  Lemma unit_rsum N b b' a a' x y : Forall2 (X d) b b' -> R d a a' -> X d x y -> both (R d) (rolling_sum_op K N b a x) (rolling_sum_op L N b' a' y).
  Proof.
    intros F H1 H2. unfold rolling_sum_op. rewrite (unit_full _ _ _ F). destruct (rwp1_full N b'); [| apply R_add; auto].
    destruct F; [exact I | cbn]. apply R_add; [apply R_sub |]; auto.
  Qed.
  Lemma unit_rmom M N b b' a a' x y : Forall2 (X d) b b' -> R (Z.of_nat M * d) a a' -> X d x y -> both (R (Z.of_nat M * d)) (rolling_moment_op K M N b a x) (rolling_moment_op L M N b' a' y).
  Proof.
    intros F H1 H2. unfold rolling_moment_op. rewrite (unit_full _ _ _ F).
    pose proof (unit_npow K L R R_mul d M x y (X_R _ _ _ H2)) as P. destruct (npow K x M) as [p|], (npow L y M) as [q|]; cbn [both] in P; try contradiction.
    - destruct (rwp1_full N b'); [| now apply R_add]. destruct F as [|f g b b' Hf F]; [exact I |].
      pose proof (unit_npow K L R R_mul d M f g (X_R _ _ _ Hf)) as P'. destruct (npow K f M), (npow L g M); cbn [both] in P'; try contradiction; [| exact I]. cbn. apply R_add; [apply R_sub |]; assumption.
    - destruct (rwp1_full N b'); [| exact I]. destruct F as [|f g b b' Hf F]; [exact I |].
      pose proof (unit_npow K L R R_mul d M f g (X_R _ _ _ Hf)) as P'. destruct (npow K f M), (npow L g M); cbn [both] in P'; try contradiction; exact I.
  Qed.
  Lemma unit_rmean N b b' a a' x y : Forall2 (X d) b b' -> R d a a' -> X d x y -> both (R d) (immediate_rolling_mean_op K N b a x) (immediate_rolling_mean_op L N b' a' y).
  Proof.
    intros F H1 H2. unfold immediate_rolling_mean_op. rewrite (unit_full _ _ _ F), (unit_count N _ _ F). destruct (rwp1_full N b').
    - destruct F as [|f f' b b' Hf F]; [exact I |]. cbn [both]. now apply R_move.
    - cbn [both]. now apply R_move_self.
  Qed.
  Definition like_uroll M (a : roll K) (b : roll L) : Prop :=
    Forall2 (X d) (ro_buf K a) (ro_buf L b) /\ R d (ro_sum K a) (ro_sum L b) /\ R (Z.of_nat M * d) (ro_mom K a) (ro_mom L b) /\
    R (2 * d) (ro_mom2 K a) (ro_mom2 L b) /\ R d (ro_mean K a) (ro_mean L b).
  Lemma unit_roll N M xs ys : Forall2 (X d) xs ys -> both (like_uroll M) (roll_run K N M (zero K) xs) (roll_run L N M (zero L) ys).
  Proof.
    intros F. apply (fold_rel (X d) (both (like_uroll M))); [| exact F | cbn; unfold like_uroll; cbn; repeat split; try constructor; try apply R_zero; apply (R_div_one K L R R_one R_div), R_zero].
    intros [a|] [b|] x y Q H; cbn [both] in Q; try contradiction; [| exact I]. destruct Q as (Q1 & Q2 & Q3 & Q4 & Q5). cbn [roll_push].
    pose proof (unit_cb (N + 1) _ _ x y Q1 H) as B. fold (rwp1_op N (ro_buf K a) x) (rwp1_op N (ro_buf L b) y) in B.
    pose proof (unit_rsum N _ _ _ _ _ _ B Q2 H) as P1. destruct (rolling_sum_op K N _ (ro_sum K a) x), (rolling_sum_op L N _ (ro_sum L b) y); cbn [both] in P1; try contradiction; [| exact I].
    pose proof (unit_rmom M N _ _ _ _ _ _ B Q3 H) as P2. destruct (rolling_moment_op K M N _ (ro_mom K a) x), (rolling_moment_op L M N _ (ro_mom L b) y); cbn [both] in P2; try contradiction; [| exact I].
    pose proof (unit_rmom 2 N _ _ _ _ _ _ B Q4 H) as P3. destruct (rolling_moment_op K 2 N _ (ro_mom2 K a) x), (rolling_moment_op L 2 N _ (ro_mom2 L b) y); cbn [both] in P3; try contradiction; [| exact I].
    pose proof (unit_rmean N _ _ _ _ _ _ B Q5 H) as P4. destruct (immediate_rolling_mean_op K N _ (ro_mean K a) x) as [m|], (immediate_rolling_mean_op L N _ (ro_mean L b) y) as [m'|]; cbn [both] in P4; try contradiction; [| exact I].
    unfold rolling_variance_op. destruct (ro_var K a), (ro_var L b). rewrite (unit_full N _ _ B). destruct (rwp1_full N (rwp1_op N (ro_buf L b) y)).
    - destruct B as [|f g B1 B2 B3 B4]; [exact I |]. cbn [both]. unfold like_uroll. cbn [ro_buf ro_sum ro_mom ro_mom2 ro_mean]. repeat split; auto.
    - cbn [both]. unfold like_uroll. cbn [ro_buf ro_sum ro_mom ro_mom2 ro_mean]. tauto.
  Qed.
  Lemma unit_roll_results N M a b : like_uroll M a b ->
    Forall2 (X d) (ro_window K N a) (ro_window L N b) /\ R d (ro_sum K a) (ro_sum L b) /\ R d (ro_lazy_mean K N a) (ro_lazy_mean L N b) /\ R d (ro_mean K a) (ro_mean L b) /\
    R (Z.of_nat M * d) (ro_moment K N a) (ro_moment L N b) /\ R (d + d)%Z (ro_lazy_variance K N a) (ro_lazy_variance L N b) /\
    R (d + d)%Z (ro_lazy_variance_lazy_mean K N a) (ro_lazy_variance_lazy_mean L N b).
  Proof.
    intros (Q1 & Q2 & Q3 & Q4 & Q5). pose proof (unit_count N _ _ Q1) as C.
    pose proof (R_div_nat K L R R_zero R_one R_add R_div) as DN. pose proof (R_nat_mul K L R R_zero R_one R_add R_mul) as NM.
    assert (LM : R d (ro_lazy_mean K N a) (ro_lazy_mean L N b)) by (unfold ro_lazy_mean, lazy_rolling_mean_result, ro_count; rewrite C; now apply DN).
    split; [unfold ro_window, rolling_window_result; rewrite (unit_full N _ _ Q1); destruct (rwp1_full N (ro_buf L b)); [| exact Q1]; destruct Q1; [constructor | assumption] |].
    split; [exact Q2 |]. split; [exact LM |]. split; [exact Q5 |].
    unfold ro_lazy_variance_lazy_mean, ro_lazy_variance, ro_moment, rolling_moment_result, lazy_rolling_variance_result, ro_count. rewrite C.
    split; [now apply DN |]. destruct (Nat.ltb (rolling_count_result N (ro_buf L b)) 2); [split; apply R_zero |].
    split; apply DN, NM, (unit_difference K L R R_sub R_mul); try assumption; now apply DN.
  Qed.
End AnyArithmetic.

(** Watched doubles in two units. *)
Lemma w_zero d : WScaled d (zero WatchedN) (zero WatchedN).
Proof. intros _ _. unfold Scaled, finite, val. cbn. repeat split. lra. Qed.
Lemma w_one : WScaled 0 (one WatchedN) (one WatchedN).
Proof. intros _ _. unfold Scaled, finite, val. repeat split. cbn [bpow]. change (fst (one WatchedN)) with d_one. lra. Qed.
Definition w_add_s : forall d a b x y, WScaled d a b -> WScaled d x y -> WScaled d (add WatchedN a x) (add WatchedN b y) := w_add_scaled.
Definition w_sub_s : forall d a b x y, WScaled d a b -> WScaled d x y -> WScaled d (sub WatchedN a x) (sub WatchedN b y) := w_sub_scaled.
Definition w_mul_s : forall d e a b x y, WScaled d a b -> WScaled e x y -> WScaled (d + e) (mul WatchedN a x) (mul WatchedN b y) := w_mul_scaled.
Definition w_div_s : forall d e a b x y, WScaled d a b -> WScaled e x y -> WScaled (d - e) (div WatchedN a x) (div WatchedN b y) := w_div_scaled.
Lemma scaled_lt e (a b x y : double) : Scaled e a b -> Scaled e x y -> d_lt b y = d_lt a x.
Proof.
  intros (Fa & Fb & Vb) (Fx & Fy & Vy). unfold finite, val in *. pose proof (bpow_gt_0 radix2 e) as P. destruct (d_lt a x) eqn:E.
  - apply lt_true in E; try assumption. apply lt_true; try assumption. rewrite Vb, Vy. apply Rmult_lt_compat_l; assumption.
  - apply lt_false in E; try assumption. apply lt_false; try assumption. rewrite Vb, Vy. apply Rmult_le_compat_l; lra.
Qed.
(** Samples are finite. *)
Definition WX (e : Z) (a b : watched) : Prop := snd a = true /\ snd b = true /\ Scaled e (fst a) (fst b).
Lemma wx_r e a b : WX e a b -> WScaled e a b.
Proof. intros (_ & _ & H) _ _. exact H. Qed.
Lemma move_flag (m f x : watched) n : snd (move WatchedN m f x n) = true -> snd m = true.
Proof.
  unfold move. intros H. destruct (ltb WatchedN x f); [| destruct (ltb WatchedN f x)]; [| | exact H]; cbn in H; unfold w_sub, w_add in H; cbn [snd] in H;
    apply andb_true_iff in H as [H _]; apply andb_true_iff in H as [H _]; exact H.
Qed.
Lemma move_scaled d (m m' f f' x y : watched) n : WScaled d m m' -> WScaled d f f' -> WScaled d x y -> ltb WatchedN x f = ltb WatchedN y f' -> ltb WatchedN f x = ltb WatchedN f' y ->
  WScaled d (move WatchedN m f x n) (move WatchedN m' f' y n).
Proof.
  intros Hm Hf Hx E1 E2. unfold move. rewrite <- E1, <- E2. pose proof (R_div_nat _ _ _ w_zero w_one w_add_s w_div_s) as DN.
  destruct (ltb WatchedN x f); [| destruct (ltb WatchedN f x); [| exact Hm]].
  - apply w_sub_s; [exact Hm |]. apply DN, w_sub_s; assumption.
  - apply w_add_s; [exact Hm |]. apply DN, w_sub_s; assumption.
Qed.
Lemma w_move d m m' f f' x y n : WScaled d m m' -> WX d f f' -> WX d x y -> WScaled d (move WatchedN m f x n) (move WatchedN m' f' y n).
Proof.
  intros Hm Hf Hx. apply move_scaled; try assumption; try now apply wx_r. all: symmetry; apply (scaled_lt d); [apply Hx || apply Hf | apply Hf || apply Hx].
Qed.
Lemma w_move_self d m m' x y n : WScaled d m m' -> WX d x y -> WScaled d (move WatchedN m m x n) (move WatchedN m' m' y n).
Proof.
  intros Hm Hx F1 F2. pose proof (move_flag _ _ _ _ F1) as G1. pose proof (move_flag _ _ _ _ F2) as G2. pose proof (Hm G1 G2) as Sm.
  revert F1 F2. apply move_scaled; try assumption; try now apply wx_r. all: symmetry; apply (scaled_lt d); first [exact Sm | apply Hx].
Qed.
Lemma watch_scaled d xs ys : ScaledAll d xs ys -> Forall2 (WX d) (map watch xs) (map watch ys).
Proof. intros F. induction F as [|x y xs ys H F IH]; constructor; [| exact IH]. destruct H as (F1 & F2 & V). unfold WX, watch. cbn. repeat split; assumption. Qed.
Lemma watch_all d xs ys : ScaledAll d xs ys -> Forall2 (WScaled d) (map watch xs) (map watch ys).
Proof. intros F. apply watch_scaled in F. induction F; constructor; [now apply wx_r | assumption]. Qed.
Lemma scaled_watch d x y : Scaled d x y -> WScaled d (watch x) (watch y).
Proof. intros H _ _. exact H. Qed.
Lemma watch_pairs d e h g : ScaledPairs d e h g -> Forall2 (fun p q => WScaled d (fst p) (fst q) /\ WScaled e (snd p) (snd q)) (map watch2 h) (map watch2 g).
Proof. intros F. induction F as [|x y xs ys [H1 H2] F IH]; constructor; [| exact IH]. split; now apply scaled_watch. Qed.
Lemma watch_triples d t e h g : ScaledTriples d t e h g ->
  Forall2 (fun p q => WScaled d (fst (fst p)) (fst (fst q)) /\ WScaled t (snd (fst p)) (snd (fst q)) /\ WScaled e (snd p) (snd q)) (map watch3 h) (map watch3 g).
Proof. intros F. induction F as [|x y xs ys (H1 & H2 & H3) F IH]; constructor; [| exact IH]. split; [| split]; now apply scaled_watch. Qed.

(** Watching changes no result. *)
Definition same (d : Z) (a : watched) (x : double) : Prop := fst a = x.
Lemma s_zero d : same d (zero WatchedN) (zero DoubleN). Proof. reflexivity. Qed.
Lemma s_one : same 0 (one WatchedN) (one DoubleN). Proof. reflexivity. Qed.
Lemma s_add d a b x y : same d a b -> same d x y -> same d (add WatchedN a x) (add DoubleN b y). Proof. now intros <- <-. Qed.
Lemma s_sub d a b x y : same d a b -> same d x y -> same d (sub WatchedN a x) (sub DoubleN b y). Proof. now intros <- <-. Qed.
Lemma s_mul d e a b x y : same d a b -> same e x y -> same (d + e) (mul WatchedN a x) (mul DoubleN b y). Proof. now intros <- <-. Qed.
Lemma s_div d e a b x y : same d a b -> same e x y -> same (d - e) (div WatchedN a x) (div DoubleN b y). Proof. now intros <- <-. Qed.
Lemma s_sqrt e a b : same (e + e) a b -> same e (w_sqrt a) (d_sqrt b). Proof. now intros <-. Qed.
Lemma s_ofnat n : fst (ofnat WatchedN n) = ofnat DoubleN n.
Proof. exact (R_nat _ _ _ s_zero s_one s_add n). Qed.
Lemma s_move d m m' f f' x y n : same d m m' -> same d f f' -> same d x y -> same d (move WatchedN m f x n) (move DoubleN m' f' y n).
Proof.
  intros <- <- <-. unfold move. change (ltb WatchedN x f) with (ltb DoubleN (fst x) (fst f)). change (ltb WatchedN f x) with (ltb DoubleN (fst f) (fst x)).
  destruct (ltb DoubleN (fst x) (fst f)); [| destruct (ltb DoubleN (fst f) (fst x)); [| reflexivity]]; unfold same; cbn; now rewrite <- s_ofnat.
Qed.
Lemma same_all xs : Forall2 (same 0) (map watch xs) xs.
Proof. induction xs; constructor; [reflexivity | assumption]. Qed.
Lemma same_pairs h : Forall2 (fun p q => same 0 (fst p) (fst q) /\ same 0 (snd p) (snd q)) (map watch2 h) h.
Proof. induction h; constructor; [split; reflexivity | assumption]. Qed.
Lemma same_triples h : Forall2 (fun p q => same 0 (fst (fst p)) (fst (fst q)) /\ same 0 (snd (fst p)) (snd (fst q)) /\ same 0 (snd p) (snd q)) (map watch3 h) h.
Proof. induction h; constructor; [repeat split | assumption]. Qed.
