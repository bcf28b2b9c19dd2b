(** Rolling statistics, tails and extremes in a mirror. *)
From Coq Require Import List Bool Arith Lia.
From Verif Require Import Num ModelBasic ModelMinMax ModelRolling ModelTail ModelHeap ModelDouble SpecDouble SpecMirror ProofDouble5 ProofMirror2.
Import ListNotations.

Lemma Forall2_length {A B : Type} (P : A -> B -> Prop) l l' : Forall2 P l l' -> length l = length l'.
Proof. induction 1; cbn; congruence. Qed.

Section AnyArithmetic.
  Context (K : Num).
  Local Notation T := (car K).
  Context (R : bool -> T -> T -> Prop).
  Local Notation "0" := (zero K) : num_scope.
  Local Notation "x + y" := (add K x y) : num_scope.
  Local Notation "x - y" := (sub K x y) : num_scope.
  Local Notation "x * y" := (mul K x y) : num_scope.
  Local Notation "x / y" := (div K x y) : num_scope.
  Local Notation "x <? y" := (ltb K x y) : num_scope.
  Local Open Scope num_scope.
  Context (R_refl : forall x, R false x x) (R_zero : forall s, R s 0 0)
    (R_add : forall s a b x y, R s a b -> R s x y -> R s (a + x) (b + y))
    (R_sub : forall s a b x y, R s a b -> R s x y -> R s (a - x) (b - y))
    (R_mul : forall s t a b x y, R s a b -> R t x y -> R (xorb s t) (a * x) (b * y))
    (R_div : forall s a b c, R s a b -> R s (a / c) (b / c))
    (R_lt : forall s a b x y, R s a b -> R s x y -> b <? y = if s then x <? a else a <? x)
    (R_swap : forall a b x y, R true a b -> R true x y -> R false (a - x) (y - b))
    (R_sub_add : forall a b x y, R true a b -> R false x y -> R true (a - x) (b + y))
    (R_add_sub : forall a b x y, R true a b -> R false x y -> R true (a + x) (b - y))
    (lt_asym : forall x y, x <? y = true -> y <? x = false).

  Section Turn.
  Context (s : bool).
  Lemma turn_cb cap b b' x y : Forall2 (R s) b b' -> R s x y -> Forall2 (R s) (cb_push cap b x) (cb_push cap b' y).
  Proof.
    intros F H. unfold cb_push. rewrite <- (Forall2_length _ _ _ F). destruct (Nat.eqb _ _); [| apply Forall2_app; auto].
    inversion F; subst; [constructor | apply Forall2_app; auto].
  Qed.
  Lemma turn_full N b b' : Forall2 (R s) b b' -> rwp1_full N b = rwp1_full N b'.
  Proof. intros F. unfold rwp1_full, cb_full. now rewrite (Forall2_length _ _ _ F). Qed.
  Lemma turn_count N b b' : Forall2 (R s) b b' -> rolling_count_result N b = rolling_count_result N b'.
  Proof. intros F. unfold rolling_count_result. now rewrite (Forall2_length _ _ _ F), (turn_full _ _ _ F). Qed.
  Lemma turn_window N b b' : Forall2 (R s) b b' -> Forall2 (R s) (rolling_window_result N b) (rolling_window_result N b').
  Proof. intros F. unfold rolling_window_result. rewrite (turn_full _ _ _ F). destruct (rwp1_full N b'); [| exact F]. destruct F; [constructor | assumption]. Qed.
  Lemma turn_rsum N b b' a a' x y : Forall2 (R s) b b' -> R s a a' -> R s x y -> both (R s) (rolling_sum_op K N b a x) (rolling_sum_op K N b' a' y).
  Proof.
    intros F H1 H2. unfold rolling_sum_op. rewrite (turn_full _ _ _ F). destruct (rwp1_full N b'); [| now apply R_add].
    destruct F; [exact I | cbn]. apply R_add; [apply R_sub |]; assumption.
  Qed.
  Lemma turn_rmom M N b b' a a' x y : Forall2 (R s) b b' -> R (s && Nat.odd M) a a' -> R s x y -> both (R (s && Nat.odd M)) (rolling_moment_op K M N b a x) (rolling_moment_op K M N b' a' y).
  Proof.
    intros F H1 H2. unfold rolling_moment_op. rewrite (turn_full _ _ _ F).
    pose proof (turn_npow K R R_mul s M x y H2) as P. destruct (npow K x M) as [p|], (npow K y M) as [q|]; cbn in P; try contradiction.
    - destruct (rwp1_full N b'); [| now apply R_add]. destruct F as [|f g b b' Hf F]; [exact I |].
      pose proof (turn_npow K R R_mul s M f g Hf) as P'. destruct (npow K f M), (npow K g M); cbn in P'; try contradiction; [| exact I]. cbn. apply R_add; [apply R_sub |]; assumption.
    - destruct (rwp1_full N b'); [| exact I]. destruct F as [|f g b b' Hf F]; [exact I |].
      pose proof (turn_npow K R R_mul s M f g Hf) as P'. destruct (npow K f M), (npow K g M); cbn in P'; try contradiction; exact I.
  Qed.
  (** One step of the default rolling mean, written as the code does. *)
  Lemma turn_move c m m' f f' x y : R s m m' -> R s f f' -> R s x y ->
    R s (if x <? f then m - (f - x) / c else if f <? x then m + (x - f) / c else m)
        (if y <? f' then m' - (f' - y) / c else if f' <? y then m' + (y - f') / c else m').
  Proof.
    intros Hm Hf Hx. rewrite (R_lt _ _ _ _ _ Hx Hf), (R_lt _ _ _ _ _ Hf Hx). destruct s.
    - destruct (x <? f) eqn:E1.
      + rewrite (lt_asym _ _ E1). apply R_sub_add; [exact Hm |]. apply R_div. now apply R_swap.
      + destruct (f <? x) eqn:E2; [| exact Hm]. apply R_add_sub; [exact Hm |]. apply R_div. now apply R_swap.
    - destruct (x <? f); [apply R_sub; [exact Hm | apply R_div, R_sub; assumption] |].
      destruct (f <? x); [apply R_add; [exact Hm | apply R_div, R_sub; assumption] | exact Hm].
  Qed.
  Lemma turn_rmean N b b' a a' x y : Forall2 (R s) b b' -> R s a a' -> R s x y -> both (R s) (immediate_rolling_mean_op K N b a x) (immediate_rolling_mean_op K N b' a' y).
  Proof.
    intros F H1 H2. unfold immediate_rolling_mean_op. rewrite (turn_full _ _ _ F), (turn_count N _ _ F). destruct (rwp1_full N b').
    - destruct F as [|f f' b b' Hf F]; [exact I |]. cbn [both]. now apply turn_move.
    - cbn [both]. now apply turn_move.
  Qed.
  Lemma turn_underflow a b : R false a b -> R false (prevent_underflow K a) (prevent_underflow K b).
  Proof. intros H. unfold prevent_underflow. rewrite (R_lt false _ _ _ _ H (R_zero false)). destruct (a <? 0); [apply R_zero | exact H]. Qed.
  Definition like_var (a b : T * T) : Prop := R s (fst a) (fst b) /\ R false (snd a) (snd b).
  Lemma turn_rvar N b b' a a' m m' x y : Forall2 (R s) b b' -> like_var a a' -> R s m m' -> R s x y -> both like_var (rolling_variance_op K N b a m x) (rolling_variance_op K N b' a' m' y).
  Proof.
    destruct a as [p q], a' as [p' q']. intros F [H1 H2] Hm Hx. cbn in H1, H2. unfold rolling_variance_op. rewrite (turn_full _ _ _ F).
    assert (P : R false (q + (x - m) * (x - p)) (q' + (y - m') * (y - p'))) by (apply R_add; [exact H2 | apply (R_sq K R R_mul s); apply R_sub; assumption]).
    destruct (rwp1_full N b'); [| split; assumption]. destruct F as [|f f' b b' Hf F]; [exact I |].
    split; [exact Hm |]. apply turn_underflow. apply R_sub; [exact P |]. apply (R_sq K R R_mul s); apply R_sub; assumption.
  Qed.
  Definition like_roll M (a b : roll K) : Prop :=
    Forall2 (R s) (ro_buf K a) (ro_buf K b) /\ R s (ro_sum K a) (ro_sum K b) /\ R (s && Nat.odd M) (ro_mom K a) (ro_mom K b) /\
    R false (ro_mom2 K a) (ro_mom2 K b) /\ R s (ro_mean K a) (ro_mean K b) /\ like_var (ro_var K a) (ro_var K b).
  Lemma turn_roll N M xs ys : Forall2 (R s) xs ys -> both (like_roll M) (roll_run K N M 0 xs) (roll_run K N M 0 ys).
  Proof.
    intros F. apply (fold_rel (R s) (both (like_roll M))); [| exact F | cbn; unfold like_roll, like_var; cbn; repeat split; try constructor; try apply R_zero; apply R_div, R_zero].
    intros [a|] [b|] x y Q H; cbn in Q; try contradiction; [| exact I]. destruct Q as (Q1 & Q2 & Q3 & Q4 & Q5 & Q6). cbn [roll_push].
    pose proof (turn_cb (N + 1) _ _ x y Q1 H) as B. fold (rwp1_op N (ro_buf K a) x) (rwp1_op N (ro_buf K b) y) in B.
    pose proof (turn_rsum N _ _ _ _ _ _ B Q2 H) as P1. destruct (rolling_sum_op K N _ (ro_sum K a) x), (rolling_sum_op K N _ (ro_sum K b) y); cbn in P1; try contradiction; [| exact I].
    pose proof (turn_rmom M N _ _ _ _ _ _ B Q3 H) as P2. destruct (rolling_moment_op K M N _ (ro_mom K a) x), (rolling_moment_op K M N _ (ro_mom K b) y); cbn in P2; try contradiction; [| exact I].
    pose proof (turn_rmom 2 N (rwp1_op N (ro_buf K a) x) (rwp1_op N (ro_buf K b) y) (ro_mom2 K a) (ro_mom2 K b) x y B) as P3. cbn [Nat.odd] in P3. cbn in P3. rewrite andb_false_r in P3.
    specialize (P3 Q4 H). destruct (rolling_moment_op K 2 N _ (ro_mom2 K a) x), (rolling_moment_op K 2 N _ (ro_mom2 K b) y); cbn in P3; try contradiction; [| exact I].
    pose proof (turn_rmean N _ _ _ _ _ _ B Q5 H) as P4. destruct (immediate_rolling_mean_op K N _ (ro_mean K a) x) as [m|], (immediate_rolling_mean_op K N _ (ro_mean K b) y) as [m'|]; cbn in P4; try contradiction; [| exact I].
    pose proof (turn_rvar N _ _ _ _ _ _ _ _ B Q6 P4 H) as P5. destruct (rolling_variance_op K N _ (ro_var K a) m x), (rolling_variance_op K N _ (ro_var K b) m' y); cbn in P5; try contradiction; [| exact I].
    cbn. unfold like_roll. cbn. tauto.
  Qed.
  Lemma turn_roll_results N M a b : like_roll M a b ->
    Forall2 (R s) (ro_window K N a) (ro_window K N b) /\ R s (ro_sum K a) (ro_sum K b) /\ R s (ro_lazy_mean K N a) (ro_lazy_mean K N b) /\ R s (ro_mean K a) (ro_mean K b) /\
    R (s && Nat.odd M) (ro_moment K N a) (ro_moment K N b) /\ R false (ro_variance K N a) (ro_variance K N b) /\ R false (ro_lazy_variance K N a) (ro_lazy_variance K N b) /\
    R false (ro_lazy_variance_lazy_mean K N a) (ro_lazy_variance_lazy_mean K N b).
  Proof.
    intros (Q1 & Q2 & Q3 & Q4 & Q5 & Q6). pose proof (turn_count N _ _ Q1) as C.
    assert (L : R s (ro_lazy_mean K N a) (ro_lazy_mean K N b)) by (unfold ro_lazy_mean, lazy_rolling_mean_result, ro_count; rewrite C; now apply R_div).
    split; [apply turn_window, Q1 |]. split; [exact Q2 |]. split; [exact L |]. split; [exact Q5 |].
    unfold ro_lazy_variance_lazy_mean, ro_lazy_variance, ro_variance, ro_moment, rolling_moment_result, rolling_variance_result, lazy_rolling_variance_result, ro_count. rewrite C.
    split; [now apply R_div |]. destruct (Nat.ltb (rolling_count_result N (ro_buf K b)) 2); [repeat split; apply R_zero |].
    split; [apply R_div, Q6 |]. split; apply R_div, (R_mul_l K R R_refl R_mul), R_sub; try (apply R_div, Q4); apply (R_sq K R R_mul s); assumption.
  Qed.
  End Turn.

  (** Tails. *)
  Section Tails.
  Context (V : Type) (H : HeapOps) (HA : Asking H) (s : bool).
  Definition seen (lr : side) : side := if s then opposite lr else lr.
  Lemma turn_pred lr a b x y : R s a b -> R s x y -> tail_pred K (seen lr) b y = tail_pred K lr a x.
  Proof. intros H1 H2. pose proof (R_lt s _ _ _ _ H1 H2) as L1. pose proof (R_lt s _ _ _ _ H2 H1) as L2. unfold seen. destruct s, lr; cbn; assumption. Qed.
  Lemma turn_nth l l' : Forall2 (R s) l l' -> forall i, both (R s) (nth_error l i) (nth_error l' i).
  Proof. intros F. induction F; intros [|i]; cbn; auto. Qed.
  Lemma turn_cmp lr l l' : Forall2 (R s) l l' -> forall i j, indirect_cmp (tail_pred K (seen lr)) l' i j = indirect_cmp (tail_pred K lr) l i j.
  Proof.
    intros F i j. unfold indirect_cmp. pose proof (turn_nth _ _ F i) as A. pose proof (turn_nth _ _ F j) as B.
    destruct (nth_error l i), (nth_error l' i); cbn in A; try contradiction; [| reflexivity].
    destruct (nth_error l j), (nth_error l' j); cbn in B; try contradiction; [| reflexivity]. now apply turn_pred.
  Qed.
  Lemma turn_set l l' : Forall2 (R s) l l' -> forall i x y, R s x y -> Forall2 (R s) (set_nth i x l) (set_nth i y l').
  Proof. intros F. induction F; intros [|i] u v E; cbn; auto. Qed.
  Definition like_tail (a b : tail_state T V) : Prop :=
    tl_sorted a = tl_sorted b /\ tl_indices a = tl_indices b /\ Forall2 (R s) (tl_samples a) (tl_samples b) /\ tl_variates a = tl_variates b.
  Definition like_out {A B : Type} (Q : A -> B -> Prop) (a : outcome A) (b : outcome B) : Prop :=
    match a, b with Ok a, Ok b => Q a b | NotANumber, NotANumber => True | UB, UB => True | _, _ => False end.
  Lemma turn_assign lr l l' ids vs i x y us : Forall2 (R s) l l' -> R s x y ->
    like_tail (tail_assign H (tail_pred K lr) l ids vs i x us) (tail_assign H (tail_pred K (seen lr)) l' ids vs i y us).
  Proof.
    intros F E. unfold tail_assign, like_tail. cbn. pose proof (turn_set _ _ F i _ _ E) as F'. repeat split; [| exact F'].
    destruct (HA _ _ (turn_cmp lr _ _ F') ids) as [P _]. now symmetry.
  Qed.
  Lemma turn_push lr a b x y us : like_tail a b -> R s x y -> like_out like_tail (tail_push H (tail_pred K lr) a x us) (tail_push H (tail_pred K (seen lr)) b y us).
  Proof.
    destruct a as [sa ia la va], b as [sb ib lb vb]. intros (E1 & E2 & F & E3) E. cbn in E1, E2, F, E3. subst. unfold tail_push. cbn [tl_indices tl_samples tl_variates].
    rewrite <- (Forall2_length _ _ _ F). destruct (Nat.ltb _ _); [now apply turn_assign |]. destruct ib as [|t ib]; [exact I |].
    pose proof (turn_nth _ _ F t) as P. destruct (nth_error la t) as [u|], (nth_error lb t) as [v|]; cbn in P; try contradiction; [| exact I].
    rewrite (turn_pred lr _ _ _ _ E P). destruct (tail_pred K lr x u); [| cbn; repeat split; assumption].
    destruct (HA _ _ (turn_cmp lr _ _ F) (t :: ib)) as (_ & P' & _). rewrite P'. destruct (rev _); [exact I |]. now apply turn_assign.
  Qed.
  Lemma turn_sort lr a b : like_tail a b -> like_tail (tail_sort H (tail_pred K lr) a) (tail_sort H (tail_pred K (seen lr)) b).
  Proof.
    destruct a as [sa ia la va], b as [sb ib lb vb]. intros (E1 & E2 & F & E3). cbn in E1, E2, F, E3. subst. unfold tail_sort. cbn [tl_sorted tl_indices tl_samples tl_variates].
    destruct sb; [repeat split; assumption |]. unfold like_tail. cbn. repeat split; [| exact F]. destruct (HA _ _ (turn_cmp lr _ _ F) ib) as (_ & _ & P). now rewrite P.
  Qed.
  Lemma turn_read l l' : Forall2 (R s) l l' -> forall is, like_out (Forall2 (R s)) (read_all l is) (read_all l' is).
  Proof.
    intros F is. induction is as [|i is IH]; cbn; [constructor |]. pose proof (turn_nth _ _ F i) as P. destruct (nth_error l i), (nth_error l' i); cbn in P; try contradiction; [| exact I].
    destruct (read_all l is), (read_all l' is); cbn in IH; try contradiction; cbn; auto.
  Qed.
  Lemma turn_result lr a b : like_tail a b -> like_out (Forall2 (R s)) (tail_result H (tail_pred K lr) a) (tail_result H (tail_pred K (seen lr)) b).
  Proof.
    intros L. unfold tail_result. destruct (turn_sort lr _ _ L) as (_ & -> & _). destruct L as (_ & _ & F & _). now apply turn_read.
  Qed.
  Lemma turn_vresult lr a b j : like_tail a b -> tail_variate_result H (tail_pred K lr) a j = tail_variate_result H (tail_pred K (seen lr)) b j.
  Proof.
    intros L. unfold tail_variate_result. destruct (turn_sort lr _ _ L) as (_ & -> & _). destruct L as (_ & _ & _ & ->). reflexivity.
  Qed.
  Lemma turn_tail lr c nv (dV : V) h g :
    Forall2 (fun o p => match o, p with TPush x vs, TPush y us => R s x y /\ us = vs | TExtract, TExtract => True | _, _ => False end) h g ->
    like_out like_tail (tail_run H (tail_pred K lr) (tail_init c nv 0 dV) h) (tail_run H (tail_pred K (seen lr)) (tail_init c nv 0 dV) g).
  Proof.
    intros F. unfold tail_run. eapply fold_rel; [| exact F |].
    - intros [a| |] [b| |] o p Q E; cbn in Q; try contradiction; try exact I. destruct o as [x vs|], p as [y us|]; try contradiction.
      + destruct E as [E ->]. cbn. now apply turn_push.
      + cbn. now apply turn_sort.
    - cbn. unfold like_tail. cbn. repeat split. clear F. induction c; cbn; auto.
  Qed.
  End Tails.
End AnyArithmetic.

(** The heap algorithms of ModelHeap ask only the comparison. *)
Section Heaps.
  Context (c d : nat -> nat -> bool) (E : forall i j, c i j = d i j).
  Lemma up_asks f : forall l hole v, sift_up c f l hole v = sift_up d f l hole v.
  Proof. induction f as [|f IH]; intros l hole v; cbn [sift_up]; [reflexivity |]. rewrite E. destruct (_ && _); [apply IH | reflexivity]. Qed.
  Lemma down_asks f : forall l hole, sift_down c f l hole = sift_down d f l hole.
  Proof. induction f as [|f IH]; intros l hole; cbn [sift_down]; [reflexivity |]. rewrite E. destruct (Nat.ltb _ _); [apply IH | reflexivity]. Qed.
  Lemma push_asks l : push_heap_bin c l = push_heap_bin d l.
  Proof. apply up_asks. Qed.
  Lemma pop_asks l : pop_heap_bin c l = pop_heap_bin d l.
  Proof.
    destruct l as [|t [|u l]]; [reflexivity .. |]. cbn [pop_heap_bin]. unfold adjust. rewrite down_asks. destruct (sift_down d _ _ _). now rewrite up_asks.
  Qed.
  Lemma sort_asks f : forall l, sort_heap_fuel c f l = sort_heap_fuel d f l.
  Proof. induction f as [|f IH]; intros l; cbn [sort_heap_fuel]; [reflexivity |]. rewrite pop_asks. destruct l as [|t [|u l]]; [reflexivity .. |]. now rewrite IH. Qed.
End Heaps.
Lemma binary_heap_asks : Asking binary_heap.
Proof. intros c d E l. cbn. split; [now apply push_asks |]. split; [now apply pop_asks |]. now apply sort_asks. Qed.
