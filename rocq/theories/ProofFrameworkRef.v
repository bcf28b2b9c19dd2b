(** Proofs about reference counts and drop: C41 and C42. *)

From Coq Require Import List ZArith Bool Permutation Lia Arith.
From Verif Require Import ModelFramework SpecFramework ProofFramework.
Import ListNotations.

Fixpoint sum (l : list nat) : nat :=
  match l with [] => O | x :: r => (x + sum r)%nat end.

Lemma sum_app : forall l r, sum (l ++ r) = (sum l + sum r)%nat.
Proof. induction l as [| x l IH]; intros r; cbn; [reflexivity | rewrite IH; lia]. Qed.

Lemma sum_perm : forall l r, Permutation l r -> sum l = sum r.
Proof. intros l r H; induction H; cbn; lia. Qed.

Lemma sum_le : forall A (f g : A -> nat) l, (forall x, In x l -> f x <= g x)%nat ->
  (sum (map f l) <= sum (map g l))%nat.
Proof.
  intros A f g; induction l as [| x l IH]; intros H; cbn; [lia |].
  pose proof (H x (or_introl eq_refl)).
  assert (sum (map f l) <= sum (map g l))%nat by (apply IH; intros; apply H; now right).
  lia.
Qed.

Lemma sum_eq : forall A (f g : A -> nat) l, (forall x, In x l -> f x = g x) ->
  sum (map f l) = sum (map g l).
Proof.
  intros A f g l H; f_equal; now apply map_ext_in.
Qed.

Lemma sum_pos : forall A (f : A -> nat) l,
  (0 < sum (map f l))%nat <-> exists x, In x l /\ (0 < f x)%nat.
Proof.
  intros A f; induction l as [| x l IH]; cbn.
  - split; [lia | intros [x [[] _]]].
  - split.
    + intros H; destruct (f x) eqn:E.
      * destruct (proj1 IH H) as [y [Hy P]]; exists y; split; [now right | assumption].
      * exists x; split; [now left | lia].
    + intros [y [[-> | Hy] P]]; [lia |].
      assert (0 < sum (map f l))%nat by (apply IH; now exists y); lia.
Qed.

Lemma filter_sum_le : forall A (p q : A -> bool) (f g : A -> nat) l,
  (forall x, In x l -> p x = true -> q x = true /\ (f x <= g x)%nat) ->
  (sum (map f (filter p l)) <= sum (map g (filter q l)))%nat.
Proof.
  intros A p q f g; induction l as [| x l IH]; intros H; cbn; [lia |].
  assert (K : (sum (map f (filter p l)) <= sum (map g (filter q l)))%nat)
    by (apply IH; intros; apply H; [now right | assumption]).
  pose proof (H x (or_introl eq_refl)) as Hx.
  destruct (p x); [destruct (Hx eq_refl) as [-> Hle]; cbn; lia |].
  destruct (q x); cbn; lia.
Qed.

Section Refs.
Variable L : Lib.
Variable B : Behaviour L.
Hypothesis HL : LibLaws L.

Local Notation acc := (acc L B).
Local Notation accset := (accset L B).
Local Notation who := (who L B).
Local Notation refs := (refs L B).
Local Notation tripped := (tripped L B).
Local Notation state := (state L B).
Local Notation droppable := (droppable L B).
Local Notation is_dropped := (is_dropped L B).
Local Notation feat a := (ffeature L (who a)).

(** ** Counting paths *)

Definition here (f : tag L) (t : ftag L) : nat :=
  if tag_eqb L (ffeature L t) f then 1%nat else 0%nat.

Definition below (ts : list (ftag L)) (t : ftag L) : list (ftag L) :=
  filter (provides_one_of L (deps L (fst t))) ts.

Fixpoint paths (ts : list (ftag L)) (n : nat) (t : ftag L) (f : tag L) : nat :=
  match n with
  | O => O
  | S n' => (here f t + sum (map (fun u => paths ts n' u f) (below ts t)))%nat
  end.

Fixpoint dpaths (ts : list (ftag L)) (n : nat) (t : ftag L) (f : tag L) : nat :=
  match n with
  | O => O
  | S n' => if snd t
            then (here f t + sum (map (fun u => dpaths ts n' u f) (below ts t)))%nat
            else O
  end.

Lemma provides_reads : forall t u, provides_one_of L (deps L (fst t)) u = true <-> Reads L t u.
Proof. intros t u; unfold provides_one_of; now rewrite (mem_In L HL). Qed.

Lemma below_in : forall ts t u, In u (below ts t) <-> In u ts /\ Reads L t u.
Proof. intros; unfold below; now rewrite filter_In, provides_reads. Qed.

Lemma reads_depth : forall t u, Reads L t u ->
  (depth L (ffeature L u) < depth L (ffeature L t))%nat.
Proof.
  intros t u H; unfold Reads in H; rewrite in_map_iff in H; destruct H as [d [E Hd]].
  rewrite <- E; now apply (ll_depth L HL).
Qed.

Lemma paths_fuel : forall ts n1 n2 t f, (depth L (ffeature L t) < n1)%nat ->
  (depth L (ffeature L t) < n2)%nat -> paths ts n1 t f = paths ts n2 t f.
Proof.
  intros ts; induction n1 as [| n1 IH]; intros n2 t f H1 H2; [lia |].
  destruct n2 as [| n2]; [lia |]; cbn; f_equal; apply sum_eq.
  intros u Hu; apply below_in in Hu; destruct Hu as [_ Hu]; apply reads_depth in Hu.
  apply IH; lia.
Qed.

Lemma dpaths_fuel : forall ts n1 n2 t f, (depth L (ffeature L t) < n1)%nat ->
  (depth L (ffeature L t) < n2)%nat -> dpaths ts n1 t f = dpaths ts n2 t f.
Proof.
  intros ts; induction n1 as [| n1 IH]; intros n2 t f H1 H2; [lia |].
  destruct n2 as [| n2]; [lia |]; cbn; destruct (snd t); [| reflexivity].
  f_equal; apply sum_eq.
  intros u Hu; apply below_in in Hu; destruct Hu as [_ Hu]; apply reads_depth in Hu.
  apply IH; lia.
Qed.

Lemma dpaths_le : forall ts n t f, (dpaths ts n t f <= paths ts n t f)%nat.
Proof.
  intros ts; induction n as [| n IH]; intros t f; cbn; [lia |].
  destruct (snd t); [| lia].
  assert (sum (map (fun u => dpaths ts n u f) (below ts t)) <=
          sum (map (fun u => paths ts n u f) (below ts t)))%nat
    by (apply sum_le; intros; apply IH).
  lia.
Qed.

Lemma here_pos : forall f t, (0 < here f t)%nat <-> ffeature L t = f.
Proof.
  intros f t; unfold here; destruct (tag_eqb L (ffeature L t) f) eqn:E.
  - apply (ll_eqb L HL) in E; split; [auto | lia].
  - split; [lia | intros H; apply (ll_eqb L HL) in H; congruence].
Qed.

(** There is a path exactly when the accumulator is needed. *)
Lemma paths_pos : forall ts n t f, In t ts -> (depth L (ffeature L t) < n)%nat ->
  ((0 < paths ts n t f)%nat <-> exists b, Needs L ts t b /\ ffeature L b = f).
Proof.
  intros ts; induction n as [| n IH]; intros t f Ht Hn; [lia |].
  cbn; split.
  - intros H; destruct (here f t) eqn:E.
    + assert (H' : (0 < sum (map (fun u => paths ts n u f) (below ts t)))%nat) by lia.
      apply sum_pos in H'; destruct H' as [u [Hu Hp]].
      apply below_in in Hu; destruct Hu as [Hu Hr].
      apply IH in Hp; [| assumption | apply reads_depth in Hr; lia].
      destruct Hp as [b [Hb Eb]]; exists b; split; [| assumption].
      now apply (needs_read L ts t u b).
    + exists t; split; [now constructor | apply here_pos; lia].
  - intros [b [Hb Eb]]; destruct Hb as [a Ha | a c b Ha Hc Hr Hb].
    + apply here_pos in Eb; lia.
    + assert (0 < sum (map (fun u => paths ts n u f) (below ts a)))%nat.
      { apply sum_pos; exists c; split; [apply below_in; now split |].
        apply IH; [assumption | apply reads_depth in Hr; lia | now exists b]. }
      lia.
Qed.

Lemma dpaths_eq : forall ts n t f, In t ts ->
  (forall b, Needs L ts t b -> snd b = true) -> dpaths ts n t f = paths ts n t f.
Proof.
  intros ts; induction n as [| n IH]; intros t f Ht H; cbn; [reflexivity |].
  rewrite (H t) by (now constructor).
  f_equal; apply sum_eq; intros u Hu; apply below_in in Hu; destruct Hu as [Hu Hr].
  apply IH; [assumption |]; intros b Hb; apply H; now apply (needs_read L ts t u b).
Qed.

(** ** add_ref and drop in terms of paths *)

Definition raise (k : tag L -> nat) (s : accset) : accset :=
  map (fun a => if droppable a
                then mkAcc L B (who a) (refs a + Z.of_nat (k (feat a))) (tripped a) (state a)
                else a) s.

Definition lower (k : tag L -> nat) (s : accset) : accset :=
  map (fun a => if droppable a
                then mkAcc L B (who a) (refs a - Z.of_nat (k (feat a)))
                       (tripped a || ((0 <? k (feat a))%nat && (refs a <? Z.of_nat (k (feat a)))%Z))
                       (state a)
                else a) s.

Lemma raise_who : forall k s, map who (raise k s) = map who s.
Proof.
  intros k s; unfold raise; rewrite map_map; apply map_ext.
  intros a; destruct (droppable a); reflexivity.
Qed.

Lemma lower_who : forall k s, map who (lower k s) = map who s.
Proof.
  intros k s; unfold lower; rewrite map_map; apply map_ext.
  intros a; destruct (droppable a); reflexivity.
Qed.

Lemma acc_eq : forall w r1 r2 b1 b2 st, r1 = r2 -> b1 = b2 ->
  mkAcc L B w r1 b1 st = mkAcc L B w r2 b2 st.
Proof. intros; now subst. Qed.

Lemma raise_raise : forall k1 k2 s,
  raise k2 (raise k1 s) = raise (fun f => (k1 f + k2 f)%nat) s.
Proof.
  intros; unfold raise; rewrite map_map; apply map_ext; intros a.
  destruct (droppable a) eqn:E; [| now rewrite E].
  unfold ModelFramework.droppable in *; cbn [ModelFramework.who ModelFramework.refs ModelFramework.tripped ModelFramework.state]; rewrite E; apply acc_eq; [lia | reflexivity].
Qed.

Lemma lower_lower : forall k1 k2 s,
  lower k2 (lower k1 s) = lower (fun f => (k1 f + k2 f)%nat) s.
Proof.
  intros; unfold lower; rewrite map_map; apply map_ext; intros a.
  destruct (droppable a) eqn:E; [| now rewrite E].
  unfold ModelFramework.droppable in *; cbn [ModelFramework.who ModelFramework.refs ModelFramework.tripped ModelFramework.state]; rewrite E; apply acc_eq; [lia |].
  generalize (k1 (feat a)) as x, (k2 (feat a)) as y, (refs a) as r; intros x y r.
  rewrite <- orb_assoc; f_equal.
  destruct (Nat.ltb_spec 0 x), (Nat.ltb_spec 0 y), (Nat.ltb_spec 0 (x + y)); try lia; cbn;
  destruct (Z.ltb_spec r (Z.of_nat x)), (Z.ltb_spec (r - Z.of_nat x) (Z.of_nat y)),
           (Z.ltb_spec r (Z.of_nat (x + y))); try reflexivity; lia.
Qed.

Lemma raise_ext : forall k1 k2 s, (forall f, k1 f = k2 f) -> raise k1 s = raise k2 s.
Proof. intros; unfold raise; apply map_ext; intros a; now rewrite H. Qed.

Lemma lower_ext : forall k1 k2 s, (forall f, k1 f = k2 f) -> lower k1 s = lower k2 s.
Proof. intros; unfold lower; apply map_ext; intros a; now rewrite H. Qed.

Lemma raise_zero : forall s, raise (fun _ => O) s = s.
Proof.
  intros s; unfold raise; rewrite <- (map_id s) at 2; apply map_ext; intros a.
  destruct (droppable a); [| reflexivity].
  destruct a; cbn; apply acc_eq; [lia | reflexivity].
Qed.

Lemma lower_zero : forall s, lower (fun _ => O) s = s.
Proof.
  intros s; unfold lower; rewrite <- (map_id s) at 2; apply map_ext; intros a.
  destruct (droppable a); [| reflexivity].
  destruct a; cbn; apply acc_eq; [lia | now rewrite orb_false_r].
Qed.

Lemma add_ref1_raise : forall t s, add_ref1 L B (ffeature L t) s = raise (fun f => here f t) s.
Proof.
  intros t s; unfold add_ref1, raise; apply map_ext; intros a.
  unfold here; destruct (tag_eqb L (ffeature L t) (feat a)); cbn; [reflexivity |].
  destruct (droppable a); [| reflexivity].
  destruct a; cbn; apply acc_eq; [lia | reflexivity].
Qed.

Lemma drop1_lower : forall t s, drop1 L B (ffeature L t) s = lower (fun f => here f t) s.
Proof.
  intros t s; unfold drop1, lower; apply map_ext; intros a.
  unfold here; destruct (tag_eqb L (ffeature L t) (feat a)); cbn.
  - destruct (droppable a); [| reflexivity]; apply acc_eq; [reflexivity |].
    f_equal; destruct (Z.ltb_spec 0 (refs a)), (Z.ltb_spec (refs a) 1); try reflexivity; lia.
  - destruct (droppable a); [| reflexivity].
    destruct a; cbn; apply acc_eq; [lia | now rewrite orb_false_r].
Qed.

Lemma add_ref_raise : forall n t s,
  add_ref L B n t s = raise (fun f => paths (map who s) n t f) s.
Proof.
  induction n as [| n IH]; intros t s; [symmetry; apply raise_zero |].
  cbn [add_ref]; rewrite add_ref1_raise.
  assert (H : forall us k, fold_left (fun s' u => add_ref L B n u s') us (raise k s) =
     raise (fun f => (k f + sum (map (fun u => paths (map who s) n u f) us))%nat) s).
  { induction us as [| u us IHu]; intros k; cbn [fold_left map sum].
    - apply raise_ext; intros; lia.
    - rewrite IH, raise_who, raise_raise, IHu; apply raise_ext; intros; lia. }
  rewrite H; reflexivity.
Qed.

Lemma drop_ref_lower : forall n t s,
  drop_ref L B n t s = lower (fun f => dpaths (map who s) n t f) s.
Proof.
  induction n as [| n IH]; intros t s; [symmetry; apply lower_zero |].
  cbn [drop_ref dpaths]; destruct (snd t); [| symmetry; apply lower_zero].
  rewrite drop1_lower.
  assert (H : forall us k, fold_left (fun s' u => drop_ref L B n u s') us (lower k s) =
     lower (fun f => (k f + sum (map (fun u => dpaths (map who s) n u f) us))%nat) s).
  { induction us as [| u us IHu]; intros k; cbn [fold_left map sum].
    - apply lower_ext; intros; lia.
    - rewrite IH, lower_who, lower_lower, IHu; apply lower_ext; intros; lia. }
  rewrite H; reflexivity.
Qed.

(** Paths followed by drop<t>(). *)
Definition rpaths (ts : list (ftag L)) (t : tag L) (f : tag L) : nat :=
  (here f (t, true) +
   sum (map (fun u => dpaths ts (S (depth L (ffeature L u))) u f)
            (filter (provides_one_of L (deps L (feature L t))) ts)))%nat.

Lemma drop_lower : forall t s, drop L B t s = lower (rpaths (map who s) t) s.
Proof.
  intros t s; unfold drop; cbv zeta.
  change (feature L t) with (ffeature L (t, true)) at 2; rewrite drop1_lower.
  assert (H : forall us k,
     fold_left (fun s' u => drop_ref L B (S (depth L (ffeature L u))) u s') us (lower k s) =
     lower (fun f => (k f + sum (map (fun u => dpaths (map who s) (S (depth L (ffeature L u))) u f) us))%nat) s).
  { induction us as [| u us IHu]; intros k; cbn [fold_left map sum].
    - apply lower_ext; intros; lia.
    - rewrite drop_ref_lower, lower_who, lower_lower, IHu; apply lower_ext; intros; lia. }
  rewrite H; reflexivity.
Qed.

(** ** Pushing *)

Lemma visit_app : forall x todo done, exists r,
  visit L B x done todo = done ++ r /\ map who r = map who todo /\
  map refs r = map refs todo /\ map tripped r = map tripped todo.
Proof.
  intros x; induction todo as [| a todo IH]; intros done; cbn.
  - exists []; now rewrite app_nil_r.
  - destruct (IH (done ++ [operate L B (done ++ a :: todo) x a])) as [r [E [H1 [H2 H3]]]].
    exists (operate L B (done ++ a :: todo) x a :: r).
    rewrite E, <- app_assoc; cbn; split; [reflexivity |].
    rewrite H1, H2, H3; unfold operate.
    destruct (is_dropped a); cbn; auto.
Qed.

Lemma push_shape : forall s x, map who (push L B s x) = map who s /\
  map refs (push L B s x) = map refs s /\ map tripped (push L B s x) = map tripped s.
Proof.
  intros s x; unfold push; destruct (visit_app x s []) as [r [-> H]]; exact H.
Qed.

Lemma drop_shape : forall s t, map who (drop L B t s) = map who s /\
  map state (drop L B t s) = map state s.
Proof.
  intros s t; rewrite drop_lower; split; [apply lower_who |].
  unfold lower; rewrite map_map; apply map_ext; intros a; now destruct (droppable a).
Qed.

Lemma history_who : forall es s, map who (history L B s es) = map who s.
Proof.
  induction es as [| e es IH]; intros s; cbn; [reflexivity |].
  unfold history in *; cbn; rewrite IH; destruct e; cbn; [apply push_shape | apply drop_shape].
Qed.

(** A dropped accumulator ignores the sample, any other takes it. *)
Lemma visit_nth : forall x todo done i a, nth_error todo i = Some a ->
  exists c, nth_error (visit L B x done todo) (length done + i) = Some (operate L B c x a).
Proof.
  intros x; induction todo as [| b todo IH]; intros done i a H; [destruct i; discriminate |].
  destruct i as [| i]; cbn in *.
  - injection H as ->; exists (done ++ a :: todo).
    destruct (visit_app x todo (done ++ [operate L B (done ++ a :: todo) x a])) as [r [-> _]].
    rewrite <- app_assoc, Nat.add_0_r, nth_error_app2, Nat.sub_diag by lia; reflexivity.
  - destruct (IH (done ++ [operate L B (done ++ b :: todo) x b]) i a H) as [c Hc].
    exists c; rewrite <- Hc; f_equal; rewrite app_length; cbn; lia.
Qed.

Lemma push_nth : forall s x i a, nth_error s i = Some a ->
  exists c, nth_error (push L B s x) i = Some (operate L B c x a).
Proof. intros s x i a H; now apply (visit_nth x s [] i a). Qed.

Lemma push_frozen : forall s x i a, nth_error s i = Some a -> is_dropped a = true ->
  nth_error (push L B s x) i = Some a.
Proof.
  intros s x i a H D; destruct (push_nth s x i a H) as [c ->].
  unfold operate; now rewrite D.
Qed.

(** ** The counts after any history *)

Local Notation dropped_tags := (dropped_tags L B).

(** What is known of the [i]th accumulator of a set: tag, count and assertion flag. *)
Definition counts (s : accset) : list (ftag L * Z * bool) :=
  map (fun a => (who a, refs a, tripped a)) s.

Definition lowered (k : tag L -> nat) (c : list (ftag L * Z * bool)) :=
  map (fun e => let '(w, r, b) := e in
         if snd (w : ftag L)
         then (w, (r - Z.of_nat (k (ffeature L w)))%Z,
               b || ((0 <? k (ffeature L w))%nat && (r <? Z.of_nat (k (ffeature L w)))%Z))
         else e) c.

Lemma counts_lower : forall k s, counts (lower k s) = lowered k (counts s).
Proof.
  intros k s; unfold counts, lower, lowered; rewrite !map_map; apply map_ext; intros a.
  unfold ModelFramework.droppable; destruct (snd (who a)) eqn:E; cbn; reflexivity.
Qed.

Lemma map3 : forall s1 s2, map who s1 = map who s2 -> map refs s1 = map refs s2 ->
  map tripped s1 = map tripped s2 -> counts s1 = counts s2.
Proof.
  induction s1 as [| a s1 IH]; intros [| b s2] H1 H2 H3; cbn in *; try discriminate; [reflexivity |].
  injection H1 as E1 H1; injection H2 as E2 H2; injection H3 as E3 H3.
  rewrite E1, E2, E3; f_equal; now apply IH.
Qed.

Lemma counts_push : forall s x, counts (push L B s x) = counts s.
Proof. intros s x; destruct (push_shape s x) as [H1 [H2 H3]]; now apply map3. Qed.

Lemma lower_counts_ext : forall k s1 s2, counts s1 = counts s2 ->
  counts (lower k s1) = counts (lower k s2).
Proof. intros k s1 s2 H; now rewrite !counts_lower, H. Qed.

Lemma history_counts : forall es s,
  counts (history L B s es) =
  counts (lower (fun f => sum (map (fun t => rpaths (map who s) t f) (dropped_tags es))) s).
Proof.
  intros es s; remember (map who s) as ts eqn:Ets.
  assert (H : forall es s' k, map who s' = ts -> counts s' = counts (lower k s) ->
     counts (history L B s' es) =
     counts (lower (fun f => (k f + sum (map (fun t => rpaths ts t f) (dropped_tags es)))%nat) s)).
  { clear es; induction es as [| e es IH]; intros s' k Hw Hc.
    - unfold history; cbn [fold_left dropped_tags flat_map map sum]; rewrite Hc; f_equal.
      apply lower_ext; intros; lia.
    - unfold history in *; cbn [fold_left]; destruct e as [x | t]; cbn [handle dropped_tags flat_map].
      + cbn; apply IH; [rewrite <- Hw; apply push_shape | now rewrite counts_push].
      + rewrite (IH (drop L B t s') (fun f => (k f + rpaths ts t f)%nat)).
        * f_equal; apply lower_ext; intros; cbn; unfold SpecFramework.dropped_tags; lia.
        * rewrite <- Hw; apply drop_shape.
        * rewrite drop_lower, Hw, counts_lower, Hc, <- counts_lower, lower_lower; reflexivity. }
  rewrite (H es s (fun _ => O)); [reflexivity | congruence | now rewrite lower_zero].
Qed.

(** ** The counts after construction *)
Section Built.
Variable enum : fmap L -> fmap L.
Hypothesis Henum : Enumeration L enum.
Variable W : bool.
Variable fs : list (request L).

Let ts := make_tuple L enum W fs.
Let s0 := construct L B enum W fs.
Let roots := filter (requests L fs) ts.

Let blank (t : ftag L) : acc := mkAcc L B t 0 false (init L B (fst t)).

Definition total_paths (f : tag L) : nat :=
  sum (map (fun r => paths ts (S (depth L (ffeature L r))) r f) roots).

Lemma construct_raise : s0 = raise total_paths (map blank ts).
Proof.
  unfold s0, construct; cbv zeta; fold ts.
  assert (Hw : map who (map blank ts) = ts)
    by (rewrite map_map; rewrite <- (map_id ts) at 2; apply map_ext; reflexivity).
  assert (H : forall us k,
     fold_left (fun s t => add_ref L B (S (depth L (ffeature L t))) t s) us (raise k (map blank ts)) =
     raise (fun f => (k f + sum (map (fun r => paths ts (S (depth L (ffeature L r))) r f) us))%nat)
       (map blank ts)).
  { induction us as [| u us IHu]; intros k; cbn [fold_left map sum].
    - apply raise_ext; intros; lia.
    - rewrite add_ref_raise, raise_who, Hw, raise_raise, IHu; apply raise_ext; intros; lia. }
  specialize (H roots (fun _ => O)); rewrite raise_zero in H.
  unfold roots in H |- *; unfold blank in H |- *; exact H.
Qed.

Lemma construct_who : map who s0 = ts.
Proof.
  rewrite construct_raise, raise_who, map_map; rewrite <- (map_id ts) at 2; now apply map_ext.
Qed.

Lemma construct_in : forall a, In a s0 ->
  In (who a) ts /\ tripped a = false /\
  (droppable a = true -> refs a = Z.of_nat (total_paths (feat a))).
Proof.
  intros a Ha; rewrite construct_raise in Ha; unfold raise in Ha.
  rewrite map_map, in_map_iff in Ha; destruct Ha as [t [E Ht]].
  unfold ModelFramework.droppable in *; cbn in E.
  destruct (snd t) eqn:D; subst a; cbn; (split; [assumption |]); (split; [reflexivity |]).
  - intros _; unfold ModelFramework.droppable; cbn; lia.
  - intros X; congruence.
Qed.

(** ** Legal drops *)

Local Notation LegalDrops := (LegalDrops L fs ts).
Local Notation Released := (Released L ts).
Local Notation Releasing := (Releasing L ts).
Local Notation Live := (Live L fs ts).

Lemma rpaths_le : forall r t f, In r ts -> ffeature L r = feature L t -> Released r ->
  (rpaths ts t f <= paths ts (S (depth L (ffeature L r))) r f)%nat.
Proof.
  intros r t f Hr E Hd; unfold rpaths; cbn [paths].
  assert (E1 : here f (t, true) = here f r) by (unfold here; now rewrite E).
  rewrite E1; apply Nat.add_le_mono_l.
  unfold below; rewrite <- E.
  apply filter_sum_le; intros u Hu Hp.
  unfold provides_one_of in Hp; apply (mem_In L HL) in Hp.
  assert (R := Hd u Hu Hp); split; [now apply provides_reads |].
  apply reads_depth in R.
  rewrite (dpaths_fuel ts _ (depth L (ffeature L r))) by lia.
  apply dpaths_le.
Qed.

Lemma rpaths_eq : forall r t f, In r ts -> ffeature L r = feature L t ->
  Released r -> Releasing r -> (forall b, Needs L ts r b -> snd b = true) ->
  rpaths ts t f = paths ts (S (depth L (ffeature L r))) r f.
Proof.
  intros r t f Hr E H1 H2 Hd; unfold rpaths; cbn [paths].
  assert (E1 : here f (t, true) = here f r) by (unfold here; now rewrite E).
  rewrite E1; f_equal; unfold below; rewrite <- E.
  assert (F : filter (provides_one_of L (deps L (ffeature L r))) ts =
              filter (provides_one_of L (deps L (fst r))) ts).
  { apply filter_ext_in; intros u Hu; unfold provides_one_of.
    destruct (mem L (ffeature L u) (map (feature L) (deps L (fst r)))) eqn:M.
    - apply (mem_In L HL); apply (mem_In L HL) in M; now apply H2.
    - apply (mem_nIn L HL); apply (mem_nIn L HL) in M; intros X; apply M; now apply H1. }
  rewrite F; apply sum_eq; intros u Hu.
  apply filter_In in Hu; destruct Hu as [Hu Hp]; apply provides_reads in Hp.
  pose proof (reads_depth _ _ Hp).
  rewrite (dpaths_fuel ts _ (depth L (ffeature L r))) by lia.
  apply dpaths_eq; [assumption |].
  intros b Hb; apply Hd; now apply (needs_read L ts r u b).
Qed.

(** Dropped roots, one for each dropped tag. *)
Lemma legal_roots : forall ds, LegalDrops ds -> exists rs,
  Forall2 (fun t r => In r roots /\ snd r = true /\ ffeature L r = feature L t) ds rs.
Proof.
  intros ds [_ H]; induction ds as [| t ds IH]; [now exists [] |].
  destruct (H t (or_introl eq_refl)) as [r [H1 [H2 [H3 H4]]]].
  destruct IH as [rs IH]; [intros u Hu; apply H; now right |].
  exists (r :: rs); constructor; [| assumption].
  split; [unfold roots; apply filter_In; now split |]; now split.
Qed.

Lemma ts_nodup : NoDup ts.
Proof.
  apply (NoDup_map_inv (ffeature L)); now apply (tuple_once L HL enum Henum W fs).
Qed.

Lemma incl_split : forall A (l r : list A), NoDup l -> NoDup r -> incl l r ->
  exists q, Permutation r (l ++ q) /\ forall x, In x q -> In x r /\ ~ In x l.
Proof.
  intros A; induction l as [| a l IH]; intros r Nl Nr I.
  - exists r; split; [reflexivity | intros x Hx; now split].
  - inversion Nl as [| b c N1 N2]; subst.
    assert (Ha : In a r) by (apply I; now left).
    destruct (in_split _ _ Ha) as [r1 [r2 E]]; subst r.
    assert (P : Permutation (r1 ++ a :: r2) (a :: r1 ++ r2)) by (symmetry; apply Permutation_middle).
    assert (Nr' : NoDup (r1 ++ r2)).
    { apply (Permutation_NoDup P) in Nr; now inversion Nr. }
    destruct (IH (r1 ++ r2) N2 Nr') as [q [Pq Hq]].
    { intros x Hx; assert (Hx' := I x (or_intror Hx)).
      apply (Permutation_in _ P) in Hx'; destruct Hx' as [-> | Hx']; [contradiction | assumption]. }
    exists q; split.
    + rewrite P; cbn; now constructor.
    + intros x Hx; destruct (Hq x Hx) as [H1 H2]; split.
      * apply (Permutation_in _ (Permutation_sym P)); now right.
      * intros [-> | X]; [| contradiction].
        apply (Permutation_NoDup P) in Nr; inversion Nr; contradiction.
Qed.

(** The balance: what remains is what the live roots contributed, plus what the
    dropped ones contributed and did not give back. *)
Lemma balance : forall ds, LegalDrops ds -> exists rs q,
  Forall2 (fun t r => In r roots /\ snd r = true /\ ffeature L r = feature L t) ds rs /\
  (forall r, In r q <-> Live ds r) /\
  forall f, total_paths f =
    (sum (map (fun r => paths ts (S (depth L (ffeature L r))) r f) rs) +
     sum (map (fun r => paths ts (S (depth L (ffeature L r))) r f) q))%nat.
Proof.
  intros ds HD; destruct (legal_roots ds HD) as [rs F]; destruct HD as [N _].
  assert (E : map (ffeature L) rs = map (feature L) ds).
  { clear N; induction F as [| t r ds rs [_ [_ E]] F IH]; [reflexivity |].
    cbn; now rewrite IH, E. }
  assert (Nrs : NoDup rs) by (apply (NoDup_map_inv (ffeature L)); now rewrite E).
  assert (Irs : incl rs roots).
  { clear - F; induction F as [| t r ds rs [Hr _] F IH]; [intros x [] |].
    intros x [<- | Hx]; [assumption | now apply IH]. }
  assert (Nroots : NoDup roots) by (apply NoDup_filter, ts_nodup).
  destruct (incl_split _ rs roots Nrs Nroots Irs) as [q [P Hq]].
  exists rs, q; split; [exact F |]; split.
  - intros r; split.
    + intros Hr; destruct (Hq r Hr) as [H1 H2].
      unfold roots in H1; apply filter_In in H1; destruct H1 as [H1 H3].
      split; [assumption |]; split; [assumption |].
      rewrite <- E, in_map_iff; intros [r' [Er' Hr']].
      apply H2; replace r with r'; [assumption |].
      apply (tuple_same L HL enum Henum W fs); [| assumption | assumption].
      apply Irs in Hr'; unfold roots in Hr'; apply filter_In in Hr'; apply Hr'.
    + intros [H1 [H2 H3]].
      assert (Hr : In r roots) by (unfold roots; apply filter_In; now split).
      apply (Permutation_in _ P), in_app_or in Hr; destruct Hr as [Hr | Hr]; [| assumption].
      exfalso; apply H3; rewrite <- E; now apply in_map.
  - intros f; unfold total_paths; rewrite <- sum_app, <- map_app.
    apply sum_perm, Permutation_map, P.
Qed.

(** The accumulator at a place of the set after a history. *)
Lemma history_in : forall es a, In a (history L B s0 es) -> exists a0,
  In a0 s0 /\ who a = who a0 /\
  (droppable a = true ->
   let k := sum (map (fun t => rpaths ts t (feat a)) (dropped_tags es)) in
   refs a = (refs a0 - Z.of_nat k)%Z /\
   (tripped a0 = false -> (Z.of_nat k <= refs a0)%Z -> tripped a = false)) /\
  (droppable a = false -> tripped a = tripped a0).
Proof.
  intros es a Ha.
  assert (H := history_counts es s0); rewrite construct_who in H.
  assert (Hc : In (who a, refs a, tripped a) (counts (history L B s0 es))).
  { unfold counts; rewrite in_map_iff; now exists a. }
  rewrite H in Hc; unfold counts in Hc; rewrite in_map_iff in Hc.
  destruct Hc as [b [E Hb]]; unfold lower in Hb; rewrite in_map_iff in Hb.
  destruct Hb as [a0 [Ea0 Ha0]]; exists a0; split; [assumption |].
  destruct (droppable a0) eqn:D; subst b; unfold ModelFramework.droppable in *; cbn in E;
    injection E as E1 E2 E3.
  - split; [congruence |]; split.
    + intros _; cbv zeta; rewrite <- E1, <- E2, <- E3; split; [reflexivity |].
      intros -> Hk; cbn.
      match goal with |- ?u && _ = false => destruct u; [cbn [andb] | reflexivity] end.
      apply Z.ltb_ge; assumption.
    + intros X; rewrite <- E1 in X; congruence.
  - split; [congruence |]; split; [intros X; rewrite <- E1 in X; congruence |].
    intros _; congruence.
Qed.

(** C41, first half: what a live request needs keeps accumulating, and no
    assertion fails. *)
Theorem needed_continues : forall es, LegalDrops (dropped_tags es) ->
  (forall r t, In t (dropped_tags es) -> In r ts -> ffeature L r = feature L t -> Released r) ->
  forall a, In a (history L B s0 es) ->
    tripped a = false /\
    (forall r, Live (dropped_tags es) r -> Needs L ts r (who a) -> is_dropped a = false).
Proof.
  intros es HD HM a Ha; destruct (history_in es a Ha) as [a0 [H0 [Ew [Hd Hn]]]].
  destruct (construct_in a0 H0) as [Hts [Ht0 Hr0]].
  destruct (droppable a) eqn:D.
  2: { split; [rewrite Hn by reflexivity; exact Ht0 |].
       intros r _ _; unfold ModelFramework.is_dropped; now rewrite D. }
  specialize (Hd eq_refl); cbv zeta in Hd; destruct Hd as [Er Et].
  assert (D0 : droppable a0 = true) by (unfold ModelFramework.droppable in *; now rewrite <- Ew).
  specialize (Hr0 D0); rewrite <- Ew in Hr0.
  destruct (balance _ HD) as [rs [q [F [Hq Hb]]]].
  set (f := feat a) in *.
  set (k := sum (map (fun t => rpaths ts t f) (dropped_tags es))) in *.
  assert (Hle : (k <= sum (map (fun r => paths ts (S (depth L (ffeature L r))) r f) rs))%nat).
  { unfold k; clear - HL F HM.
    assert (HM' : forall t, In t (dropped_tags es) -> forall r, In r ts -> ffeature L r = feature L t -> Released r)
      by (intros; now apply (HM r t)).
    clear HM; revert F HM'; generalize (dropped_tags es) as ds; intros ds F; induction F as [| t r ds rs [Hr [_ E]] F IH]; intros HM; cbn [map sum]; [lia |].
    unfold roots in Hr; apply filter_In in Hr; destruct Hr as [Hr _].
    pose proof (rpaths_le r t f Hr E (HM t (or_introl eq_refl) r Hr E)) as X.
    assert (Y := IH (fun t' Ht' => HM t' (or_intror Ht'))); lia. }
  specialize (Hb f); split.
  - apply Et; [exact Ht0 | rewrite Hr0; lia].
  - intros r HL' HN.
    assert (Hp : (0 < sum (map (fun r => paths ts (S (depth L (ffeature L r))) r f) q))%nat).
    { apply sum_pos; exists r; split; [now apply Hq |].
      apply paths_pos; [apply HL' | lia |]; exists (who a); now split. }
    unfold ModelFramework.is_dropped; rewrite D; cbn; apply Z.eqb_neq; lia.
Qed.

(** C41, second half: what no live request needs stops. *)
Theorem unneeded_stops : forall es, LegalDrops (dropped_tags es) ->
  (forall r t, In t (dropped_tags es) -> In r ts -> ffeature L r = feature L t ->
     Released r /\ Releasing r /\ (forall b, Needs L ts r b -> snd b = true)) ->
  forall a, In a (history L B s0 es) -> droppable a = true ->
    (forall r, Live (dropped_tags es) r -> ~ Needs L ts r (who a)) -> is_dropped a = true.
Proof.
  intros es HD HM a Ha D HN; destruct (history_in es a Ha) as [a0 [H0 [Ew [Hd _]]]].
  destruct (construct_in a0 H0) as [Hts [_ Hr0]].
  specialize (Hd D); cbv zeta in Hd; destruct Hd as [Er _].
  assert (D0 : droppable a0 = true) by (unfold ModelFramework.droppable in *; now rewrite <- Ew).
  specialize (Hr0 D0); rewrite <- Ew in Hr0.
  destruct (balance _ HD) as [rs [q [F [Hq Hb]]]].
  set (f := feat a) in *.
  set (k := sum (map (fun t => rpaths ts t f) (dropped_tags es))) in *.
  assert (Heq : k = sum (map (fun r => paths ts (S (depth L (ffeature L r))) r f) rs)).
  { unfold k; clear - HL F HM.
    assert (HM' : forall t, In t (dropped_tags es) -> forall r, In r ts -> ffeature L r = feature L t ->
       Released r /\ Releasing r /\ (forall b, Needs L ts r b -> snd b = true))
      by (intros; now apply (HM r t)).
    clear HM; revert F HM'; generalize (dropped_tags es) as ds; intros ds F; induction F as [| t r ds rs [Hr [_ E]] F IH]; intros HM; cbn [map sum]; [reflexivity |].
    unfold roots in Hr; apply filter_In in Hr; destruct Hr as [Hr _].
    destruct (HM t (or_introl eq_refl) r Hr E) as [M1 [M2 M3]].
    rewrite (rpaths_eq r t f Hr E M1 M2 M3).
    f_equal; exact (IH (fun t' Ht' => HM t' (or_intror Ht'))). }
  specialize (Hb f).
  assert (Hz : sum (map (fun r => paths ts (S (depth L (ffeature L r))) r f) q) = 0%nat).
  { destruct (sum (map (fun r => paths ts (S (depth L (ffeature L r))) r f) q)) eqn:Z; [reflexivity | exfalso].
    assert (Hp : (0 < sum (map (fun r => paths ts (S (depth L (ffeature L r))) r f) q))%nat) by lia.
    apply sum_pos in Hp; destruct Hp as [r [Hr Hp]].
    apply Hq in Hr; apply paths_pos in Hp; [| apply Hr | lia].
    destruct Hp as [b [Hb' Eb]]; apply (HN r Hr).
    replace (who a) with b; [assumption |].
    assert (Ib : In b ts).
    { clear - Hb'; induction Hb'; assumption. }
    apply (tuple_same L HL enum Henum W fs); [assumption | rewrite Ew; assumption | assumption]. }
  unfold ModelFramework.is_dropped; rewrite D; cbn; apply Z.eqb_eq; lia.
Qed.

(** Once dropped, for ever dropped and unchanged. *)
Lemma legal_prefix : forall ea eb, LegalDrops (dropped_tags (ea ++ eb)) -> LegalDrops (dropped_tags ea).
Proof.
  intros ea eb [N H]; unfold SpecFramework.dropped_tags in *; rewrite flat_map_app in *; split.
  - rewrite map_app in N; clear H.
    match type of N with NoDup (?l ++ ?r) => revert N; generalize l as l0 end.
    induction l0 as [| x l0 IH]; intros N; [constructor |].
    cbn in N; inversion N as [| y z N1 N2]; subst; constructor; [| now apply IH].
    intros Hx; apply N1, in_or_app; now left.
  - intros t Ht; apply H, in_or_app; now left.
Qed.

Theorem stays_frozen : forall es es', LegalDrops (dropped_tags (es ++ es')) ->
  (forall r t, In t (dropped_tags (es ++ es')) -> In r ts -> ffeature L r = feature L t -> Released r) ->
  forall i a, nth_error (history L B s0 es) i = Some a -> is_dropped a = true ->
  exists a', nth_error (history L B s0 (es ++ es')) i = Some a' /\
    who a' = who a /\ state a' = state a /\ is_dropped a' = true.
Proof.
  intros es es'; induction es' as [| e es' IH] using rev_ind; intros HD HM i a Ha Hd.
  - rewrite app_nil_r; now exists a.
  - rewrite app_assoc in *.
    destruct (IH (legal_prefix _ _ HD)) with (i := i) (a := a) as [a' [H1 [H2 [H3 H4]]]]; try assumption.
    { intros r t Ht; apply HM; unfold SpecFramework.dropped_tags in *; rewrite flat_map_app; apply in_or_app; now left. }
    set (s := history L B s0 (es ++ es')) in *.
    assert (Eh : history L B s0 ((es ++ es') ++ [e]) = handle L B s e)
      by (unfold s, history; now rewrite fold_left_app).
    destruct e as [x | t]; cbn [handle] in Eh.
    + exists a'; rewrite Eh; split; [now apply push_frozen | now repeat split].
    + destruct (nth_error (history L B s0 ((es ++ es') ++ [Drop L B t])) i) as [b |] eqn:Eb.
      * exists b; split; [reflexivity |].
        assert (Tb := proj1 (needed_continues _ HD HM b (nth_error_In _ _ Eb))).
        rewrite Eh, drop_lower in Eb; unfold lower in Eb; rewrite nth_error_map, H1 in Eb; cbn in Eb.
        unfold ModelFramework.is_dropped in *; apply andb_true_iff in H4; destruct H4 as [H4 H5].
        rewrite H4 in Eb; injection Eb as <-; cbn in *.
        unfold ModelFramework.droppable in *; cbn; rewrite H4; cbn.
        apply Z.eqb_eq in H5; rewrite H5 in Tb.
        apply orb_false_iff in Tb; destruct Tb as [_ Tb].
        repeat split; try assumption; apply Z.eqb_eq; rewrite H5.
        destruct (rpaths (map who s) t (feat a')) as [| k]; [reflexivity | exfalso].
        cbn in Tb; discriminate Tb.
      * exfalso; rewrite Eh, drop_lower in Eb; unfold lower in Eb; rewrite nth_error_map, H1 in Eb.
        discriminate Eb.
Qed.

End Built.
End Refs.
