(** Proofs about runs of a set: what a push does in a well-ordered set, and
    noninterference (C40). *)

From Coq Require Import List ZArith Bool Permutation Lia Arith.
From Verif Require Import ModelFramework SpecFramework ProofFramework ProofFrameworkRef.
Import ListNotations.

Section Run.
Variable L : Lib.
Variable B : Behaviour L.
Hypothesis HL : LibLaws L.
Variable consults : tag L -> list (tag L).
Variable on_push : tag L -> bool.
Hypothesis HB : ReadsOnly L B consults on_push.

Local Notation acc := (acc L B).
Local Notation accset := (accset L B).
Local Notation who := (who L B).
Local Notation refs := (refs L B).
Local Notation tripped := (tripped L B).
Local Notation state := (state L B).
Local Notation is_dropped := (is_dropped L B).
Local Notation feat a := (ffeature L (who a)).
Local Notation find := (find L B).
Local Notation read := (read L B).

Definition Single (ts : list (ftag L)) : Prop := NoDup (map (ffeature L) ts).

Lemma nodup_app_l : forall A (l r : list A), NoDup (l ++ r) -> NoDup l.
Proof.
  intros A; induction l as [| a l IH]; intros r N; [constructor |].
  cbn in N; inversion N as [| b c N1 N2]; subst; constructor; [| now apply (IH r)].
  intros X; apply N1, in_or_app; now left.
Qed.

(** ** find *)
Lemma find_in : forall s f a, find s f = Some a -> In a s /\ feat a = f.
Proof.
  intros s f a H; apply find_some in H; destruct H as [H1 H2].
  apply (ll_eqb L HL) in H2; now split.
Qed.

Lemma find_here : forall s a, Single (map who s) -> In a s -> find s (feat a) = Some a.
Proof.
  induction s as [| b s IH]; intros a N Ha; [destruct Ha |].
  unfold Single in N; cbn in N; inversion N as [| x y N1 N2]; subst.
  unfold ModelFramework.find; cbn.
  destruct Ha as [-> | Ha].
  - now rewrite (eqb_refl L HL).
  - destruct (tag_eqb L (feat a) (feat b)) eqn:E.
    + apply (ll_eqb L HL) in E; exfalso; apply N1; rewrite <- E.
      rewrite map_map; change (In ((fun c => feat c) a) (map (fun c => feat c) s)); now apply in_map.
    + now apply IH.
Qed.

Lemma find_app_l : forall s r f, (exists a, In a s /\ feat a = f) -> find (s ++ r) f = find s f.
Proof.
  induction s as [| b s IH]; intros r f [a [Ha Ef]]; [destruct Ha |].
  unfold ModelFramework.find; cbn; destruct (tag_eqb L f (feat b)) eqn:E; [reflexivity |].
  apply IH; exists a; split; [| assumption].
  destruct Ha as [-> | Ha]; [| assumption].
  rewrite <- Ef, (eqb_refl L HL) in E; discriminate E.
Qed.

(** ** Reading *)

(** Two sets that agree on a downward closed collection of features. *)
Lemma extract_agree : forall (P : tag L -> Prop) s1 s2,
  (forall f, P f -> exists a1 a2, find s1 f = Some a1 /\ find s2 f = Some a2 /\
     fst (who a1) = fst (who a2) /\ state a1 = state a2 /\
     (forall d, In d (consults (fst (who a1))) -> P (feature L d))) ->
  forall n f, P f -> extract L B n s1 f = extract L B n s2 f.
Proof.
  intros P s1 s2 H; induction n as [| n IH]; intros f Hf;
    destruct (H f Hf) as [a1 [a2 [E1 [E2 [Ew [Es Hd]]]]]]; cbn; rewrite E1, E2; [reflexivity |].
  rewrite Ew, Es; apply (proj2 HB); intros d Hd'; apply IH, Hd; now rewrite Ew.
Qed.

Lemma needs_in : forall ts t u, Needs L ts t u -> In u ts.
Proof. intros ts t u H; induction H; assumption. Qed.

Lemma needs_depth : forall ts t u, Needs L ts t u ->
  u = t \/ (depth L (ffeature L u) < depth L (ffeature L t))%nat.
Proof.
  intros ts t u H; induction H as [a Ha | a c b Ha Hc Hr H IH]; [now left | right].
  apply (reads_depth L HL) in Hr; destruct IH as [-> | IH]; lia.
Qed.

Lemma needs_more : forall ts t u v, Needs L ts t u -> Needs L ts u v -> Needs L ts t v.
Proof.
  intros ts t u v H Hv; induction H as [a Ha | a c b Ha Hc Hr H IH]; [assumption |].
  apply (needs_read L ts a c v); [assumption | assumption | assumption | now apply IH].
Qed.

Lemma supplied_depth : forall ts a d, Supplied L consults ts -> In a ts ->
  In d (consults (fst a)) -> (depth L (feature L d) < depth L (ffeature L a))%nat.
Proof.
  intros ts a d S Ha Hd; destruct (S a d Ha Hd) as [u [Hn [Hne E]]].
  rewrite <- E; apply needs_depth in Hn; destruct Hn; [contradiction | assumption].
Qed.

Lemma single_same : forall ts a b, Single ts -> In a ts -> In b ts ->
  ffeature L a = ffeature L b -> a = b.
Proof.
  intros ts a b N Ha Hb E; unfold Single in N.
  induction ts as [| c ts IH]; [destruct Ha |].
  cbn in N; inversion N as [| x y K1 K2]; subst.
  destruct Ha as [-> | Ha], Hb as [-> | Hb]; try reflexivity.
  - exfalso; apply K1; rewrite E; now apply in_map.
  - exfalso; apply K1; rewrite <- E; now apply in_map.
  - now apply IH.
Qed.

(** More fuel than needed changes nothing. *)
Lemma extract_fuel : forall s, Supplied L consults (map who s) ->
  forall n1 n2 f, (depth L f < n1)%nat -> (depth L f < n2)%nat ->
  extract L B n1 s f = extract L B n2 s f.
Proof.
  intros s S; induction n1 as [| n1 IH]; intros n2 f H1 H2; [lia |].
  destruct n2 as [| n2]; [lia |]; cbn.
  destruct (find s f) as [a |] eqn:E; [| reflexivity].
  apply find_in in E; destruct E as [I E].
  apply (proj2 HB); intros d Hd.
  assert (Hl := supplied_depth _ (who a) d S (in_map who s a I) Hd).
  rewrite E in Hl; apply IH; lia.
Qed.

(** What an extraction is: the accumulator's result over the results of what it
    reads. *)
Lemma read_result : forall s f a, Supplied L consults (map who s) -> find s f = Some a ->
  read s f = result L B (fst (who a)) (read s) (state a).
Proof.
  intros s f a S E; unfold ModelFramework.read at 1; cbn; rewrite E.
  apply (proj2 HB); intros d Hd.
  apply find_in in E; destruct E as [I E].
  assert (Hl := supplied_depth _ (who a) d S (in_map who s a I) Hd); rewrite E in Hl.
  unfold ModelFramework.read; apply extract_fuel; [assumption | lia | lia].
Qed.

(** ** One push in a well-ordered set *)

Lemma before_prefix : forall A (x y : A) l r, NoDup (l ++ r) -> Before x y (l ++ r) ->
  In y l -> In x l.
Proof.
  intros A x y l r N (l1 & l2 & l3 & E) Hy.
  assert (K : In x l \/ In x r).
  { apply in_app_or; rewrite E; apply in_or_app; right; now left. }
  destruct K as [K | K]; [assumption | exfalso].
  (* x occurs in r only; then so does y *)
  assert (Ny : ~ In y r).
  { clear - N Hy; induction l as [| a l IH]; [destruct Hy |].
    cbn in N; inversion N as [| b c N1 N2]; subst.
    destruct Hy as [-> | Hy]; [| now apply IH].
    intros X; apply N1, in_or_app; now right. }
  assert (Nx : ~ In x l).
  { clear - N K; induction l as [| a l IH]; [intros [] |].
    cbn in N; inversion N as [| b c N1 N2]; subst.
    intros [-> | X]; [apply N1, in_or_app; now right | now apply IH]. }
  clear N K Hy.
  revert l1 E; induction l as [| a l IH]; intros l1 E.
  - cbn in E; subst r; apply Ny, in_or_app; right; right; apply in_or_app; right; now left.
  - destruct l1 as [| b l1]; cbn in E; injection E as E1 E2.
    + subst a; apply Nx; now left.
    + apply (IH (fun X => Nx (or_intror X)) l1 E2).
Qed.

Definition stepped (x : Sample L B) (s : accset) (a : acc) : acc :=
  if is_dropped a then a
  else mkAcc L B (who a) (refs a) (tripped a) (step L B (fst (who a)) (read s) x (state a)).

Lemma stepped_who : forall x s a, who (stepped x s a) = who a.
Proof. intros x s a; unfold stepped; now destruct (is_dropped a). Qed.

(** In a well-ordered set every accumulator is updated as if it saw the set after
    the push: it finds what it needs updated already. *)
Lemma push_stepped : forall s x, Single (map who s) -> Supplied L consults (map who s) ->
  PushOrdered L on_push (map who s) -> push L B s x = map (stepped x (push L B s x)) s.
Proof.
  intros s x N C O.
  assert (H : forall todo done, map who (done ++ todo) = map who s ->
     exists F, visit L B x done todo = F /\
       F = done ++ map (stepped x F) todo).
  { induction todo as [| a todo IH]; intros done Hw.
    - exists done; cbn; split; [reflexivity | now rewrite app_nil_r].
    - cbn [visit].
      set (c := done ++ a :: todo) in *.
      set (a' := operate L B c x a).
      assert (Wa : who a' = who a).
      { unfold a', operate; now destruct (is_dropped a). }
      destruct (IH (done ++ [a'])) as [F [E1 E2]].
      { rewrite <- Hw; unfold c; rewrite !map_app; cbn.
        rewrite Wa, <- app_assoc; reflexivity. }
      exists F; split; [exact E1 |].
      assert (EF : F = done ++ a' :: map (stepped x F) todo).
      { rewrite E2 at 1; now rewrite <- app_assoc. }
      assert (Ea : a' = stepped x F a).
      { unfold a', operate, stepped; destruct (is_dropped a); [reflexivity |].
        f_equal; apply (proj1 HB); intros Hop d Hd.
        assert (Ia : In (who a) (map who s)).
        { rewrite <- Hw; unfold c; rewrite map_app; apply in_or_app; right; now left. }
        (* what a needs is in done *)
        set (P := fun f => exists u, Needs L (map who s) (who a) u /\ u <> who a /\ ffeature L u = f).
        assert (ND : NoDup (map who s)) by (apply (NoDup_map_inv (ffeature L)); exact N).
        assert (Pd : forall f, P f -> exists b, In b done /\ feat b = f /\
                       Needs L (map who s) (who a) (who b) /\ who b <> who a).
        { intros f [u [Hu [Hne Ef]]].
          assert (Bf := O (who a) u Ia Hop Hu Hne).
          rewrite <- Hw in Bf, ND; unfold c in Bf, ND.
          change (done ++ a :: todo) with (done ++ [a] ++ todo) in Bf, ND.
          rewrite app_assoc, map_app in Bf, ND.
          assert (Hu' : In u (map who (done ++ [a]))).
          { apply (before_prefix _ u (who a) _ _ ND Bf).
            rewrite map_app; apply in_or_app; right; now left. }
          rewrite map_app in Hu'; apply in_app_or in Hu'; destruct Hu' as [K | [K | []]].
          - rewrite in_map_iff in K; destruct K as [b [Eb Hb]]; exists b.
            rewrite Eb; now repeat split.
          - exfalso; now apply Hne. }
        assert (Nd : Single (map who done)).
        { unfold Single in *; rewrite <- Hw in N; unfold c in N; rewrite !map_app in N.
          now apply nodup_app_l in N. }
        unfold ModelFramework.read; apply (extract_agree P).
        - intros f Hf; destruct (Pd f Hf) as [b [Hb [Ef [Hn Hne]]]]; exists b, b.
          split; [| split].
          + unfold c; rewrite find_app_l by (now exists b); rewrite <- Ef; now apply find_here.
          + rewrite EF; rewrite find_app_l by (now exists b); rewrite <- Ef; now apply find_here.
          + split; [reflexivity |]; split; [reflexivity |].
            intros e He; destruct (C (who b) e (needs_in _ _ _ Hn) He) as [v [Hv [Hvne Ev]]].
            exists v; split; [now apply (needs_more _ _ (who b)) |]; split; [| assumption].
            intros ->.
            apply needs_depth in Hn; apply needs_depth in Hv.
            destruct Hn as [X | Hn]; [contradiction |]; destruct Hv as [X | Hv]; [congruence | lia].
        - destruct (C (who a) d Ia Hd) as [v [Hv [Hvne Ev]]]; exists v; now repeat split. }
      rewrite EF at 1; cbn [map]; now rewrite <- Ea. }
  destruct (H s [] eq_refl) as [F [E1 E2]].
  unfold push; rewrite E1; cbn in E2; exact E2.
Qed.

(** ** Noninterference *)

(** Part [P] of two sets is in the same state. *)
Definition agree (P : tag L -> Prop) (s1 s2 : accset) : Prop :=
  forall f, P f -> exists a1 a2, find s1 f = Some a1 /\ find s2 f = Some a2 /\
     fst (who a1) = fst (who a2) /\ state a1 = state a2.

Definition downward (P : tag L -> Prop) (ts : list (ftag L)) : Prop :=
  forall t, In t ts -> P (ffeature L t) -> forall d, In d (consults (fst t)) -> P (feature L d).

Lemma agree_read : forall P s1 s2, agree P s1 s2 -> downward P (map who s1) ->
  forall f, P f -> read s1 f = read s2 f.
Proof.
  intros P s1 s2 A D f Hf; unfold ModelFramework.read; apply (extract_agree P); [| assumption].
  intros g Hg; destruct (A g Hg) as [a1 [a2 [E1 [E2 [Ew Es]]]]]; exists a1, a2.
  repeat (split; [assumption |]).
  apply find_in in E1; destruct E1 as [I1 F1].
  apply (D (who a1)); [now apply in_map | now rewrite F1].
Qed.

Lemma find_stepped : forall s x f a, Single (map who s) ->
  push L B s x = map (stepped x (push L B s x)) s -> find s f = Some a ->
  find (push L B s x) f = Some (stepped x (push L B s x) a).
Proof.
  intros s x f a N E Ha; set (F := push L B s x) in *.
  apply find_in in Ha; destruct Ha as [Ha Ef].
  assert (I : In (stepped x F a) F) by (rewrite E at 2; now apply in_map).
  assert (NF : Single (map who F)).
  { replace (map who F) with (map who s); [assumption |].
    symmetry; unfold F; now apply push_shape. }
  rewrite <- Ef, <- (stepped_who x F a); now apply find_here.
Qed.

Lemma agree_push : forall P s1 s2 x,
  Single (map who s1) -> Supplied L consults (map who s1) -> PushOrdered L on_push (map who s1) ->
  Single (map who s2) -> Supplied L consults (map who s2) -> PushOrdered L on_push (map who s2) ->
  downward P (map who s1) -> agree P s1 s2 ->
  (forall a, In a s1 -> P (feat a) -> is_dropped a = false) ->
  (forall a, In a s2 -> P (feat a) -> is_dropped a = false) ->
  agree P (push L B s1 x) (push L B s2 x).
Proof.
  intros P s1 s2 x N1 C1 O1 N2 C2 O2 D A V1 V2.
  pose proof (push_stepped s1 x N1 C1 O1) as E1.
  pose proof (push_stepped s2 x N2 C2 O2) as E2.
  assert (H : forall n f, (depth L f < n)%nat -> P f ->
     (exists a1 a2, find (push L B s1 x) f = Some a1 /\ find (push L B s2 x) f = Some a2 /\
        fst (who a1) = fst (who a2) /\ state a1 = state a2) /\
     read (push L B s1 x) f = read (push L B s2 x) f).
  { induction n as [| n IH]; intros f Hn Hf; [lia |].
    destruct (A f Hf) as [a1 [a2 [F1 [F2 [Ew Es]]]]].
    pose proof (find_stepped s1 x f a1 N1 E1 F1) as G1.
    pose proof (find_stepped s2 x f a2 N2 E2 F2) as G2.
    apply find_in in F1; destruct F1 as [I1 F1].
    apply find_in in F2; destruct F2 as [I2 F2].
    assert (R : forall d, In d (consults (fst (who a1))) ->
       read (push L B s1 x) (feature L d) = read (push L B s2 x) (feature L d)).
    { intros d Hd; apply IH.
      - assert (Hl := supplied_depth _ (who a1) d C1 (in_map who s1 a1 I1) Hd); rewrite F1 in Hl; lia.
      - apply (D (who a1)); [now apply in_map | now rewrite F1 | assumption]. }
    assert (S12 : state (stepped x (push L B s1 x) a1) = state (stepped x (push L B s2 x) a2)).
    { unfold stepped; rewrite (V1 a1 I1) by (now rewrite F1).
      rewrite (V2 a2 I2) by (now rewrite F2); cbn; rewrite <- Ew, Es.
      apply (proj1 HB); intros _; exact R. }
    split.
    - exists (stepped x (push L B s1 x) a1), (stepped x (push L B s2 x) a2).
      split; [assumption |]; split; [assumption |]; split; [now rewrite !stepped_who | assumption].
    - assert (C1' : Supplied L consults (map who (push L B s1 x)))
        by (now rewrite (proj1 (push_shape L B s1 x))).
      assert (C2' : Supplied L consults (map who (push L B s2 x)))
        by (now rewrite (proj1 (push_shape L B s2 x))).
      rewrite (read_result _ _ _ C1' G1), (read_result _ _ _ C2' G2), S12, !stepped_who, <- Ew.
      apply (proj2 HB); exact R. }
  intros f Hf; apply (H (S (depth L f)) f); [lia | assumption].
Qed.

Local Notation samples := (samples L B).

(** States of [P] after a drop are what they were. *)
Lemma agree_drop : forall P s1 s2 t, Single (map who s1) ->
  agree P s1 s2 -> agree P (drop L B t s1) s2.
Proof.
  intros P s1 s2 t N A f Hf; destruct (A f Hf) as [a1 [a2 [F1 [F2 [Ew Es]]]]].
  destruct (drop_shape L B s1 t) as [W S].
  assert (H : exists b, In b (drop L B t s1) /\ who b = who a1 /\ state b = state a1).
  { apply find_in in F1; destruct F1 as [I1 _].
    revert I1 W S; generalize (drop L B t s1) as q; clear -a1.
    induction s1 as [| c s1 IH]; intros [| b q] I1 W S; cbn in *; try discriminate; [destruct I1 |].
    injection W as W1 W2; injection S as S1 S2.
    destruct I1 as [-> | I1].
    - exists b; split; [now left | now split].
    - destruct (IH q I1 W2 S2) as [b' [H1 H2]]; exists b'; split; [now right | assumption]. }
  destruct H as [b [Ib [Wb Sb]]]; exists b, a2.
  apply find_in in F1; destruct F1 as [_ F1].
  split; [| split; [assumption | split; [now rewrite Wb | now rewrite Sb]]].
  rewrite <- F1, <- Wb; apply find_here; [| assumption].
  now rewrite W.
Qed.

(** A history of samples and drops leaves [P] as the samples alone do, provided
    nothing in [P] is dropped on the way. *)
Lemma history_pushes : forall P es s,
  Single (map who s) -> Supplied L consults (map who s) -> PushOrdered L on_push (map who s) ->
  downward P (map who s) ->
  (forall f, P f -> exists a, find s f = Some a) ->
  (forall es1 es2, es = es1 ++ es2 ->
     forall a, In a (history L B s es1) -> P (feat a) -> is_dropped a = false) ->
  agree P (history L B s es) (pushes L B s (samples es)).
Proof.
  intros P es s N C O D HP V.
  assert (Wp : forall xs s', map who (pushes L B s' xs) = map who s').
  { induction xs as [| x xs IH]; intros s'; cbn; [reflexivity |].
    unfold pushes in *; cbn [fold_left]; rewrite IH; apply push_shape. }
  assert (Vs : forall xs a, In a (pushes L B s xs) -> P (feat a) -> is_dropped a = false).
  { intros xs a Ha Hf.
    assert (Cp : counts L B (pushes L B s xs) = counts L B s).
    { clear; revert s; induction xs as [| x xs IH]; intros s; [reflexivity |].
      unfold pushes in *; cbn [fold_left]; rewrite IH; apply counts_push. }
    assert (Hc : In (who a, refs a, tripped a) (counts L B (pushes L B s xs))).
    { unfold counts; rewrite in_map_iff; now exists a. }
    rewrite Cp in Hc; unfold counts in Hc; rewrite in_map_iff in Hc; destruct Hc as [b [E Hb]].
    injection E as Eb1 Eb2 _.
    specialize (V [] es eq_refl b Hb); rewrite Eb1 in V; specialize (V Hf).
    unfold ModelFramework.is_dropped, droppable in *; rewrite Eb1, Eb2 in V; exact V. }
  revert V; induction es as [| e es IH] using rev_ind; intros V.
  - intros f Hf; destruct (HP f Hf) as [a Ha]; exists a, a; cbn; auto.
  - assert (A := IH (fun es1 es2 E => V es1 (es2 ++ [e]) (eq_trans (f_equal (fun l => l ++ [e]) E) (eq_sym (app_assoc _ _ _))))).
    unfold history; rewrite fold_left_app; cbn [fold_left].
    fold (history L B s es).
    unfold SpecFramework.samples; rewrite flat_map_app; cbn [flat_map]; fold (samples es).
    assert (Wh : map who (history L B s es) = map who s) by apply history_who.
    destruct e as [x | t]; cbn [handle app].
    + unfold pushes; rewrite fold_left_app; cbn [fold_left]; fold (pushes L B s (samples es)).
      apply agree_push; rewrite ?Wh, ?Wp; try assumption.
      * apply (V es [Push L B x] eq_refl).
      * apply Vs.
    + rewrite app_nil_r; apply agree_drop; [now rewrite Wh | assumption].
Qed.

Lemma agree_pushes : forall P xs s1 s2,
  Single (map who s1) -> Supplied L consults (map who s1) -> PushOrdered L on_push (map who s1) ->
  Single (map who s2) -> Supplied L consults (map who s2) -> PushOrdered L on_push (map who s2) ->
  downward P (map who s1) -> agree P s1 s2 ->
  (forall a, In a s1 -> P (feat a) -> is_dropped a = false) ->
  (forall a, In a s2 -> P (feat a) -> is_dropped a = false) ->
  agree P (pushes L B s1 xs) (pushes L B s2 xs).
Proof.
  assert (Vp : forall P s x, (forall a, In a s -> P (feat a) -> is_dropped a = false) ->
     forall a, In a (push L B s x) -> P (feat a) -> is_dropped a = false).
  { intros P s x V a Ha Hf.
    assert (Hc : In (who a, refs a, tripped a) (counts L B (push L B s x))).
    { unfold counts; rewrite in_map_iff; now exists a. }
    rewrite counts_push in Hc; unfold counts in Hc; rewrite in_map_iff in Hc; destruct Hc as [b [E Hb]].
    injection E as Eb1 Eb2 _.
    specialize (V b Hb); rewrite Eb1 in V; specialize (V Hf).
    unfold ModelFramework.is_dropped, droppable in *; rewrite Eb1, Eb2 in V; exact V. }
  intros P; induction xs as [| x xs IH]; intros s1 s2 N1 C1 O1 N2 C2 O2 D A V1 V2; [exact A |].
  unfold pushes in *; cbn [fold_left].
  destruct (push_shape L B s1 x) as [W1 _], (push_shape L B s2 x) as [W2 _].
  apply IH; rewrite ?W1, ?W2; try assumption.
  - now apply agree_push.
  - now apply Vp.
  - now apply Vp.
Qed.

(** ** Constructed sets *)
Section Built.
Variable enum : fmap L -> fmap L.
Hypothesis Henum : Enumeration L enum.
Variable W : bool.
Variable fs : list (request L).

Let ts := make_tuple L enum W fs.

Lemma built_single : Single ts.
Proof. now apply (tuple_once L HL enum Henum W fs). Qed.

(** Accumulators that consult declared dependencies only find them. *)
Lemma built_supplied : (forall t d, In t ts -> In d (consults (fst t)) -> In d (deps L (fst t))) ->
  Supplied L consults ts.
Proof.
  intros H a d Ha Hd; assert (Hd' := H a d Ha Hd).
  destruct (tuple_closed L HL enum Henum W fs a d Ha Hd') as [u [Hu Eu]].
  assert (R : Reads L a u) by (unfold Reads; rewrite Eu; now apply in_map).
  exists u; split; [| split; [| assumption]].
  - apply (needs_read L ts a u u); [assumption | assumption | assumption | now constructor].
  - intros ->; apply (reads_depth L HL) in R; lia.
Qed.

Lemma built_state : forall a, In a (construct L B enum W fs) -> state a = init L B (fst (who a)).
Proof.
  intros a Ha; rewrite construct_raise in Ha; unfold raise in Ha.
  rewrite map_map, in_map_iff in Ha; destruct Ha as [t [E Ht]].
  destruct (droppable L B _) in E; subst a; reflexivity.
Qed.

Lemma built_find : forall t, In t ts -> exists a,
  find (construct L B enum W fs) (ffeature L t) = Some a /\ who a = t.
Proof.
  intros t Ht; pose proof (construct_who L B enum W fs) as Hw; fold ts in Hw.
  assert (Ht' : In t (map who (construct L B enum W fs))) by (now rewrite Hw).
  rewrite in_map_iff in Ht'; destruct Ht' as [a [E Ha]]; exists a; split; [| assumption].
  rewrite <- E; apply find_here; [| assumption]; rewrite Hw; apply built_single.
Qed.

End Built.

(** The features needed by [t] inside a set. *)
Definition NeedF (ts : list (ftag L)) (t : ftag L) (f : tag L) : Prop :=
  exists u, Needs L ts t u /\ ffeature L u = f.

Lemma needf_downward : forall ts t, Single ts -> Supplied L consults ts ->
  downward (NeedF ts t) ts.
Proof.
  intros ts t N C c Hc [u [Hu Eu]] d Hd.
  assert (c = u).
  { apply (single_same ts); [assumption | assumption | now apply needs_in in Hu | congruence]. }
  subst u; destruct (C c d Hc Hd) as [v [Hv [_ Ev]]].
  exists v; split; [| assumption].
  now apply (needs_more ts t c v).
Qed.

(** C40: the answer for [t] depends on the implementations it needs and on the
    samples, on nothing else. *)
Theorem noninterference : forall enum1 enum2 W1 W2 fs1 fs2 es1 es2 t1 t2,
  Enumeration L enum1 -> Enumeration L enum2 ->
  let ts1 := make_tuple L enum1 W1 fs1 in
  let ts2 := make_tuple L enum2 W2 fs2 in
  let s1 := construct L B enum1 W1 fs1 in
  let s2 := construct L B enum2 W2 fs2 in
  Supplied L consults ts1 -> Supplied L consults ts2 ->
  PushOrdered L on_push ts1 -> PushOrdered L on_push ts2 ->
  In t1 ts1 -> In t2 ts2 -> ffeature L t1 = ffeature L t2 ->
  (forall u, Needs L ts1 t1 u -> exists u', Needs L ts2 t2 u' /\ fst u' = fst u) ->
  samples es1 = samples es2 ->
  (forall ea eb, es1 = ea ++ eb -> forall a, In a (history L B s1 ea) ->
     Needs L ts1 t1 (who a) -> is_dropped a = false) ->
  (forall ea eb, es2 = ea ++ eb -> forall a, In a (history L B s2 ea) ->
     Needs L ts2 t2 (who a) -> is_dropped a = false) ->
  read (history L B s1 es1) (ffeature L t1) = read (history L B s2 es2) (ffeature L t2).
Proof.
  intros enum1 enum2 W1 W2 fs1 fs2 es1 es2 t1 t2 He1 He2 ts1 ts2 s1 s2
         C1 C2 O1 O2 I1 I2 Ef HN Es V1 V2.
  set (P := NeedF ts1 t1).
  assert (Hw1 : map who s1 = ts1) by apply construct_who.
  assert (Hw2 : map who s2 = ts2) by apply construct_who.
  assert (N1 : Single ts1) by (apply built_single; assumption).
  assert (N2 : Single ts2) by (apply built_single; assumption).
  assert (P1 : forall f, P f -> exists a, find s1 f = Some a).
  { intros f [u [Hu <-]]; destruct (built_find enum1 He1 W1 fs1 u (needs_in _ _ _ Hu)) as [a [Ha _]].
    now exists a. }
  assert (P2 : forall f, P f -> exists a, find s2 f = Some a /\ Needs L ts2 t2 (who a)).
  { intros f [u [Hu <-]]; destruct (HN u Hu) as [u' [Hu' Eu']].
    destruct (built_find enum2 He2 W2 fs2 u' (needs_in _ _ _ Hu')) as [a [Ha Wa]].
    exists a; split; [| now rewrite Wa].
    unfold ffeature in *; now rewrite <- Eu'. }
  pose proof single_same as same.
  assert (U1 : forall ea eb, es1 = ea ++ eb -> forall a, In a (history L B s1 ea) ->
     P (feat a) -> is_dropped a = false).
  { intros ea eb E a Ha [u [Hu Eu]]; apply (V1 ea eb E a Ha).
    replace (who a) with u; [assumption |].
    apply (same ts1); [assumption | now apply needs_in in Hu | | assumption].
    rewrite <- Hw1, <- (history_who L B ea s1); now apply in_map. }
  assert (U2 : forall ea eb, es2 = ea ++ eb -> forall a, In a (history L B s2 ea) ->
     P (feat a) -> is_dropped a = false).
  { intros ea eb E a Ha HPa; apply (V2 ea eb E a Ha).
    destruct (P2 _ HPa) as [b [Hb Hn]]; apply find_in in Hb; destruct Hb as [Ib Fb].
    replace (who a) with (who b); [assumption |].
    apply (same ts2); [assumption | now apply needs_in in Hn | | assumption].
    rewrite <- Hw2, <- (history_who L B ea s2); now apply in_map. }
  assert (D1 : downward P ts1) by (now apply needf_downward).
  assert (D2 : downward P ts2).
  { intros c Hc HPc d Hd; destruct HPc as [u [Hu Eu]].
    destruct (HN u Hu) as [u' [Hu' Eu']].
    assert (c = u').
    { apply (same ts2); [assumption | assumption | now apply needs_in in Hu' |].
      rewrite <- Eu; unfold ffeature; now rewrite Eu'. }
    subst u'; apply (D1 u); [now apply needs_in in Hu | now exists u | now rewrite <- Eu']. }
  assert (A0 : agree P s1 s2).
  { intros f Hf; destruct Hf as [u [Hu <-]].
    destruct (built_find enum1 He1 W1 fs1 u (needs_in _ _ _ Hu)) as [a1 [F1 Wa1]].
    destruct (HN u Hu) as [u' [Hu' Eu']].
    destruct (built_find enum2 He2 W2 fs2 u' (needs_in _ _ _ Hu')) as [a2 [F2 Wa2]].
    exists a1, a2; split; [assumption |]; split.
    - unfold ffeature in *; now rewrite <- Eu'.
    - rewrite Wa1, Wa2; split; [congruence |].
      apply find_in in F1; apply find_in in F2; destruct F1 as [K1 _], F2 as [K2 _].
      rewrite (built_state _ _ _ _ K1), (built_state _ _ _ _ K2), Wa1, Wa2; congruence. }
  assert (A1 : agree P (history L B s1 es1) (pushes L B s1 (samples es1))).
  { apply history_pushes; rewrite ?Hw1; assumption. }
  assert (A2 : agree P (history L B s2 es2) (pushes L B s2 (samples es2))).
  { apply history_pushes; rewrite ?Hw2; try assumption.
    intros f Hf; destruct (P2 f Hf) as [a [Ha _]]; now exists a. }
  assert (A12 : agree P (pushes L B s1 (samples es1)) (pushes L B s2 (samples es2))).
  { rewrite <- Es; apply agree_pushes; rewrite ?Hw1, ?Hw2; try assumption.
    - apply (U1 [] es1 eq_refl).
    - apply (U2 [] es2 eq_refl). }
  assert (A : agree P (history L B s1 es1) (history L B s2 es2)).
  { intros f Hf; destruct (A1 f Hf) as [a1 [b1 [E1 [E2 [E3 E4]]]]].
    destruct (A2 f Hf) as [a2 [b2 [E5 [E6 [E7 E8]]]]].
    destruct (A12 f Hf) as [c1 [c2 [E9 [E10 [E11 E12]]]]].
    rewrite E2 in E9; injection E9 as <-; rewrite E6 in E10; injection E10 as <-.
    exists a1, a2; split; [assumption |]; split; [assumption |]; split; congruence. }
  rewrite <- Ef; apply (agree_read P); [assumption | | exists t1; split; [now constructor | reflexivity]].
  rewrite history_who, Hw1; assumption.
Qed.

(** ** From single accumulators to sets *)

(** [Good t xs s]: [s] is a proper state of [t]'s accumulator after the samples
    [xs]; [Spec f xs v]: [v] is a correct value of feature [f] for [xs].  If every
    accumulator keeps its state proper whenever what it consults is correct, and
    then delivers a correct result, every set delivers correct results. *)
Section Correct.
Variable Valid : list (Sample L B) -> Prop.
Variable Good : tag L -> list (Sample L B) -> State L B -> Prop.
Variable Spec : tag L -> list (Sample L B) -> Result L B -> Prop.
Variable cls : tag L -> Prop.

Hypothesis Vprefix : forall xs x, Valid (xs ++ [x]) -> Valid xs.
Hypothesis Ginit : forall t, cls t -> Good t [] (init L B t).
Hypothesis Gstep : forall t xs x s r, cls t -> Valid (xs ++ [x]) -> Good t xs s ->
  (on_push t = true -> forall d, In d (consults t) ->
     Spec (feature L d) (xs ++ [x]) (r (feature L d))) ->
  Good t (xs ++ [x]) (step L B t r x s).
Hypothesis Gresult : forall t xs s r, cls t -> Valid xs -> Good t xs s ->
  (forall d, In d (consults t) -> Spec (feature L d) xs (r (feature L d))) ->
  Spec (feature L t) xs (result L B t r s).

Lemma good_read : forall s P xs, Single (map who s) -> Supplied L consults (map who s) ->
  downward P (map who s) -> (forall f, P f -> exists a, find s f = Some a) ->
  (forall a, In a s -> P (feat a) -> cls (fst (who a)) /\ Good (fst (who a)) xs (state a)) ->
  Valid xs -> forall f, P f -> Spec f xs (read s f).
Proof.
  intros s P xs N C D HP G V.
  assert (H : forall n f, (depth L f < n)%nat -> P f -> Spec f xs (read s f)).
  { induction n as [| n IH]; intros f Hn Hf; [lia |].
    destruct (HP f Hf) as [a Ha]; rewrite (read_result s f a C Ha).
    apply find_in in Ha; destruct Ha as [Ia Ef].
    destruct (G a Ia) as [Hc Hg]; [now rewrite Ef |].
    rewrite <- Ef; apply Gresult; try assumption.
    intros d Hd; apply IH.
    - assert (Hl := supplied_depth _ (who a) d C (in_map who s a Ia) Hd); rewrite Ef in Hl; lia.
    - apply (D (who a)); [now apply in_map | now rewrite Ef | assumption]. }
  intros f Hf; apply (H (S (depth L f))); [lia | assumption].
Qed.

Lemma good_push : forall s P xs x, Single (map who s) -> Supplied L consults (map who s) ->
  PushOrdered L on_push (map who s) ->
  downward P (map who s) -> (forall f, P f -> exists a, find s f = Some a) ->
  (forall a, In a s -> P (feat a) -> is_dropped a = false) ->
  (forall a, In a s -> P (feat a) -> cls (fst (who a)) /\ Good (fst (who a)) xs (state a)) ->
  Valid (xs ++ [x]) ->
  forall a, In a (push L B s x) -> P (feat a) ->
    cls (fst (who a)) /\ Good (fst (who a)) (xs ++ [x]) (state a).
Proof.
  intros s P xs x N C O D HP U G V.
  pose proof (push_stepped s x N C O) as E.
  set (F := push L B s x) in *.
  assert (Wf : map who F = map who s) by (unfold F; apply push_shape).
  assert (NF : Single (map who F)) by (now rewrite Wf).
  assert (CF : Supplied L consults (map who F)) by (now rewrite Wf).
  assert (H : forall n f, (depth L f < n)%nat -> P f -> exists a, find F f = Some a /\
            cls (fst (who a)) /\ Good (fst (who a)) (xs ++ [x]) (state a) /\
            Spec f (xs ++ [x]) (read F f)).
  { induction n as [| n IH]; intros f Hn Hf; [lia |].
    destruct (HP f Hf) as [a Ha].
    pose proof (find_stepped s x f a N E Ha) as Ga; fold F in Ga.
    apply find_in in Ha; destruct Ha as [Ia Ef].
    assert (Pa : P (feat a)) by (now rewrite Ef).
    destruct (G a Ia Pa) as [Hc Hg].
    assert (R : forall d, In d (consults (fst (who a))) ->
              Spec (feature L d) (xs ++ [x]) (read F (feature L d))).
    { intros d Hd; destruct (IH (feature L d)) as [b [_ [_ [_ Hs]]]]; [| | exact Hs].
      - assert (Hl := supplied_depth _ (who a) d C (in_map who s a Ia) Hd); rewrite Ef in Hl; lia.
      - apply (D (who a)); [now apply in_map | assumption | assumption]. }
    assert (Gs : Good (fst (who a)) (xs ++ [x]) (state (stepped x F a))).
    { unfold stepped; rewrite (U a Ia Pa); cbn; apply Gstep; try assumption.
      intros _; exact R. }
    exists (stepped x F a); split; [exact Ga |]; rewrite stepped_who.
    split; [exact Hc |]; split; [exact Gs |].
    rewrite (read_result F f _ CF Ga), stepped_who, <- Ef.
    now apply Gresult. }
  intros a Ha Pa; destruct (H (S (depth L (feat a))) (feat a)) as [b [Hb [Hc [Hg _]]]];
    [lia | assumption |].
  rewrite (find_here F a NF Ha) in Hb; injection Hb as <-; now split.
Qed.

Lemma good_pushes : forall s P xs, Single (map who s) -> Supplied L consults (map who s) ->
  PushOrdered L on_push (map who s) ->
  downward P (map who s) -> (forall f, P f -> exists a, find s f = Some a) ->
  (forall a, In a s -> P (feat a) -> is_dropped a = false) ->
  (forall a, In a s -> P (feat a) -> cls (fst (who a)) /\ Good (fst (who a)) [] (state a)) ->
  Valid xs ->
  forall a, In a (pushes L B s xs) -> P (feat a) ->
    cls (fst (who a)) /\ Good (fst (who a)) xs (state a).
Proof.
  intros s P xs N C O D HP U G; induction xs as [| x xs IH] using rev_ind; intros V; [exact G |].
  assert (Wp : map who (pushes L B s xs) = map who s).
  { clear; revert s; induction xs as [| y xs IH]; intros s; [reflexivity |].
    unfold pushes in *; cbn [fold_left]; rewrite IH; apply push_shape. }
  assert (Cp : counts L B (pushes L B s xs) = counts L B s).
  { clear; revert s; induction xs as [| y xs IH]; intros s; [reflexivity |].
    unfold pushes in *; cbn [fold_left]; rewrite IH; apply counts_push. }
  unfold pushes; rewrite fold_left_app; cbn [fold_left]; fold (pushes L B s xs).
  apply good_push; rewrite ?Wp; try assumption.
  - intros f Hf; destruct (HP f Hf) as [a Ha]; apply find_in in Ha; destruct Ha as [Ia Ef].
    assert (I : In (who a) (map who (pushes L B s xs))) by (rewrite Wp; now apply in_map).
    rewrite in_map_iff in I; destruct I as [b [Eb Ib]]; exists b.
    rewrite <- Ef, <- Eb; apply find_here; [now rewrite Wp | assumption].
  - intros a Ha Hf.
    assert (Hc : In (who a, refs a, tripped a) (counts L B (pushes L B s xs))).
    { unfold counts; rewrite in_map_iff; now exists a. }
    rewrite Cp in Hc; unfold counts in Hc; rewrite in_map_iff in Hc; destruct Hc as [b [E Hb]].
    injection E as Eb1 Eb2 _.
    assert (U' := U b Hb); rewrite Eb1 in U'; specialize (U' Hf).
    unfold ModelFramework.is_dropped, droppable in *; rewrite Eb1, Eb2 in U'; exact U'.
  - apply IH; now apply (Vprefix xs x).
Qed.

Theorem correct_history : forall enum W fs es t,
  Enumeration L enum ->
  let ts := make_tuple L enum W fs in
  let s := construct L B enum W fs in
  Supplied L consults ts -> PushOrdered L on_push ts -> In t ts ->
  (forall u, Needs L ts t u -> cls (fst u)) ->
  (forall ea eb, es = ea ++ eb -> forall a, In a (history L B s ea) ->
     Needs L ts t (who a) -> is_dropped a = false) ->
  Valid (samples es) ->
  Spec (ffeature L t) (samples es) (read (history L B s es) (ffeature L t)).
Proof.
  intros enum W fs es t He ts s C O It Hcls V HV.
  set (P := NeedF ts t).
  assert (Hw : map who s = ts) by apply construct_who.
  assert (N : Single ts) by (apply built_single; assumption).
  assert (HP : forall f, P f -> exists a, find s f = Some a).
  { intros f [u [Hu <-]]; destruct (built_find enum He W fs u (needs_in _ _ _ Hu)) as [a [Ha _]].
    now exists a. }
  assert (Pn : forall a ea, In a (history L B s ea) -> P (feat a) -> Needs L ts t (who a)).
  { intros a ea Ha [u [Hu Eu]]; replace (who a) with u; [assumption |].
    apply (single_same ts); [assumption | now apply needs_in in Hu | | assumption].
    rewrite <- Hw, <- (history_who L B ea s); now apply in_map. }
  assert (U : forall ea eb, es = ea ++ eb -> forall a, In a (history L B s ea) ->
     P (feat a) -> is_dropped a = false).
  { intros ea eb E a Ha Hf; apply (V ea eb E a Ha); now apply (Pn a ea). }
  assert (D : downward P ts) by (now apply needf_downward).
  assert (A : agree P (history L B s es) (pushes L B s (samples es))).
  { apply history_pushes; rewrite ?Hw; assumption. }
  assert (Pt : P (ffeature L t)) by (exists t; split; [now constructor | reflexivity]).
  rewrite (agree_read P _ _ A); [| rewrite history_who, Hw; assumption | exact Pt].
  assert (Wp : map who (pushes L B s (samples es)) = ts).
  { rewrite <- Hw; generalize (samples es) as xs; clear; intros xs; generalize s as s'.
    induction xs as [| y xs IH]; intros s'; [reflexivity |].
    unfold pushes in *; cbn [fold_left]; rewrite IH; apply push_shape. }
  apply (good_read _ P); rewrite ?Wp; try assumption.
  - intros f Hf; destruct (A f Hf) as [_ [b [_ [Hb _]]]]; now exists b.
  - apply good_pushes; rewrite ?Hw; try assumption.
    + apply (U [] es eq_refl).
    + intros a Ha Hf.
      assert (Hn : Needs L ts t (who a)) by (now apply (Pn a [])).
      split; [now apply Hcls |].
      rewrite (built_state enum W fs a Ha); apply Ginit; now apply Hcls.
Qed.
End Correct.

End Run.
