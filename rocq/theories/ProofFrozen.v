(** Proofs about the values of dropped features (C53). *)

From Coq Require Import List ZArith Bool Lia Arith.
From Verif Require Import ModelFramework SpecFramework SpecFrozen ProofFramework ProofFrameworkRef ProofFrameworkRun.
From Verif Require Import Num ModelLibrary ModelSets SpecSets ProofLibrary ProofSets ProofSetsTop.
Import ListNotations.

Section Generic.
Variable L : Lib.
Variable B : Behaviour L.
Hypothesis HL : LibLaws L.
Variable shows : tag L -> list (tag L).
Hypothesis HS : ResultReads L B shows.

Local Notation who := (who L B).
Local Notation state := (state L B).
Local Notation feat a := (ffeature L (who a)).

Lemma find_absent : forall s f, (forall a, In a s -> feat a <> f) -> find L B s f = None.
Proof.
  induction s as [| b s IH]; intros f H; [reflexivity |].
  unfold find; cbn; destruct (tag_eqb L f (feat b)) eqn:E.
  - apply (ll_eqb L HL) in E; exfalso; apply (H b (or_introl eq_refl)); now symmetry.
  - apply IH; intros a Ha; apply H; now right.
Qed.

(** Two sets with the same tags, with the same states wherever [a]'s value comes from,
    agree on [a]. *)
Lemma extract_same : forall ts s1 s2, map who s1 = ts -> map who s2 = ts -> Single L ts ->
  forall n a, In a ts ->
  (forall b a1 a2, ComputedFrom L shows ts a b -> In a1 s1 -> In a2 s2 -> who a1 = b -> who a2 = b ->
     state a1 = state a2) ->
  extract L B n s1 (ffeature L a) = extract L B n s2 (ffeature L a).
Proof.
  intros ts s1 s2 W1 W2 N; induction n as [| n IH]; intros a Ha HF.
  - cbn; destruct (find L B s1 (ffeature L a)), (find L B s2 (ffeature L a)); reflexivity.
  - assert (K1 : exists a1, In a1 s1 /\ who a1 = a).
    { rewrite <- W1 in Ha; apply in_map_iff in Ha; destruct Ha as [a1 [E I]]; now exists a1. }
    assert (K2 : exists a2, In a2 s2 /\ who a2 = a).
    { rewrite <- W2 in Ha; apply in_map_iff in Ha; destruct Ha as [a2 [E I]]; now exists a2. }
    destruct K1 as [a1 [I1 E1]], K2 as [a2 [I2 E2]]; cbn.
    assert (F1 : find L B s1 (ffeature L a) = Some a1).
    { rewrite <- E1; apply (find_here L B HL); [now rewrite W1 | assumption]. }
    assert (F2 : find L B s2 (ffeature L a) = Some a2).
    { rewrite <- E2; apply (find_here L B HL); [now rewrite W2 | assumption]. }
    rewrite F1, F2, E1, E2.
    rewrite (HF a a1 a2 (from_self L shows ts a Ha) I1 I2 E1 E2).
    apply HS; intros d Hd.
    destruct (in_dec (fun x y : tag L => match tag_eqb L x y as b return tag_eqb L x y = b -> {x = y} + {x <> y} with
                        | true => fun E => left (proj1 (ll_eqb L HL x y) E)
                        | false => fun E => right (fun X => eq_ind (tag_eqb L x y) (fun b => b = true -> False)
                             (fun K => Bool.diff_false_true (eq_trans (eq_sym E) K))
                              _ eq_refl (proj2 (ll_eqb L HL x y) X)) end eq_refl)
                     (feature L d) (map (ffeature L) ts)) as [I | I].
    + apply in_map_iff in I; destruct I as [c [Ec Ic]]; rewrite <- Ec.
      apply IH; [assumption |].
      intros b b1 b2 Hb; apply HF; now apply (from_shown L shows ts a c d b).
    + assert (A : forall s, map who s = ts -> find L B s (feature L d) = None).
      { intros s Es; apply find_absent; intros b Hb X; apply I; rewrite <- Es, <- X.
        rewrite map_map; change (In ((fun c => feat c) b) (map (fun c => feat c) s)); now apply in_map. }
      destruct n; cbn; now rewrite (A s1 W1), (A s2 W2).
Qed.

Lemma shown_member : forall ts a b, ComputedFrom L shows ts a b -> In b ts.
Proof. intros ts a b H; induction H; assumption. Qed.

Variable enum : fmap L -> fmap L.
Hypothesis Henum : Enumeration L enum.
Variable W : bool.
Variable fs : list (request L).
Local Notation ts := (make_tuple L enum W fs).
Local Notation s0 := (construct L B enum W fs).

Lemma history_tags : forall es, map who (history L B s0 es) = ts.
Proof. intros es; rewrite history_who; exact (construct_who L B enum W fs). Qed.

Theorem value_frozen : forall es es', LegalDrops L fs ts (dropped_tags L B (es ++ es')) ->
  (forall r t, In t (dropped_tags L B (es ++ es')) -> In r ts -> ffeature L r = feature L t -> Released L ts r) ->
  forall t, In t ts -> (forall u, ComputedFrom L shows ts t u -> Stopped L B (history L B s0 es) u) ->
  read L B (history L B s0 (es ++ es')) (ffeature L t) = read L B (history L B s0 es) (ffeature L t).
Proof.
  intros es es' HD HR t Ht HF; unfold read.
  apply (extract_same ts); [apply history_tags | apply history_tags | now apply (tuple_once L HL enum Henum W fs) | assumption |].
  intros b a1 a2 Hb I1 I2 E1 E2.
  destruct (HF b Hb) as [a [Ia [Ea Da]]].
  destruct (In_nth_error _ _ Ia) as [i Hi].
  destruct (stays_frozen L B HL enum Henum W fs es es' HD HR i a Hi Da) as [a' [H1 [H2 [H3 _]]]].
  assert (N := tuple_once L HL enum Henum W fs).
  assert (X : forall s c d, map who s = ts -> In c s -> In d s -> who c = who d -> c = d).
  { intros s c d Es Ic Id E.
    assert (Q1 : find L B s (feat c) = Some c) by (apply (find_here L B HL); [unfold Single; now rewrite Es | assumption]).
    assert (Q2 : find L B s (feat d) = Some d) by (apply (find_here L B HL); [unfold Single; now rewrite Es | assumption]).
    rewrite E in Q1; congruence. }
  assert (Y1 : a1 = a').
  { apply (X (history L B s0 (es ++ es'))); [apply history_tags | assumption | now apply nth_error_In in H1 | congruence]. }
  assert (Y2 : a2 = a).
  { apply (X (history L B s0 es)); [apply history_tags | assumption | assumption | congruence]. }
  subst a1 a2; congruence.
Qed.

(** What no wanted feature needs any more has been dropped. *)
Theorem unneeded_stopped : forall es, LegalDrops L fs ts (dropped_tags L B es) ->
  (forall r t, In t (dropped_tags L B es) -> In r ts -> ffeature L r = feature L t ->
     Released L ts r /\ Releasing L ts r /\ (forall b, Needs L ts r b -> snd b = true)) ->
  forall u, In u ts -> snd u = true -> (forall r, Live L fs ts (dropped_tags L B es) r -> ~ Needs L ts r u) ->
  Stopped L B (history L B s0 es) u.
Proof.
  intros es HD HR u Hu Du HN.
  assert (K := Hu); rewrite <- (history_tags es) in K; apply in_map_iff in K; destruct K as [a [E I]].
  exists a; split; [assumption |]; split; [assumption |].
  apply (unneeded_stops L B HL enum Henum W fs es HD HR a I); [unfold droppable; now rewrite E | now rewrite E].
Qed.

(** Dropping changes no reading. *)
Theorem drop_reading : forall es t f, read L B (history L B s0 (es ++ [Drop L B t])) f = read L B (history L B s0 es) f.
Proof.
  intros es t f.
  assert (Eh : history L B s0 (es ++ [Drop L B t]) = drop L B t (history L B s0 es))
    by (unfold history; now rewrite fold_left_app).
  rewrite Eh; generalize (history L B s0 es) as s; intros s.
  destruct (drop_shape L B s t) as [Ew Es].
  assert (F : forall g, match find L B (drop L B t s) g, find L B s g with
                        | Some a, Some b => who a = who b /\ state a = state b
                        | None, None => True | _, _ => False end).
  { intros g; revert Ew Es; generalize (drop L B t s) as s'; induction s as [| b s IH]; intros [| a s'] Ew Es;
      cbn in Ew, Es; try discriminate; [exact I |].
    injection Ew as E1 Ew; injection Es as E2 Es; unfold find; cbn; rewrite E1.
    destruct (tag_eqb L g (feat b)); [now split | now apply IH]. }
  unfold read; generalize (S (depth L f)) as n; intros n; revert f.
  induction n as [| n IH]; intros f; cbn; specialize (F f);
    destruct (find L B (drop L B t s) f), (find L B s f); try contradiction; try reflexivity.
  destruct F as [-> ->]; apply HS; intros; apply IH.
Qed.

End Generic.

(** ** The statistics library *)

Section Lib.
Variable K : Num.
Variable sqrt : car K -> car K.
Variable R : Rest K.
Hypothesis HR : RestReadsOnly R.
Local Notation B := (BasicSets K sqrt R).

Lemma basic_shows : ResultReads Library B lshows.
Proof.
  intros t r1 r2 s H.
  destruct (basic t && lon_push t) eqn:E.
  - destruct t; try discriminate E; destruct s; reflexivity.
  - apply (proj2 (sets_read_only K sqrt R HR)); unfold lshows in H; rewrite E in H; exact H.
Qed.

Variable enum : fmap Library -> fmap Library.
Hypothesis Henum : Enumeration Library enum.
Variable W : bool.
Variable fs : list (request Library).
Local Notation ts := (make_tuple Library enum W fs).
Local Notation s0 := (construct Library B enum W fs).

Theorem library_value_frozen : forall es es', SafeDrops fs ts (dropped_tags Library B (es ++ es')) ->
  forall t, In t ts ->
  (forall u, ComputedFrom Library lshows ts t u -> Stopped Library B (history Library B s0 es) u) ->
  read Library B (history Library B s0 (es ++ es')) (lfeature (fst t))
  = read Library B (history Library B s0 es) (lfeature (fst t)).
Proof.
  intros es es' [HD HX] t Ht HF.
  apply (value_frozen Library B library_laws lshows basic_shows enum Henum W fs es es' HD); [| assumption | assumption].
  intros r u Hu Hr E; apply library_released, (HX r u Hu Hr); exact E.
Qed.

(** The value a feature had when it was dropped is the textbook value over the samples
    before the drop; it is reported ever after. *)
Theorem library_answers_frozen : FieldLaws K -> forall v,
  Compiles W ts -> NoRollingClash ts -> OneVariate v ts -> (forall t, In t ts -> order_ok (fst t)) ->
  forall ea f eb, SafeDrops fs ts (dropped_tags Library B (ea ++ Drop Library B f :: eb)) ->
  WeightsOk K W (samples Library B ea) ->
  forall r t, Live Library fs ts (dropped_tags Library B ea) r -> Needs Library ts r t -> basic (fst t) = true ->
  (forall u, ComputedFrom Library lshows ts t u ->
     Stopped Library B (history Library B s0 (ea ++ [Drop Library B f])) u) ->
  Answer K sqrt (XResult K R) W v (lfeature (fst t)) (samples Library B ea)
    (read Library B (history Library B s0 (ea ++ Drop Library B f :: eb)) (lfeature (fst t))).
Proof.
  intros HK v HC HN HO Hord ea f eb HS HW r t HL Hn Hb HF.
  change (ea ++ Drop Library B f :: eb) with (ea ++ [Drop Library B f] ++ eb) in *.
  rewrite app_assoc in *.
  rewrite (library_value_frozen (ea ++ [Drop Library B f]) eb HS t); [| now apply (needs_member Library ts r) | assumption].
  rewrite (drop_reading Library B lshows basic_shows).
  apply (library_answers K HK sqrt R HR enum Henum W fs v HC HN HO Hord ea) with (r := r); try assumption.
  apply (safe_prefix B enum W fs ea ([Drop Library B f] ++ eb)); now rewrite app_assoc.
Qed.

End Lib.
