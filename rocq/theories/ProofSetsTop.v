(** Drops in sets of the statistics library; correct answers in spite of drops. *)

From Coq Require Import List Bool Arith Lia.
From Verif Require Import Num NumFacts.
From Verif Require Import ModelFramework SpecFramework ProofFramework ProofFrameworkRef ProofFrameworkRun.
From Verif Require Import ModelLibrary ModelSets SpecSets ProofLibrary ProofSets.
Import ListNotations.

Lemma library_drops : forall t d, drops_too_much t = false -> In d (ldeps (lfeature t)) ->
  In (lfeature d) (map lfeature (ldeps t)).
Proof.
  intros t d Ht Hd; destruct t; try discriminate Ht; cbn in Hd;
  repeat (destruct Hd as [<- | Hd]; [cbn; tauto |]); destruct Hd.
Qed.

Lemma library_released : forall ts r, drops_too_much (fst r) = false -> Released Library ts r.
Proof.
  intros ts r Hr u Hu H; apply in_map_iff in H; destruct H as [d [E Hd]].
  unfold Reads; change (In (lfeature (fst u)) (map lfeature (ldeps (fst r)))).
  change (lfeature d = lfeature (fst u)) in E; rewrite <- E; now apply library_drops.
Qed.

Lemma needs_trans : forall L ts a b c, Needs L ts a b -> Needs L ts b c -> Needs L ts a c.
Proof.
  intros L ts a b c H; induction H as [a Ha | a d b Ha Hd Hr H IH]; intros H2; [exact H2 |].
  apply (needs_read L ts a d c); auto.
Qed.

Lemma needs_member : forall L ts a b, Needs L ts a b -> In b ts.
Proof. intros L ts a b H; induction H; assumption. Qed.

Lemma nodup_prefix : forall A (l l' : list A), NoDup (l ++ l') -> NoDup l.
Proof.
  intros A l l' H; induction l as [| a l IH]; [constructor |].
  cbn in H; inversion H as [| x y N1 N2]; subst; constructor; [| now apply IH].
  intros Ha; apply N1, in_or_app; now left.
Qed.

Section Top.
Variable B : Behaviour Library.
Variable enum : fmap Library -> fmap Library.
Hypothesis Henum : Enumeration Library enum.
Variable W : bool.
Variable fs : list (request Library).
Let ts := make_tuple Library enum W fs.
Let s0 := construct Library B enum W fs.

Lemma safe_continues : forall es, SafeDrops fs ts (dropped_tags Library B es) ->
  forall a, In a (history Library B s0 es) ->
    tripped Library B a = false /\
    (forall r, Live Library fs ts (dropped_tags Library B es) r ->
       Needs Library ts r (who Library B a) -> is_dropped Library B a = false).
Proof.
  intros es [HL HS] a Ha; apply (needed_continues Library B library_laws enum Henum W fs es HL); [| exact Ha].
  intros r t Ht Hr E; apply library_released, (HS r t Ht Hr); exact E.
Qed.

Lemma safe_prefix : forall ea eb,
  SafeDrops fs ts (dropped_tags Library B (ea ++ eb)) -> SafeDrops fs ts (dropped_tags Library B ea).
Proof.
  intros ea eb [[ND HR] HS]; unfold dropped_tags in *; rewrite flat_map_app in *.
  split; [split |].
  - rewrite map_app in ND; now apply nodup_prefix in ND.
  - intros t Ht; apply HR, in_or_app; now left.
  - intros r t Ht; apply HS, in_or_app; now left.
Qed.

(** Nothing that a wanted feature needs is ever dropped. *)
Lemma safe_never : forall es, SafeDrops fs ts (dropped_tags Library B es) ->
  forall r t, Live Library fs ts (dropped_tags Library B es) r -> Needs Library ts r t ->
  forall ea eb, es = ea ++ eb -> forall a, In a (history Library B s0 ea) ->
    Needs Library ts t (who Library B a) -> is_dropped Library B a = false.
Proof.
  intros es HS r t HL HN ea eb -> a Ha Hn.
  apply (proj2 (safe_continues ea (safe_prefix ea eb HS) a Ha) r); [| now apply (needs_trans _ _ _ t)].
  destruct HL as (H1 & H2 & H3); split; [exact H1 | split; [exact H2 |]].
  intros H; apply H3; unfold dropped_tags; rewrite flat_map_app, map_app; apply in_or_app; now left.
Qed.
End Top.

Theorem library_noninterference : forall (B : Behaviour Library),
  ReadsOnly Library B lconsults lon_push ->
  forall enum1 enum2, Enumeration Library enum1 -> Enumeration Library enum2 ->
  forall W1 W2 fs1 fs2,
  let ts1 := make_tuple Library enum1 W1 fs1 in
  let ts2 := make_tuple Library enum2 W2 fs2 in
  Compiles W1 ts1 -> Compiles W2 ts2 -> NoRollingClash ts1 -> NoRollingClash ts2 ->
  forall es1 es2, samples Library B es1 = samples Library B es2 ->
  SafeDrops fs1 ts1 (dropped_tags Library B es1) -> SafeDrops fs2 ts2 (dropped_tags Library B es2) ->
  forall r1 r2 t1 t2,
  Live Library fs1 ts1 (dropped_tags Library B es1) r1 -> Needs Library ts1 r1 t1 ->
  Live Library fs2 ts2 (dropped_tags Library B es2) r2 -> Needs Library ts2 r2 t2 ->
  lfeature (fst t1) = lfeature (fst t2) ->
  (forall u, Needs Library ts1 t1 u -> exists u', Needs Library ts2 t2 u' /\ fst u' = fst u) ->
  read Library B (history Library B (construct Library B enum1 W1 fs1) es1) (lfeature (fst t1))
  = read Library B (history Library B (construct Library B enum2 W2 fs2) es2) (lfeature (fst t1)).
Proof.
  intros B HB enum1 enum2 He1 He2 W1 W2 fs1 fs2 ts1 ts2 C1 C2 R1 R2 es1 es2 Es S1 S2 r1 r2 t1 t2
    L1 N1 L2 N2 Ef Hn.
  rewrite Ef at 2.
  apply (noninterference Library B library_laws lconsults lon_push HB enum1 enum2 W1 W2 fs1 fs2 es1 es2 t1 t2);
    try assumption.
  - now apply library_supplied.
  - now apply library_supplied.
  - now apply library_push_ordered.
  - now apply library_push_ordered.
  - now apply needs_member in N1.
  - now apply needs_member in N2.
  - now apply (safe_never B enum1 He1 W1 fs1 es1 S1 r1).
  - now apply (safe_never B enum2 He2 W2 fs2 es2 S2 r2).
Qed.

Theorem library_answers : forall (K : Num), FieldLaws K -> forall (sqrt : car K -> car K) (R : Rest K),
  RestReadsOnly R -> forall enum, Enumeration Library enum -> forall W fs v,
  let B := BasicSets K sqrt R in
  let ts := make_tuple Library enum W fs in
  Compiles W ts -> NoRollingClash ts -> OneVariate v ts -> (forall t, In t ts -> order_ok (fst t)) ->
  forall es, SafeDrops fs ts (dropped_tags Library B es) -> WeightsOk K W (samples Library B es) ->
  forall r t, Live Library fs ts (dropped_tags Library B es) r -> Needs Library ts r t ->
  basic (fst t) = true ->
  Answer K sqrt (XResult K R) W v (lfeature (fst t)) (samples Library B es)
    (read Library B (history Library B (construct Library B enum W fs) es) (lfeature (fst t))).
Proof.
  intros K HK sqrt R HR enum He W fs v B ts Hc Hr Hv Ho es HS HW r t HL HN Hb.
  apply (sets_answer K HK sqrt R HR enum He W fs Hc Hr v Ho Hv es t); try assumption.
  - now apply needs_member in HN.
  - now apply (safe_never B enum He W fs es HS r).
Qed.
