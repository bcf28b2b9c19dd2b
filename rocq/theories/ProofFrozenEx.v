(** Concrete sets for C53. *)

From Coq Require Import List Bool Arith ZArith QArith Qcanon Lia Permutation.
From Verif Require Import Num NumFacts SpecStats ModelFramework SpecFramework SpecFrozen ModelLibrary ModelSets SpecSets.
From Verif Require Import ModelRollingSets SpecRollingSets ModelCached SpecCached ProofFrameworkEx ProofRollingSets ProofFrozen.
Import ListNotations.

(** stats<droppable<mean>, droppable<variance>>: the variance is dropped after 4, 2, the
    mean after 6. *)
Definition fz_fs : list (request Library) := [dropped t_mean; dropped t_variance].
Definition fz_1 : list (event Library ExB) := [push1 4; push1 2].
Definition fz_2 : list (event Library ExB) := [push1 4; push1 2; drop1 t_variance; push1 6].
Definition fz_es : list (event Library ExB) :=
  [push1 4; push1 2; drop1 t_variance; push1 6; drop1 t_mean; push1 10].
Definition fz_ts : list (ftag Library) := [(t_count, true); (t_sum, true); (t_mean, true); (t_variance, true)].

Lemma fz_tuple : make_tuple Library in_order false fz_fs = fz_ts.
Proof. vm_compute. reflexivity. Qed.

Lemma fz_set : let ts := make_tuple Library in_order false fz_fs in
  Compiles false ts /\ NoRollingClash ts /\ OneVariate 0 ts /\
  (forall t, In t ts -> order_ok (fst t)) /\
  SafeDrops fz_fs ts (dropped_tags Library ExB fz_es) /\
  Live Library fz_fs ts (dropped_tags Library ExB fz_1) (t_variance, true) /\
  Live Library fz_fs ts (dropped_tags Library ExB fz_2) (t_mean, true).
Proof.
  cbv zeta; rewrite fz_tuple; repeat split.
  - intros t H; each H.
  - intros a b Ha Hb Hr; each Hb; discriminate.
  - intros t n H; each H.
  - intros t H; each H; exact I.
  - cbn; repeat (apply NoDup_cons; [cbn; intuition discriminate |]); apply NoDup_nil.
  - intros t H; cbn in H; destruct H as [<- | [<- | []]];
      [exists (t_variance, true) | exists (t_mean, true)]; (split; [cbn; tauto | repeat split]).
  - intros r t _ Hr _; each Hr.
  - cbn; tauto.
  - cbn; intuition discriminate.
  - cbn; tauto.
  - cbn; intuition discriminate.
Qed.

Lemma fz_leaf : forall t u, lshows (fst t) = [] -> ComputedFrom Library lshows fz_ts t u -> u = t.
Proof.
  intros t u E H; inversion H as [a Ha | a c d b Ha Hd Hc Ef Hb]; subst; [reflexivity |].
  change (In d (lshows (fst t))) in Hd; rewrite E in Hd; destruct Hd.
Qed.

Lemma fz_variance : forall u, ComputedFrom Library lshows (make_tuple Library in_order false fz_fs) (t_variance, true) u ->
  Stopped Library ExB (history Library ExB (built false fz_fs) (fz_1 ++ [drop1 t_variance])) u.
Proof.
  rewrite fz_tuple; intros u H; apply fz_leaf in H; [| reflexivity]; subst u.
  apply stopped_in; vm_compute; tauto.
Qed.

Lemma fz_mean : forall u, ComputedFrom Library lshows (make_tuple Library in_order false fz_fs) (t_mean, true) u ->
  Stopped Library ExB (history Library ExB (built false fz_fs) (fz_2 ++ [drop1 t_mean])) u.
Proof.
  rewrite fz_tuple; intros u H.
  assert (K : u = (t_mean, true) \/ u = (t_count, true) \/ u = (t_sum, true)).
  { inversion H as [a Ha | a c d b Ha Hd Hc Ef Hb]; subst; [now left | right].
    cbn in Hc; destruct Hc as [<- | [<- | [<- | [<- | []]]]].
    - apply fz_leaf in Hb; [now left | reflexivity].
    - apply fz_leaf in Hb; [now right | reflexivity].
    - cbn in Hd; destruct Hd as [<- | [<- | []]]; discriminate Ef.
    - cbn in Hd; destruct Hd as [<- | [<- | []]]; discriminate Ef. }
  destruct K as [-> | [-> | ->]]; apply stopped_in; vm_compute; tauto.
Qed.

Lemma fz_values :
  shown (reading false fz_fs fz_es t_variance) = Some 1%Q /\ shown (reading false fz_fs fz_es t_mean) = Some 4%Q.
Proof. split; vm_compute; reflexivity. Qed.

(** stats<count, droppable<mean>>: the sum stops with the mean, the count does not. *)
Definition gz_fs : list (request Library) := [plain t_count; dropped t_mean].
Definition gz_ts : list (ftag Library) := [(t_count, false); (t_sum, true); (t_mean, true)].
Lemma gz_tuple : make_tuple Library in_order false gz_fs = gz_ts.
Proof. vm_compute. reflexivity. Qed.

Lemma moves_refuted : exists fs ea f eb t,
  let B := BasicSets QcN (fun x => x) (RollingRest QcN 2) in
  let ts := make_tuple Library (fun m => m) false fs in
  let s0 := construct Library B (fun m => m) false fs in
  SafeDrops fs ts (dropped_tags Library B (ea ++ Drop Library B f :: eb)) /\
  Live Library fs ts (dropped_tags Library B ea) t /\ lfeature (fst t) = f /\
  Stopped Library B (history Library B s0 (ea ++ [Drop Library B f])) t /\
  read Library B (history Library B s0 (ea ++ Drop Library B f :: eb)) (lfeature (fst t))
  <> read Library B (history Library B s0 ea) (lfeature (fst t)).
Proof.
  exists gz_fs, [push1 4; push1 2], t_mean, [push1 6], (t_mean, true).
  cbv zeta; change (fun m : fmap Library => m) with in_order; rewrite gz_tuple; repeat split.
  - cbn; repeat (apply NoDup_cons; [cbn; intuition discriminate |]); apply NoDup_nil.
  - intros t H; cbn in H; destruct H as [<- | []]; exists (t_mean, true); (split; [cbn; tauto | repeat split]).
  - intros r t _ Hr _; each Hr.
  - cbn; tauto.
  - cbn; intuition discriminate.
  - apply (stopped_in false gz_fs ([push1 4; push1 2] ++ [drop1 t_mean])); vm_compute; tauto.
  - intros X; apply (f_equal shown) in X; vm_compute in X; discriminate X.
Qed.

(** with_cached_result around an accumulator whose result reads something outside. *)
Definition cz_op (s x : Z) : Z := (s + x)%Z.
Definition cz_res (s n : Z) : Z := (s / n)%Z.
Lemma cached_values :
  reported 0%Z cz_op cz_res true (repeat AddRef 2 ++ [Sample 4%Z; Copied; Release 1%Z; Sample 2%Z]) 2%Z = Fine 3%Z /\
  reported 0%Z cz_op cz_res true
    (repeat AddRef 2 ++ [Sample 4%Z; Copied; Release 1%Z; Sample 2%Z] ++ Release 2%Z :: [Sample 100%Z; Copied]) 7%Z = Fine 3%Z.
Proof. split; vm_compute; reflexivity. Qed.
