(** Property theorems C53: what a dropped feature reports. *)
From Coq Require Import List Bool Arith ZArith QArith Qcanon.
From Verif Require Import Num NumFacts ModelFramework SpecFramework SpecFrozen ModelLibrary ModelSets SpecSets ModelRollingSets.
From Verif Require Import ModelCached SpecCached ProofFrameworkEx ProofFrozen ProofCached ProofFrozenEx.
Import ListNotations.

(** Any library: once everything that a feature's value is computed from has been dropped, the value
    never changes again, whatever is pushed or dropped. *)
Theorem C53_value : forall L B, LibLaws L -> forall shows, ResultReads L B shows ->
  forall enum, Enumeration L enum -> forall W fs,
  let ts := make_tuple L enum W fs in
  let s0 := construct L B enum W fs in
  forall es es', LegalDrops L fs ts (dropped_tags L B (es ++ es')) ->
  (forall r t, In t (dropped_tags L B (es ++ es')) -> In r ts -> ffeature L r = feature L t -> Released L ts r) ->
  forall t, In t ts -> (forall u, ComputedFrom L shows ts t u -> Stopped L B (history L B s0 es) u) ->
  read L B (history L B s0 (es ++ es')) (ffeature L t) = read L B (history L B s0 es) (ffeature L t).
Proof. exact value_frozen. Qed.
Print Assumptions C53_value.

(** The act of dropping changes no value. *)
Theorem C53_drop : forall L B shows, ResultReads L B shows -> forall enum W fs,
  let s0 := construct L B enum W fs in
  forall es t f, read L B (history L B s0 (es ++ [Drop L B t])) f = read L B (history L B s0 es) f.
Proof. exact drop_reading. Qed.
Print Assumptions C53_drop.

(** When everything has been dropped: no feature still wanted needs it. *)
Theorem C53_stopped : forall L B, LibLaws L -> forall enum, Enumeration L enum -> forall W fs,
  let ts := make_tuple L enum W fs in
  forall es, LegalDrops L fs ts (dropped_tags L B es) ->
  (forall r t, In t (dropped_tags L B es) -> In r ts -> ffeature L r = feature L t ->
     Released L ts r /\ Releasing L ts r /\ (forall b, Needs L ts r b -> snd b = true)) ->
  forall u, In u ts -> snd u = true -> (forall r, Live L fs ts (dropped_tags L B es) r -> ~ Needs L ts r u) ->
  Stopped L B (history L B (construct L B enum W fs) es) u.
Proof. exact unneeded_stopped. Qed.
Print Assumptions C53_stopped.

(** The statistics library: from the drop on, the feature reports its textbook value over the samples
    pushed before the drop. *)
Theorem C53_answers : forall K sqrt R, RestReadsOnly R -> forall enum, Enumeration Library enum -> forall W fs,
  let B := BasicSets K sqrt R in
  let ts := make_tuple Library enum W fs in
  let s0 := construct Library B enum W fs in
  FieldLaws K -> forall v,
  Compiles W ts -> NoRollingClash ts -> OneVariate v ts -> (forall t, In t ts -> order_ok (fst t)) ->
  forall ea f eb, SafeDrops fs ts (dropped_tags Library B (ea ++ Drop Library B f :: eb)) ->
  WeightsOk K W (samples Library B ea) ->
  forall r t, Live Library fs ts (dropped_tags Library B ea) r -> Needs Library ts r t -> basic (fst t) = true ->
  (forall u, ComputedFrom Library lshows ts t u ->
     Stopped Library B (history Library B s0 (ea ++ [Drop Library B f])) u) ->
  Answer K sqrt (XResult K R) W v (lfeature (fst t)) (samples Library B ea)
    (read Library B (history Library B s0 (ea ++ Drop Library B f :: eb)) (lfeature (fst t))).
Proof. exact library_answers_frozen. Qed.
Print Assumptions C53_answers.
(** What result() of the basic accumulators extracts is as stated. *)
Theorem C53_shows : forall K sqrt R, RestReadsOnly R -> ResultReads Library (BasicSets K sqrt R) lshows.
Proof. exact basic_shows. Qed.
Print Assumptions C53_shows.

Example C53_ex : let ts := make_tuple Library in_order false fz_fs in
  (Compiles false ts /\ NoRollingClash ts /\ OneVariate 0 ts /\ (forall t, In t ts -> order_ok (fst t)) /\
   SafeDrops fz_fs ts (dropped_tags Library ExB fz_es) /\
   Live Library fz_fs ts (dropped_tags Library ExB fz_1) (t_variance, true) /\
   Live Library fz_fs ts (dropped_tags Library ExB fz_2) (t_mean, true)) /\
  (forall u, ComputedFrom Library lshows ts (t_variance, true) u ->
     Stopped Library ExB (history Library ExB (built false fz_fs) (fz_1 ++ [drop1 t_variance])) u) /\
  (forall u, ComputedFrom Library lshows ts (t_mean, true) u ->
     Stopped Library ExB (history Library ExB (built false fz_fs) (fz_2 ++ [drop1 t_mean])) u) /\
  (shown (reading false fz_fs fz_es t_variance) = Some 1%Q /\ shown (reading false fz_fs fz_es t_mean) = Some 4%Q).
Proof. exact (conj fz_set (conj fz_variance (conj fz_mean fz_values))). Qed.

(** Dropping the feature is not enough: a mean whose count is still wanted keeps changing after
    drop<mean>(), to the frozen sum divided by the running count. *)
Theorem C53_value_refuted : exists fs ea f eb t,
  let B := BasicSets QcN (fun x => x) (RollingRest QcN 2) in
  let ts := make_tuple Library (fun m => m) false fs in
  let s0 := construct Library B (fun m => m) false fs in
  SafeDrops fs ts (dropped_tags Library B (ea ++ Drop Library B f :: eb)) /\
  Live Library fs ts (dropped_tags Library B ea) t /\ lfeature (fst t) = f /\
  Stopped Library B (history Library B s0 (ea ++ [Drop Library B f])) t /\
  read Library B (history Library B s0 (ea ++ Drop Library B f :: eb)) (lfeature (fst t))
  <> read Library B (history Library B s0 ea) (lfeature (fst t)).
Proof. exact moves_refuted. Qed.
Print Assumptions C53_value_refuted.

(** ** with_cached_result *)
(** With [k] references: the wrapped accumulator until the last of them is released ... *)
Theorem C53_cached_running : forall AState Args Res (ainit : AState) (aop : AState -> Args -> AState)
  (ares : AState -> Args -> Res) checked k us x, NoAddRef us -> (releases us < k)%nat ->
  reported ainit aop ares checked (repeat AddRef k ++ us) x = Fine (ares (fold_left aop (fed us) ainit) x).
Proof. exact (@cached_running). Qed.
Print Assumptions C53_cached_running.
(** ... afterwards the result at that moment, through samples, copies and whatever the arguments say. *)
Theorem C53_cached_frozen : forall AState Args Res (ainit : AState) (aop : AState -> Args -> AState)
  (ares : AState -> Args -> Res) checked k us x vs y, NoAddRef us -> S (releases us) = k ->
  NoAddRef vs -> releases vs = 0%nat ->
  reported ainit aop ares checked (repeat AddRef k ++ us ++ Release x :: vs) y
  = Fine (ares (fold_left aop (fed us) ainit) x).
Proof. exact (@cached_frozen). Qed.
Print Assumptions C53_cached_frozen.
Example C53_cached_ex :
  reported 0%Z cz_op cz_res true (repeat AddRef 2 ++ [Sample 4%Z; Copied; Release 1%Z; Sample 2%Z]) 2%Z = Fine 3%Z /\
  reported 0%Z cz_op cz_res true
    (repeat AddRef 2 ++ [Sample 4%Z; Copied; Release 1%Z; Sample 2%Z] ++ Release 2%Z :: [Sample 100%Z; Copied]) 7%Z = Fine 3%Z.
Proof. exact cached_values. Qed.
(** Before any reference has been taken "dropped" means the cache is used, and it holds nothing: reading
    and destroying are undefined, and so is every copy.  (The constructor of a set copies its
    accumulators before it takes references, depends_on.hpp 250-253.) *)
Theorem C53_cached_raw_refuted : forall AState Args Res (ainit : AState) (aop : AState -> Args -> AState)
  (ares : AState -> Args -> Res) checked us x, NoAddRef us -> releases us = 0%nat ->
  reported ainit aop ares checked us x = Undefined /\
  next (uses ainit aop ares checked us) destroy_cached = Undefined.
Proof. exact (@cached_raw). Qed.
Print Assumptions C53_cached_raw_refuted.
(** One release too many is caught by the assertion; compiled without it, the accumulator takes samples
    again and the stored result is forgotten. *)
Theorem C53_cached_over_refuted : forall AState Args Res (ainit : AState) (aop : AState -> Args -> AState)
  (ares : AState -> Args -> Res) k us x vs z ws y, NoAddRef us -> S (releases us) = k ->
  NoAddRef vs -> releases vs = 0%nat -> NoAddRef ws ->
  uses ainit aop ares true (repeat AddRef k ++ us ++ (Release x :: vs) ++ Release z :: ws) = Asserted /\
  reported ainit aop ares false (repeat AddRef k ++ us ++ (Release x :: vs) ++ Release z :: ws) y
  = Fine (ares (fold_left aop (fed us ++ fed ws) ainit) y).
Proof. exact (@cached_over). Qed.
Print Assumptions C53_cached_over_refuted.
