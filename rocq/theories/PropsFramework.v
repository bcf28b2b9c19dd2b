(** Property theorems C38-C42: the feature framework and the statistics library on top of it. *)
From Coq Require Import List Bool Arith ZArith QArith Qcanon.
From Verif Require Import Num NumFacts SpecStats SpecRolling.
From Verif Require Import ModelFramework SpecFramework ModelLibrary ModelSets SpecSets ModelRollingSets SpecRollingSets.
From Verif Require Import ProofFramework ProofFrameworkRef ProofFrameworkRun ProofLibrary ProofSets ProofSetsTop
  ProofRollingSets ProofFrameworkEx.
Import ListNotations.

(** The statistics library is a library of features in the sense of the theorems below. *)
Theorem C38_library : LibLaws Library.
Proof. exact library_laws. Qed.
Print Assumptions C38_library.

(** ** C38: what a set contains *)
Theorem C38_once : forall L, LibLaws L -> forall enum, Enumeration L enum -> forall W fs,
  NoDup (map (ffeature L) (make_tuple L enum W fs)).
Proof. exact tuple_once. Qed.
Print Assumptions C38_once.
Theorem C38_requested : forall L, LibLaws L -> forall enum, Enumeration L enum -> forall W fs t,
  In t (listed L fs) -> exists u, In u (make_tuple L enum W fs) /\ ffeature L u = ffeature L t.
Proof. exact tuple_listed. Qed.
Print Assumptions C38_requested.
Theorem C38_dependencies : forall L, LibLaws L -> forall enum, Enumeration L enum -> forall W fs t d,
  In t (make_tuple L enum W fs) -> In d (deps L (fst t)) ->
  exists u, In u (make_tuple L enum W fs) /\ ffeature L u = feature L d.
Proof. exact tuple_closed. Qed.
Print Assumptions C38_dependencies.
Theorem C38_nothing_else : forall L, LibLaws L -> forall enum, Enumeration L enum -> forall W fs t,
  In t (make_tuple L enum W fs) -> Called L W fs t.
Proof. exact tuple_only. Qed.
Print Assumptions C38_nothing_else.
Theorem C38_everything_called : forall L, LibLaws L -> forall enum, Enumeration L enum -> forall W fs,
  NoDup (map (ffeature L) (listed L fs)) -> forall t, Called L W fs t ->
  exists u, In u (make_tuple L enum W fs) /\ ffeature L u = ffeature L t.
Proof. exact tuple_called. Qed.
Print Assumptions C38_everything_called.
(** What the user lists wins over what comes in as a dependency (and, within the list, the first). *)
Theorem C38_explicit_wins : forall L, LibLaws L -> forall enum, Enumeration L enum -> forall W fs l1 t l2,
  listed L fs = l1 ++ t :: l2 -> (forall u, In u l1 -> ffeature L u <> ffeature L t) ->
  In (as_listed L W t) (make_tuple L enum W fs).
Proof. exact tuple_first. Qed.
Print Assumptions C38_explicit_wins.
Example C38_ex : make_tuple Library in_order false [plain t_skewness; dropped t_immediate_mean] =
  [(t_count, false); (t_immediate_mean, true); (t_sum, false); (t_moment 2, false);
   (t_moment 3, false); (t_skewness, false)].
Proof. exact ex_tuple. Qed.
(** Asked for the left and the right tail, the library provides the left one only: both are the same
    abstract feature. *)
Theorem C38_sides_refuted : exists fs t, In t (listed Library fs) /\
  Compiles false (make_tuple Library (fun m => m) false fs) /\
  ~ In t (make_tuple Library (fun m => m) false fs).
Proof. exact sides_lost. Qed.
Print Assumptions C38_sides_refuted.

(** ** C39: order.  Full claim: for every feature list of the library, in every enumeration order of the
    map, everything an accumulator reads while it is pushed a sample has been updated before. *)
Theorem C39_library_partial : forall enum, Enumeration Library enum -> forall W fs,
  let ts := make_tuple Library enum W fs in
  Compiles W ts -> NoRollingClash ts -> PushOrdered Library lon_push ts.
Proof. exact library_push_ordered. Qed.
Print Assumptions C39_library_partial.
(** The excluded sets do go wrong: stats<rolling_variance, rolling_mean(lazy)>. *)
Theorem C39_refuted : exists fs xs, let ts := make_tuple Library (fun m => m) false fs in
  let B := BasicSets QcN (fun x => x) (RollingRest QcN 2) in
  Compiles false ts /\ ~ PushOrdered Library lon_push ts /\
  ~ RollingAnswer QcN 2 t_rolling_variance xs
      (read Library B (pushes Library B (construct Library B (fun m => m) false fs) xs) t_rolling_variance).
Proof. exact order_refuted. Qed.
Print Assumptions C39_refuted.
(** Any library in which dependence between the members of the set is transitive. *)
Theorem C39_generic : forall L, LibLaws L -> forall enum, Enumeration L enum -> forall W fs,
  transitive_on L (make_tuple L enum W fs) -> WellOrdered L (make_tuple L enum W fs).
Proof. exact tuple_ordered. Qed.
Print Assumptions C39_generic.
Example C39_ex : let ts := make_tuple Library in_order false good_fs in
  Compiles false ts /\ NoRollingClash ts /\ nth_error ts 3 = Some (t_variance, true) /\ lon_push t_variance = true.
Proof.
  exact (conj (proj1 good_set) (conj (proj1 (proj2 good_set)) (conj (f_equal (fun l => nth_error l 3) good_tuple) eq_refl))).
Qed.

(** ** C40.  Full claim: for every two feature lists of the library.  Missing: the sets of [C39_refuted],
    sets with two covariates ([C40_variates_refuted]) and the drops of C41 that go wrong. *)
(** Two sets, any two lists of features, any two enumeration orders: a feature that both contain, with
    the same implementations below it, has the same value after the same samples. *)
Theorem C40_noninterference_partial : forall (B : Behaviour Library), ReadsOnly Library B lconsults lon_push ->
  forall enum1 enum2, Enumeration Library enum1 -> Enumeration Library enum2 -> forall W1 W2 fs1 fs2,
  let ts1 := make_tuple Library enum1 W1 fs1 in
  let ts2 := make_tuple Library enum2 W2 fs2 in
  Compiles W1 ts1 -> Compiles W2 ts2 -> NoRollingClash ts1 -> NoRollingClash ts2 ->
  forall es1 es2, samples Library B es1 = samples Library B es2 ->
  SafeDrops fs1 ts1 (dropped_tags Library B es1) -> SafeDrops fs2 ts2 (dropped_tags Library B es2) ->
  forall r1 r2 t1 t2,
  Live Library fs1 ts1 (dropped_tags Library B es1) r1 -> Needs Library ts1 r1 t1 ->
  Live Library fs2 ts2 (dropped_tags Library B es2) r2 -> Needs Library ts2 r2 t2 ->
  lfeature (fst t1) = lfeature (fst t2) ->
  (forall u, Needs Library ts1 t1 u -> exists u', Needs Library ts2 t2 u' /\ fst u' = fst u) ->
  read Library B (history Library B (construct Library B enum1 W1 fs1) es1) (lfeature (fst t1))
  = read Library B (history Library B (construct Library B enum2 W2 fs2) es2) (lfeature (fst t1)).
Proof. exact library_noninterference. Qed.
Print Assumptions C40_noninterference_partial.
(** Every set of the library, whatever else it contains, answers every basic feature with the textbook
    value of that feature, over any history of samples and safe drops. *)
Theorem C40_answers_partial : forall (K : Num), FieldLaws K -> forall (sqrt : car K -> car K) (R : Rest K),
  RestReadsOnly R -> forall enum, Enumeration Library enum -> forall W fs v,
  let B := BasicSets K sqrt R in
  let ts := make_tuple Library enum W fs in
  Compiles W ts -> NoRollingClash ts -> OneVariate v ts -> (forall t, In t ts -> order_ok (fst t)) ->
  forall es, SafeDrops fs ts (dropped_tags Library B es) -> WeightsOk K W (samples Library B es) ->
  forall r t, Live Library fs ts (dropped_tags Library B es) r -> Needs Library ts r t ->
  basic (fst t) = true ->
  Answer K sqrt (XResult K R) W v (lfeature (fst t)) (samples Library B es)
    (read Library B (history Library B (construct Library B enum W fs) es) (lfeature (fst t))).
Proof. exact library_answers. Qed.
Print Assumptions C40_answers_partial.
(** The same for the rolling-window features. *)
Theorem C40_rolling_answers_partial : forall (K : Num), OrderedLaws K -> forall (sqrt : car K -> car K) (N : nat),
  let B := BasicSets K sqrt (RollingRest K N) in
  forall enum, Enumeration Library enum -> forall W fs,
  let ts := make_tuple Library enum W fs in
  Compiles W ts -> NoRollingClash ts -> (forall t, In t ts -> rolling_order_ok (fst t)) ->
  forall es, SafeDrops fs ts (dropped_tags Library B es) ->
  forall r t, Live Library fs ts (dropped_tags Library B es) r -> Needs Library ts r t ->
  rolling (fst t) = true ->
  RollingAnswer K N (lfeature (fst t)) (samples Library B es)
    (read Library B (history Library B (construct Library B enum W fs) es) (lfeature (fst t))).
Proof. exact rolling_answers. Qed.
Print Assumptions C40_rolling_answers_partial.
Example C40_ex : let ts := make_tuple Library in_order false good_fs in
  Compiles false ts /\ NoRollingClash ts /\ OneVariate 3 ts /\
  (forall t, In t ts -> order_ok (fst t)) /\ (forall t, In t ts -> rolling_order_ok (fst t)) /\
  SafeDrops good_fs ts (dropped_tags Library ExB good_es) /\
  Live Library good_fs ts (dropped_tags Library ExB good_es) (t_skewness, false) /\
  Live Library good_fs ts (dropped_tags Library ExB good_es) (t_rolling_variance, false).
Proof. exact good_set. Qed.
Example C40_ex_values :
  stopped false good_fs good_es = [t_variance; t_covariance 3] /\ asserted false good_fs good_es = false /\
  shown (reading false good_fs good_es t_skewness) = Some (-42 # 361)%Q /\
  shown (reading false good_fs good_es t_rolling_variance) = Some (25 # 2)%Q.
Proof. exact good_answers. Qed.
(** With two covariates the second mean reads the sum of the first covariate. *)
Theorem C40_variates_refuted : exists fs xs, let ts := make_tuple Library (fun m => m) false fs in
  let B := BasicSets QcN (fun x => x) (RollingRest QcN 2) in
  Compiles false ts /\ NoRollingClash ts /\ xs <> [] /\ In (t_mean_of_variates 1, false) ts /\
  read Library B (pushes Library B (construct Library B (fun m => m) false fs) xs) (t_mean_of_variates 1)
  <> VNum (Mean QcN (map (fun p => p_variate p 1%nat) xs)).
Proof. exact variates_refuted. Qed.
Print Assumptions C40_variates_refuted.

(** ** C41.  Full claim: after legal drops an accumulator runs if and only if it is, or is needed by, a
    requested feature that has not been dropped. *)
Theorem C41_continues_partial : forall L B, LibLaws L -> forall enum, Enumeration L enum -> forall W fs,
  let ts := make_tuple L enum W fs in
  forall es, LegalDrops L fs ts (dropped_tags L B es) ->
  (forall r t, In t (dropped_tags L B es) -> In r ts -> ffeature L r = feature L t -> Released L ts r) ->
  forall a, In a (history L B (construct L B enum W fs) es) ->
    tripped L B a = false /\
    (forall r, Live L fs ts (dropped_tags L B es) r -> Needs L ts r (who L B a) -> is_dropped L B a = false).
Proof. exact needed_continues. Qed.
Print Assumptions C41_continues_partial.
Theorem C41_stops_partial : forall L B, LibLaws L -> forall enum, Enumeration L enum -> forall W fs,
  let ts := make_tuple L enum W fs in
  forall es, LegalDrops L fs ts (dropped_tags L B es) ->
  (forall r t, In t (dropped_tags L B es) -> In r ts -> ffeature L r = feature L t ->
     Released L ts r /\ Releasing L ts r /\ (forall b, Needs L ts r b -> snd b = true)) ->
  forall a, In a (history L B (construct L B enum W fs) es) -> droppable L B a = true ->
    (forall r, Live L fs ts (dropped_tags L B es) r -> ~ Needs L ts r (who L B a)) -> is_dropped L B a = true.
Proof. exact unneeded_stops. Qed.
Print Assumptions C41_stops_partial.
(** In the statistics library: everything but the accumulators listed in [drops_too_much]. *)
Theorem C41_library_partial : forall B enum, Enumeration Library enum -> forall W fs,
  let ts := make_tuple Library enum W fs in
  forall es, SafeDrops fs ts (dropped_tags Library B es) ->
  forall a, In a (history Library B (construct Library B enum W fs) es) ->
    tripped Library B a = false /\
    (forall r, Live Library fs ts (dropped_tags Library B es) r ->
       Needs Library ts r (who Library B a) -> is_dropped Library B a = false).
Proof. exact safe_continues. Qed.
Print Assumptions C41_library_partial.
(** drop<> looks at the dependencies of the abstract feature, not at those of the accumulator: one legal
    drop<mean>() of stats<droppable<immediate_mean>, droppable<sum>> stops the sum. *)
Theorem C41_implementation_refuted : exists fs es r,
  let B := BasicSets QcN (fun x => x) (RollingRest QcN 2) in
  let ts := make_tuple Library (fun m => m) false fs in
  LegalDrops Library fs ts (dropped_tags Library B es) /\
  Live Library fs ts (dropped_tags Library B es) r /\
  exists a, In a (history Library B (construct Library B (fun m => m) false fs) es) /\
    who Library B a = r /\ is_dropped Library B a = true.
Proof. exact implementation_refuted. Qed.
Print Assumptions C41_implementation_refuted.
(** ... and drop<variance>() of the lazy variance never releases its second moment. *)
Theorem C41_leak_refuted : exists fs es,
  let B := BasicSets QcN (fun x => x) (RollingRest QcN 2) in
  let ts := make_tuple Library (fun m => m) false fs in
  LegalDrops Library fs ts (dropped_tags Library B es) /\
  (forall r, ~ Live Library fs ts (dropped_tags Library B es) r) /\
  exists a, In a (history Library B (construct Library B (fun m => m) false fs) es) /\
    droppable Library B a = true /\ is_dropped Library B a = false.
Proof. exact leak_refuted. Qed.
Print Assumptions C41_leak_refuted.
(** Dropping count twice stops it under the mean that needs it; no assertion fails. *)
Theorem C41_twice_refuted : exists fs es r,
  let B := BasicSets QcN (fun x => x) (RollingRest QcN 2) in
  let ts := make_tuple Library (fun m => m) false fs in
  let s := history Library B (construct Library B (fun m => m) false fs) es in
  (forall t, In t (dropped_tags Library B es) -> In (t, true) (listed Library fs)) /\
  Live Library fs ts (dropped_tags Library B es) r /\
  existsb (tripped Library B) s = false /\
  exists a, In a s /\ Needs Library ts r (who Library B a) /\ is_dropped Library B a = true.
Proof. exact twice_refuted. Qed.
Print Assumptions C41_twice_refuted.
(** A droppable feature in a nested sequence of features never accumulates anything. *)
Theorem C41_nested_refuted : exists fs xs t,
  let B := BasicSets QcN (fun x => x) (RollingRest QcN 2) in
  In t (listed Library fs) /\ Compiles false (make_tuple Library (fun m => m) false fs) /\
  read Library B (pushes Library B (construct Library B (fun m => m) false fs) xs) (lfeature (fst t))
  <> VNum (total QcN (fun x => x) (map p_sample xs)).
Proof. exact nested_refuted. Qed.
Print Assumptions C41_nested_refuted.
(** drop<mean>() of a mean that is not droppable lowers the counts below it all the same. *)
Example C41_plain_ex : stopped false pl ple = [t_sum] /\ asserted false pl ple = false /\
  shown (reading false pl ple t_mean) = Some (1 # 2)%Q.
Proof. exact pl_wrong. Qed.
Example C41_weighted_ex : stopped true wm wme = [t_weighted_sum; t_weighted_mean; t_count] /\
  asserted true wm wme = false.
Proof. exact wm_wrong. Qed.

(** ** C42.  Full claim: for every history of pushes and drops; missing: histories that drop one feature
    twice, where the claim is false ([C42_twice_refuted]). *)
Theorem C42_drop_changes_counts_only : forall L B s t,
  map (who L B) (drop L B t s) = map (who L B) s /\ map (state L B) (drop L B t s) = map (state L B) s.
Proof. exact drop_shape. Qed.
Print Assumptions C42_drop_changes_counts_only.
Theorem C42_push_changes_no_count : forall L B s x,
  map (who L B) (push L B s x) = map (who L B) s /\ map (refs L B) (push L B s x) = map (refs L B) s /\
  map (tripped L B) (push L B s x) = map (tripped L B) s.
Proof. exact push_shape. Qed.
Print Assumptions C42_push_changes_no_count.
Theorem C42_frozen_partial : forall L B, LibLaws L -> forall enum, Enumeration L enum -> forall W fs,
  let ts := make_tuple L enum W fs in
  let s0 := construct L B enum W fs in
  forall es es', LegalDrops L fs ts (dropped_tags L B (es ++ es')) ->
  (forall r t, In t (dropped_tags L B (es ++ es')) -> In r ts -> ffeature L r = feature L t -> Released L ts r) ->
  forall i a, nth_error (history L B s0 es) i = Some a -> is_dropped L B a = true ->
  exists a', nth_error (history L B s0 (es ++ es')) i = Some a' /\
    who L B a' = who L B a /\ state L B a' = state L B a /\ is_dropped L B a' = true.
Proof. exact stays_frozen. Qed.
Print Assumptions C42_frozen_partial.
(** A second drop of the same feature makes the count -1 and the accumulator runs again. *)
Theorem C42_twice_refuted : exists fs es es' a a',
  let B := BasicSets QcN (fun x => x) (RollingRest QcN 2) in
  let s0 := construct Library B (fun m => m) false fs in
  nth_error (history Library B s0 es) 0 = Some a /\ is_dropped Library B a = true /\
  nth_error (history Library B s0 (es ++ es')) 0 = Some a' /\ state Library B a' <> state Library B a.
Proof. exact resumes_refuted. Qed.
Print Assumptions C42_twice_refuted.
