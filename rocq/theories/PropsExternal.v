(** C45: external weights, value and reference accumulators report what they refer to. *)

From Coq Require Import List Bool Arith ZArith QArith Qcanon.
From Verif Require Import Num NumFacts SpecStats ModelFramework SpecFramework ModelLibrary ModelSets SpecSets.
From Verif Require Import ModelExternal SpecExternal ProofFrameworkEx ProofExternal ProofExternal2.
Import ListNotations.

(** Whatever was pushed, with whatever other set: an external feature answers what the set passed to
    the extractor says at that moment. *)
Theorem C45_external : forall (L : Lib) (B : Behaviour L), LibLaws L -> forall ext enum, Enumeration L enum ->
  forall W fs cs env t, In t (make_tuple L enum W fs) -> ext (fst t) = true ->
  read_with L B ext env (pushes_with L B ext (construct L (ExtB L B ext) enum W fs) cs) (ffeature L t)
  = env (ffeature L t).
Proof. exact external_reports. Qed.
Print Assumptions C45_external.

(** The same when the other set is held by reference and changes in any way meanwhile. *)
Theorem C45_external_reference : forall (L : Lib) (B : Behaviour L) (X : Type), LibLaws L ->
  forall ext enum, Enumeration L enum -> forall W fs
  (m : memory (accset L B)) a (es : list (happening (accset L B) X)) cs t,
  In t (make_tuple L enum W fs) -> ext (fst t) = true ->
  let m' := fold_left (happens (accset L B) X) es m in
  let held := fold_left (reference_op (accset L B) X) es (reference_init (accset L B) m a) in
  read_with L B ext (read L B (reference_result (accset L B) m' held))
    (pushes_with L B ext (construct L (ExtB L B ext) enum W fs) cs) (ffeature L t)
  = read L B (current (m a) a es) (ffeature L t).
Proof. exact external_reference. Qed.
Print Assumptions C45_external_reference.

(** In a set with weight type external<Weight> it is the sum and the mean of the weights, and nothing else,
    that come from the other set. *)
Theorem C45_which : forall t,
  weight_accumulator t = true <-> lfeature t = t_sum_of_weights \/ lfeature t = t_mean_of_weights.
Proof. exact which_external. Qed.
Print Assumptions C45_which.

(** A set with weight type external<Weight>, and a second set that collects the weights: every feature of
    the first answers what it would with weights of its own, provided that the second set is passed
    with each sample that an accumulator needs the weights for, after having been given that sample. *)
Theorem C45_external_weights : forall (B : Behaviour Library), ReadsOnly Library B lconsults lon_push ->
  forall enum enum2, Enumeration Library enum -> Enumeration Library enum2 -> forall fs ffs,
  let ts := make_tuple Library enum true fs in
  let ts2 := make_tuple Library enum2 true ffs in
  Compiles true ts -> Compiles true ts2 -> NoRollingClash ts -> NoRollingClash ts2 ->
  Provides Library weight_accumulator fs ffs ts ts2 ->
  forall cs,
  let other xs := pushes Library B (construct Library B enum2 true ffs) xs in
  (forall ys x env zs, cs = ys ++ (x, env) :: zs -> forall b, UsedOnPush Library weight_accumulator lon_push ts b ->
     env (lfeature (fst b)) = read Library B (other (map fst ys ++ [x])) (lfeature (fst b))) ->
  forall t, In t ts ->
  read_with Library B weight_accumulator (read Library B (other (map fst cs)))
    (pushes_with Library B weight_accumulator
       (construct Library (ExtB Library B weight_accumulator) enum true fs) cs) (lfeature (fst t))
  = read Library B (pushes Library B (construct Library B enum true fs) (map fst cs)) (lfeature (fst t)).
Proof. exact library_external. Qed.
Print Assumptions C45_external_weights.

(** ... hence the textbook values. *)
Theorem C45_textbook : forall (K : Num), FieldLaws K -> forall (sqrt : car K -> car K) (R : Rest K),
  RestReadsOnly R -> forall enum enum2, Enumeration Library enum -> Enumeration Library enum2 -> forall fs ffs v,
  let B := BasicSets K sqrt R in
  let ts := make_tuple Library enum true fs in
  let ts2 := make_tuple Library enum2 true ffs in
  Compiles true ts -> Compiles true ts2 -> NoRollingClash ts -> NoRollingClash ts2 ->
  Provides Library weight_accumulator fs ffs ts ts2 ->
  OneVariate v ts -> (forall t, In t ts -> order_ok (fst t)) ->
  forall cs, WeightsOk K true (map fst cs) ->
  let other xs := pushes Library B (construct Library B enum2 true ffs) xs in
  (forall ys x env zs, cs = ys ++ (x, env) :: zs -> forall b, UsedOnPush Library weight_accumulator lon_push ts b ->
     env (lfeature (fst b)) = read Library B (other (map fst ys ++ [x])) (lfeature (fst b))) ->
  forall t, Kept Library fs ts t -> basic (fst t) = true ->
  Answer K sqrt (XResult K R) true v (lfeature (fst t)) (map fst cs)
    (read_with Library B weight_accumulator (read Library B (other (map fst cs)))
       (pushes_with Library B weight_accumulator
          (construct Library (ExtB Library B weight_accumulator) enum true fs) cs) (lfeature (fst t))).
Proof. exact external_textbook. Qed.
Print Assumptions C45_textbook.

(** The second set needs to see the weights only. *)
Theorem C45_weights_only : forall (K : Num) (sqrt : car K -> car K) (R : Rest K) enum ffs,
  let B := BasicSets K sqrt R in
  (forall t, In t (make_tuple Library enum true ffs) -> fst t = t_count \/ weight_accumulator (fst t) = true) ->
  forall xs ys, map p_weight xs = map p_weight ys ->
  pushes Library B (construct Library B enum true ffs) xs = pushes Library B (construct Library B enum true ffs) ys.
Proof. exact weights_only. Qed.
Print Assumptions C45_weights_only.

(** A value accumulator reports the value given on construction for ever; a reference accumulator the
    current value of the object. *)
Theorem C45_value : forall (V X : Type) (m : memory V) (a : nat) (es : list (happening V X)),
  value_result V (fold_left (value_op V X) es (value_init V m a)) = m a.
Proof. exact value_constant. Qed.
Print Assumptions C45_value.
Theorem C45_reference : forall (V X : Type) (m : memory V) (a : nat) (es : list (happening V X)),
  reference_result V (fold_left (happens V X) es m) (fold_left (reference_op V X) es (reference_init V m a))
  = current (m a) a es.
Proof. exact reference_follows. Qed.
Print Assumptions C45_reference.

(** The sets of test/external_weights.cpp: a mean, which asks for the weights on extraction only, and a
    variance, which asks with every sample; both meet the hypotheses.  Passing the second set
    before it has seen the sample gives a wrong mean. *)
Example C45_ex :
  (Provides Library weight_accumulator lazy_fs wfs (make_tuple Library in_order true lazy_fs) (make_tuple Library in_order true wfs)
   /\ Provides Library weight_accumulator imm_fs wfs (make_tuple Library in_order true imm_fs) (make_tuple Library in_order true wfs))
  /\ (Compiles true (make_tuple Library in_order true lazy_fs) /\ Compiles true (make_tuple Library in_order true imm_fs) /\
      Compiles true (make_tuple Library in_order true wfs) /\
      NoRollingClash (make_tuple Library in_order true lazy_fs) /\ NoRollingClash (make_tuple Library in_order true imm_fs) /\
      NoRollingClash (make_tuple Library in_order true wfs) /\
      (forall b, ~ UsedOnPush Library weight_accumulator lon_push (make_tuple Library in_order true lazy_fs) b) /\
      UsedOnPush Library weight_accumulator lon_push (make_tuple Library in_order true imm_fs) (t_sum_of_weights, false) /\
      (forall ys x env zs, in_step [] four = ys ++ (x, env) :: zs -> env = read Library ExB (others (map fst ys ++ [x]))))
  /\ ext_reading lazy_fs (map (fun x => (x, nothing)) four) t_mean = Some (6 # 1)%Q
  /\ ext_reading lazy_fs (map (fun x => (x, nothing)) four) t_sum_of_weights = Some (14 # 1)%Q
  /\ ext_reading imm_fs (in_step [] four) t_mean = Some (6 # 1)%Q
  /\ ext_reading imm_fs (in_step [] four) t_variance = Some (24 # 7)%Q
  /\ ext_reading imm_fs (behind [] four) t_mean <> Some (6 # 1)%Q.
Proof. exact (conj (conj lazy_provided imm_provided) (conj ext_sets ext_values)). Qed.
