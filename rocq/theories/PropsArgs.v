(** Property theorems C86: named arguments mean what is written, in any order. *)
From Coq Require Import List Bool Arith ZArith QArith Qcanon.
From Verif Require Import Num ModelFramework SpecFramework ModelLibrary ModelSets ModelWhole ModelArgs SpecArgs ProofFrameworkEx ProofArgs4 ProofArgsEx.
Import ListNotations.

(** A set whose constructor and calls are given everything that is looked up answers as the set with exactly those
    parameters after exactly those samples: every accumulator gets the value written for its keyword, a first argument
    without a name is the sample, and quantile_probability defaults to one half in the constructor. *)
Theorem C86_meaning : forall K (P : Platform K) enum W fs c A ds es f q, Enumeration Library enum ->
  let ts := make_tuple Library enum W fs in let B := WholeSets K A (pl_sqrt K P) in
  legal K c -> complete K ctor_needs ts c -> well_typed K ctor_takes ts c -> unbiased K c -> sets_up K P ts c A ->
  Forall2 (deed_is K P A ts) ds es ->
  session K P enum W fs c ds f q = ask K P A (history Library B (construct Library B enum W fs) es) f q.
Proof. exact meaning. Qed.
Print Assumptions C86_meaning.
Example C86_meaning_ex : make_tuple Library in_order true fs86 = ts86 /\
  (legal QcN c86 /\ legal QcN c86' /\ legal QcN q86 /\ legal QcN q86' /\ legal QcN []) /\
  (complete QcN ctor_needs ts86 c86 /\ well_typed QcN ctor_takes ts86 c86 /\ unbiased QcN c86) /\
  sets_up QcN ex_platform ts86 c86 A86 /\
  (Forall2 (deed_is QcN ex_platform A86 ts86) ds86 es86 /\ Forall2 (deed_is QcN ex_platform A86 ts86) ds86' es86) /\
  map (fun ds => seen (run86 c86 ds t_sum [])) [ds86; ds86'; ds86''] = [Some (11 # 1); Some (11 # 1); Some (11 # 1)]%Q.
Proof. exact (conj tuple86 (conj legal86 (conj typed86 (conj set_up86 (conj deeds86 sums86))))). Qed.

(** The order of the arguments does not matter, nor whether the sample is named: the same answer, or neither compiles. *)
Theorem C86_order : forall K (P : Platform K) enum W fs c c' ds ds' f q q',
  legal K c -> legal K c' -> same_arguments K c c' -> Forall2 (rewritten K) ds ds' ->
  legal K q -> legal K q' -> same_arguments K q q' -> session K P enum W fs c ds f q = session K P enum W fs c' ds' f q'.
Proof. exact order. Qed.
Print Assumptions C86_order.
Example C86_order_ex : Forall2 (rewritten QcN) ds86 ds86' /\
  map (fun ds => seen (run86 c86 ds t_quantile q86)) [ds86; ds86'; ds86''] = [Some (5 # 1); Some (5 # 1); Some (5 # 1)]%Q.
Proof. exact (conj rewritten86 tails86). Qed.

(** Arguments that no accumulator of the set looks up have no effect. *)
Theorem C86_unused : forall K (P : Platform K) enum W fs c c' ds ds' f q q' a a', Enumeration Library enum ->
  let ts := make_tuple Library enum W fs in
  session K P enum W fs c ds f q = Some a -> session K P enum W fs c' ds' f q' = Some a' ->
  same_for K (fun k => exists kd, wanted ctor_takes ts k kd) c c' ->
  Forall2 (alike_for K (fun k => exists kd, wanted op_needs ts k kd)) ds ds' ->
  same_for K (eq k_quantile_probability) q q' -> a = a'.
Proof. exact unused. Qed.
Print Assumptions C86_unused.
Example C86_unused_ex : Forall2 (alike_for QcN (fun k => exists kd, wanted op_needs ts86 k kd)) ds86 ds86'' /\
  (same_for QcN (fun k => exists kd, wanted ctor_takes ts86 k kd) c86 c86' /\ same_for QcN (eq k_quantile_probability) q86 q86').
Proof. exact (conj alike86 set_alike86). Qed.

(** A program compiles only if every call gives at most one value for a keyword, at most the first without a name, and
    everything that some accumulator of the set looks up; and asks for a feature of the set. *)
Theorem C86_compiles : forall K (P : Platform K) enum W fs c ds f q a, Enumeration Library enum ->
  session K P enum W fs c ds f q = Some a -> let ts := make_tuple Library enum W fs in
  legal K c /\ complete K ctor_needs ts c /\ well_typed K ctor_takes ts c /\ unbiased K c /\ Forall (fine K ts) ds /\ legal K q /\
  exists t, In t ts /\ lfeature (fst t) = f.
Proof. exact accepted. Qed.
Print Assumptions C86_compiles.
Example C86_compiles_ex : map fails
  [run86 c86 [Call [Positional (arg 2)]] t_sum [];
   run86 c86 [Call [Positional (arg 2); Positional (arg 3)]] t_sum [];
   run86 c86 [Call [Positional (arg 2); Named k_weight (arg 3); Named k_sample (arg 4)]] t_sum [];
   run86 [] ds86 t_sum []; run86 [Named (k_cache_size on_left) (Size 3)] ds86 t_sum [];
   run86 c86 ds86 t_quantile []; run86 c86 ds86 t_max []] = repeat true 7.
Proof. exact rejected86. Qed.

(** It does compile if besides the probability is given with the question, which only some features ask for. *)
Theorem C86_enough : forall K (P : Platform K) enum W fs c ds f q p, let ts := make_tuple Library enum W fs in
  legal K c -> complete K ctor_needs ts c -> well_typed K ctor_takes ts c -> unbiased K c -> Forall (fine K ts) ds -> legal K q ->
  (exists t, In t ts /\ lfeature (fst t) = f) -> given K q k_quantile_probability (Scalar p) ->
  session K P enum W fs c ds f q <> None.
Proof. exact accepts. Qed.
Print Assumptions C86_enough.
Example C86_enough_ex : Forall (fine QcN ts86) ds86 /\ Forall (fine QcN ts86) ds86' /\ Forall (fine QcN ts86) ds86''.
Proof. exact fine86. Qed.

(** The probability of a question is the one written there. *)
Theorem C86_question : forall K (P : Platform K) A s f q p, let B := WholeSets K A (pl_sqrt K P) in
  legal K q -> given K q k_quantile_probability (Scalar p) -> find Library B s f <> None ->
  (forall g, read Library B s f = VRest (NFun g) -> ask K P A s f q = Some (Number (g p))) /\
  (forall g, read Library B s f = VRest (NVFun g) -> ask K P A s f q = Some (Numbers (g p))) /\
  (forall g, read Library B s f = VRest (NLoop g) -> ask K P A s f q = Some (Loop (fun n => g n p))).
Proof. exact question. Qed.
Print Assumptions C86_question.

(** Without one, a feature that needs it cannot be asked: there is no default. *)
Theorem C86_no_default : forall K (P : Platform K) A s f q, let B := WholeSets K A (pl_sqrt K P) in
  (forall p, ~ given K q k_quantile_probability (Scalar p)) ->
  (exists g, read Library B s f = VRest (NFun g)) \/ (exists g, read Library B s f = VRest (NVFun g)) \/
  (exists g, read Library B s f = VRest (NLoop g)) -> ask K P A s f q = None.
Proof. exact unasked. Qed.
Print Assumptions C86_no_default.
Example C86_question_ex : map (fun ds => seen (run86 c86 ds t_quantile q86)) [ds86; ds86'; ds86''] = [Some (5 # 1); Some (5 # 1); Some (5 # 1)]%Q.
Proof. exact tails86. Qed.
