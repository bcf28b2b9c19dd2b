(** The accumulators of ModelBasic as members of accumulator sets: a [Behaviour] of
    the library (ModelFramework, ModelLibrary).  Each case calls the function of
    ModelBasic that models the accumulator, passing what the C++ code extracts
    from the set; the citations are there.

    The accumulators not in [basic] are parameters ([Rest]): they may do anything.

    Sets are constructed without a sample= argument. *)

From Coq Require Import List Bool Arith.
From Verif Require Import Num ModelBasic ModelFramework ModelLibrary.
Import ListNotations.

(** The argument pack of one call: acc(sample, weight = w, variate = v); [p_vector]: the variates
    whose type is a vector (used by the tail variates). *)
Record pack (K : Num) : Type := mkPack {
  p_sample : car K;
  p_weight : car K;
  p_variate : nat -> car K;
  p_vector : nat -> list (car K)
}.

Inductive cell (K : Num) (X : Type) : Type :=
| CNone | CNat (n : nat) | CNum (a : car K) | CPair (a b : car K) | CRest (x : X).

Inductive value (K : Num) (Y : Type) : Type :=
| VNone | VNat (n : nat) | VNum (a : car K) | VRest (y : Y).

Arguments p_sample {K} _.
Arguments p_weight {K} _.
Arguments p_variate {K} _ _.
Arguments p_vector {K} _ _.
Arguments CNone {K X}.
Arguments CNat {K X} _.
Arguments CNum {K X} _.
Arguments CPair {K X} _ _.
Arguments CRest {K X} _.
Arguments VNone {K Y}.
Arguments VNat {K Y} _.
Arguments VNum {K Y} _.
Arguments VRest {K Y} _.

(** The other accumulators. *)
Record Rest (K : Num) : Type := mkRest {
  XState : Type;
  XResult : Type;
  xinit : ltag -> XState;
  xstep : ltag -> (ltag -> value K XResult) -> pack K -> XState -> XState;
  xresult : ltag -> (ltag -> value K XResult) -> XState -> XResult
}.

(** The accumulators modelled here. *)
Definition basic (t : ltag) : bool :=
  match t with
  | t_count | t_sum | t_sum_kahan | t_weighted_sum | t_weighted_sum_kahan
  | t_sum_of_weights | t_sum_of_weights_kahan
  | t_sum_of_variates _ | t_sum_of_variates_kahan _
  | t_weighted_sum_of_variates _ | t_weighted_sum_of_variates_kahan _
  | t_mean | t_immediate_mean | t_weighted_mean | t_immediate_weighted_mean
  | t_mean_of_weights | t_immediate_mean_of_weights
  | t_mean_of_variates _ | t_immediate_mean_of_variates _
  | t_weighted_mean_of_variates _ | t_immediate_weighted_mean_of_variates _
  | t_moment _ | t_weighted_moment _
  | t_variance | t_lazy_variance | t_weighted_variance | t_lazy_weighted_variance
  | t_skewness | t_weighted_skewness | t_kurtosis | t_weighted_kurtosis
  | t_covariance _ | t_weighted_covariance _
  | t_error_of_mean | t_error_of_immediate_mean => true
  | _ => false
  end.

(** What result() of an accumulator extracts from the set.  The basic accumulators that
    extract something in operator() report a number they store (variance.hpp 115-118,
    covariance.hpp 151-154, mean.hpp 73-76 and the weighted versions); the other ones
    extract in result() whatever they consult. *)
Definition lshows (t : ltag) : list ltag :=
  if basic t && lon_push t then [] else lconsults t.

Section Sets.
Variable K : Num.
Variable sqrt : car K -> car K.
Variable R : Rest K.
Local Notation T := (car K).
Local Notation X := (XState K R).
Local Notation Y := (XResult K R).
Local Notation cell := (cell K X).
Local Notation value := (value K Y).

(** Reading a number or a count (a type error in C++ otherwise). *)
Definition vnum (v : value) : T := match v with VNum a => a | _ => zero K end.
Definition vnat (v : value) : nat := match v with VNat n => n | _ => O end.

Definition binit (t : ltag) : cell :=
  let z := zero K in
  if basic t then
    match t with
    | t_count => CNat 0
    | t_sum | t_sum_of_weights | t_sum_of_variates _ => CNum (sum_init K z)
    | t_sum_kahan | t_sum_of_weights_kahan | t_sum_of_variates_kahan _ =>
        CPair (fst (kahan_init K z)) (snd (kahan_init K z))
    | t_weighted_sum | t_weighted_sum_of_variates _ => CNum (weighted_sum_init K z)
    | t_weighted_sum_kahan | t_weighted_sum_of_variates_kahan _ =>
        CPair (fst (weighted_kahan_init K z)) (snd (weighted_kahan_init K z))
    | t_immediate_mean | t_immediate_mean_of_weights | t_immediate_mean_of_variates _ =>
        CNum (imm_mean_init K z)
    | t_immediate_weighted_mean | t_immediate_weighted_mean_of_variates _ =>
        CNum (imm_weighted_mean_init K z)
    | t_moment _ => CNum (moment_init K z)
    | t_weighted_moment _ => CNum (weighted_moment_init K z)
    | t_variance => CNum (variance_init K z)
    | t_weighted_variance => CNum (weighted_variance_init K z)
    | t_covariance _ => CNum (covariance_init K z z)
    | t_weighted_covariance _ => CNum (weighted_covariance_init K z z)
    | _ => CNone
    end
  else CRest (xinit K R t).

Definition of_pair (p : T * T) : cell := CPair (fst p) (snd p).
Definition of_option (o : option T) : cell := match o with Some a => CNum a | None => CNone end.

Definition bstep (t : ltag) (r : ltag -> value) (p : pack K) (s : cell) : cell :=
  let x := p_sample p in
  let w := p_weight p in
  let v := p_variate p in
  let cnt := vnat (r t_count) in
  let W := vnum (r t_sum_of_weights) in
  match t, s with
  | t_count, CNat n => CNat (S n)
  | t_sum, CNum a => CNum (sum_op K a x)
  | t_sum_of_weights, CNum a => CNum (sum_op K a w)
  | t_sum_of_variates n, CNum a => CNum (sum_op K a (v n))
  | t_sum_kahan, CPair a c => of_pair (kahan_op K (a, c) x)
  | t_sum_of_weights_kahan, CPair a c => of_pair (kahan_op K (a, c) w)
  | t_sum_of_variates_kahan n, CPair a c => of_pair (kahan_op K (a, c) (v n))
  | t_weighted_sum, CNum a => CNum (weighted_sum_op K a x w)
  | t_weighted_sum_of_variates n, CNum a => CNum (weighted_sum_op K a (v n) w)
  | t_weighted_sum_kahan, CPair a c => of_pair (weighted_kahan_op K (a, c) x w)
  | t_weighted_sum_of_variates_kahan n, CPair a c => of_pair (weighted_kahan_op K (a, c) (v n) w)
  | t_immediate_mean, CNum m => CNum (imm_mean_op K m cnt x)
  | t_immediate_mean_of_weights, CNum m => CNum (imm_mean_op K m cnt w)
  | t_immediate_mean_of_variates n, CNum m => CNum (imm_mean_op K m cnt (v n))
  | t_immediate_weighted_mean, CNum m => CNum (imm_weighted_mean_op K m W x w)
  | t_immediate_weighted_mean_of_variates n, CNum m =>
      CNum (imm_weighted_mean_op K m W (v n) w)
  | t_moment n, CNum a => of_option (moment_op K n a x)
  | t_weighted_moment n, CNum a => of_option (weighted_moment_op K n a x w)
  | t_variance, CNum a => CNum (variance_op K a (vnum (r t_mean)) cnt x)
  | t_weighted_variance, CNum a =>
      CNum (weighted_variance_op K a (vnum (r t_mean)) W cnt x w)
  | t_covariance n, CNum a =>
      CNum (covariance_op K a (vnum (r (t_mean_of_variates n))) (vnum (r t_mean)) cnt x (v n))
  | t_weighted_covariance n, CNum a =>
      CNum (weighted_covariance_op K a (vnum (r (t_mean_of_variates n))) (vnum (r t_mean))
              W cnt x (v n) w)
  | _, CRest y => CRest (xstep K R t r p y)
  | _, _ => s
  end.

Definition bresult (t : ltag) (r : ltag -> value) (s : cell) : value :=
  let cnt := vnat (r t_count) in
  let W := vnum (r t_sum_of_weights) in
  let mean := vnum (r t_mean) in
  let m n := vnum (r (t_moment n)) in
  match t, s with
  | t_mean, _ => VNum (mean_result K (vnum (r t_sum)) cnt)
  | t_mean_of_weights, _ => VNum (mean_result K W cnt)
  | t_mean_of_variates _, _ => VNum (mean_result K (vnum (r t_abstract_sum_of_variates)) cnt)
  | t_weighted_mean, _ => VNum (weighted_mean_result K (vnum (r t_sum)) W)
  | t_weighted_mean_of_variates _, _ =>
      VNum (weighted_mean_result K (vnum (r t_abstract_weighted_sum_of_variates)) W)
  | t_moment _, CNum a => VNum (moment_result K a cnt)
  | t_weighted_moment _, CNum a => VNum (weighted_moment_result K a W)
  | t_lazy_variance, _ => VNum (lazy_variance_result K (m 2) mean)
  | t_lazy_weighted_variance, _ => VNum (lazy_weighted_variance_result K (m 2) mean)
  | t_skewness, _ | t_weighted_skewness, _ => VNum (skewness_result K sqrt (m 3) (m 2) mean)
  | t_kurtosis, _ | t_weighted_kurtosis, _ => VNum (kurtosis_result K (m 4) (m 3) (m 2) mean)
  | t_error_of_mean, _ | t_error_of_immediate_mean, _ =>
      VNum (error_of_mean_result K sqrt (vnum (r t_variance)) cnt)
  | _, CNat n => VNat n
  | _, CNum a => VNum a
  | _, CPair a _ => VNum a
  | _, CRest y => if basic t then VNone else VRest (xresult K R t r y)
  | _, CNone => VNone
  end.

Definition BasicSets : Behaviour Library :=
  mkBehaviour Library cell (pack K) value VNone binit bstep bresult.

End Sets.
