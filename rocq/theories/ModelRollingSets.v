(** The rolling-window accumulators of ModelRolling as members of accumulator sets:
    an instance of [Rest] (ModelSets), for sets constructed with
    rolling_window_size = N and without a sample= argument.  Each case calls the
    function of ModelRolling that models the accumulator, passing what the C++ code
    extracts from the set; the citations are there. *)

From Coq Require Import List Bool Arith.
From Verif Require Import Num ModelBasic ModelRolling ModelFramework ModelLibrary ModelSets.
Import ListNotations.

(** A result is a buffer (rolling_window_plus1 returns the circular buffer itself,
    from which the others derive full(), front() and size()), a count or a number;
    [RUB]: undefined behaviour (front() of an empty buffer). *)
Inductive rcell (K : Num) : Type :=
| RNone | RBuf (b : list (car K)) | RNat (n : nat) | RNum (a : car K) | RPair (a b : car K) | RUB.
Arguments RNone {K}.
Arguments RBuf {K} _.
Arguments RNat {K} _.
Arguments RNum {K} _.
Arguments RPair {K} _ _.
Arguments RUB {K}.

(** The rolling accumulators. *)
Definition rolling (t : ltag) : bool :=
  match t with
  | t_rolling_window_plus1 | t_rolling_window | t_rolling_count | t_rolling_sum
  | t_rolling_moment _ | t_rolling_mean | t_immediate_rolling_mean | t_lazy_rolling_mean
  | t_rolling_variance | t_immediate_rolling_variance | t_lazy_rolling_variance => true
  | _ => false
  end.

Section Sets.
Variable K : Num.
Variable N : nat.
Local Notation T := (car K).
Local Notation value := (value K (rcell K)).

(** Reading a buffer, a count, a number (a type error in C++ otherwise). *)
Definition rbuf (v : value) : list T := match v with VRest (RBuf b) => b | _ => [] end.
Definition rnat (v : value) : nat := match v with VRest (RNat n) => n | _ => O end.
Definition rnum (v : value) : T := match v with VRest (RNum a) => a | _ => zero K end.

Definition of_num (o : option T) : rcell K := match o with Some a => RNum a | None => RUB end.
Definition of_pair (o : option (T * T)) : rcell K :=
  match o with Some p => RPair (fst p) (snd p) | None => RUB end.

Definition rinit (t : ltag) : rcell K :=
  let z := zero K in
  match t with
  | t_rolling_window_plus1 => RBuf rwp1_init
  | t_rolling_sum => RNum (rolling_sum_init K z)
  | t_rolling_moment _ => RNum (rolling_moment_init K z)
  | t_rolling_mean | t_immediate_rolling_mean => RNum (immediate_rolling_mean_init K z)
  | t_rolling_variance | t_immediate_rolling_variance =>
      RPair (fst (rolling_variance_init K z)) (snd (rolling_variance_init K z))
  | _ => RNone
  end.

Definition rstep (t : ltag) (r : ltag -> value) (p : pack K) (s : rcell K) : rcell K :=
  let x := p_sample p in
  let buf := rbuf (r t_rolling_window_plus1) in
  match t, s with
  | t_rolling_window_plus1, RBuf b => RBuf (rwp1_op N b x)
  | t_rolling_sum, RNum a => of_num (rolling_sum_op K N buf a x)
  | t_rolling_moment n, RNum a => of_num (rolling_moment_op K n N buf a x)
  | t_rolling_mean, RNum a | t_immediate_rolling_mean, RNum a =>
      of_num (immediate_rolling_mean_op K N buf a x)
  | t_rolling_variance, RPair m ss | t_immediate_rolling_variance, RPair m ss =>
      of_pair (rolling_variance_op K N buf (m, ss) (rnum (r t_rolling_mean)) x)
  | _, _ => s
  end.

Definition rresult (t : ltag) (r : ltag -> value) (s : rcell K) : rcell K :=
  let buf := rbuf (r t_rolling_window_plus1) in
  let cnt := rnat (r t_rolling_count) in
  match t, s with
  | t_rolling_window, _ => RBuf (rolling_window_result N buf)
  | t_rolling_count, _ => RNat (rolling_count_result N buf)
  | t_rolling_moment _, RNum a => RNum (rolling_moment_result K a cnt)
  | t_lazy_rolling_mean, _ => RNum (lazy_rolling_mean_result K (rnum (r t_rolling_sum)) cnt)
  | t_rolling_variance, RPair m ss | t_immediate_rolling_variance, RPair m ss =>
      RNum (rolling_variance_result K (m, ss) cnt)
  | t_lazy_rolling_variance, _ =>
      RNum (lazy_rolling_variance_result K (rnum (r t_rolling_mean)) (rnum (r (t_rolling_moment 2))) cnt)
  | _, _ => s
  end.

Definition RollingRest : Rest K := mkRest K (rcell K) (rcell K) rinit rstep rresult.

End Sets.
