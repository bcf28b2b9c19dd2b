(** Accumulators that hold nothing of their own: external, value and reference
    (include/boost/accumulators/framework/accumulators/). *)

From Coq Require Import List Bool ZArith Arith.
From Verif Require Import ModelFramework ModelLibrary.
Import ListNotations.

(** ** external *)

Section External.
Variable L : Lib.
Variable B : Behaviour L.

(** Which tags are implemented by external_impl. *)
Variable ext : tag L -> bool.

(** external_impl, external_accumulator.hpp 26-59, beside the accumulators of [B].  It has no
    operator() of its own (accumulator_base.hpp 44-46 does nothing), and result() extracts the same
    feature from the set passed with the call as weights = set, or from the one a reference
    feature of the set refers to.  The state [inr r] of such an accumulator stands for what the
    argument pack of the call under way lets it extract ([bind]); nothing is kept between calls. *)
Definition ExtB : Behaviour L :=
  mkBehaviour L (State L B + Result L B) (Sample L B) (Result L B) (absent L B)
    (fun t => if ext t then inr (absent L B) else inl (init L B t))
    (fun t r x s => match s with inl a => inl (step L B t r x a) | inr y => inr y end)
    (fun t r s => match s with inl a => result L B t r a | inr y => y end).

(** One call, of operator() or of an extractor: the pack carries the other set, [env f] is what
    extractor<f>(other set) gives (external_accumulator.hpp 43-58). *)
Definition bind (env : tag L -> Result L B) (s : accset L ExtB) : accset L ExtB :=
  map (fun a => match state L ExtB a with
                | inl _ => a
                | inr _ => mkAcc L ExtB (who L ExtB a) (refs L ExtB a) (tripped L ExtB a)
                             (inr (env (ffeature L (who L ExtB a))))
                end) s.

(** acc(sample, weight = w, weights = other) *)
Definition push_with (s : accset L ExtB) (c : Sample L B * (tag L -> Result L B)) : accset L ExtB :=
  push L ExtB (bind (snd c) s) (fst c).

Definition pushes_with (s : accset L ExtB) (cs : list (Sample L B * (tag L -> Result L B))) : accset L ExtB :=
  fold_left push_with cs s.

(** feature(acc, weights = other) *)
Definition read_with (env : tag L -> Result L B) (s : accset L ExtB) (f : tag L) : Result L B :=
  read L ExtB (bind env s) f.

End External.

(** The accumulators that a set with the weight type external<Weight> turns into external_impl
    (to_accumulator, depends_on.hpp 350-371): those whose tag has is_weight_accumulator true,
    sum.hpp 84, sum_kahan.hpp 107, mean.hpp 117 and 125. *)
Definition weight_accumulator (t : ltag) : bool :=
  match t with
  | t_sum_of_weights | t_sum_of_weights_kahan | t_mean_of_weights | t_immediate_mean_of_weights => true
  | _ => false
  end.

(** ** value and reference *)

Section Memory.
Variable V : Type.
Variable X : Type.

(** Objects of the program, by address. *)
Definition memory : Type := nat -> V.
Definition store (m : memory) (a : nat) (v : V) : memory := fun b => if Nat.eqb b a then v else m b.

(** What may happen to a program with such a set: some object changes, a sample is pushed. *)
Inductive happening : Type :=
| Assign (a : nat) (v : V)
| Push_sample (x : X).

Definition happens (m : memory) (e : happening) : memory :=
  match e with Assign a v => store m a v | Push_sample _ => m end.

(** value_accumulator_impl, value_accumulator.hpp 26-44: copies the argument on construction.
    [value_op]: operator() is that of accumulator_base.hpp 44-46. *)
Definition value_init (m : memory) (a : nat) : V := m a.
Definition value_op (s : V) (e : happening) : V := match e with Assign _ _ => s | Push_sample _ => s end.
Definition value_result (s : V) : V := s.

(** reference_accumulator_impl, reference_accumulator.hpp 27-45: keeps the address. *)
Definition reference_init (m : memory) (a : nat) : nat := a.
Definition reference_op (s : nat) (e : happening) : nat := match e with Assign _ _ => s | Push_sample _ => s end.
Definition reference_result (m : memory) (s : nat) : V := m s.

End Memory.

Arguments Assign {V X} _ _.
Arguments Push_sample {V X} _.
