(** Specification of C83: how much weight a history gives to each value. *)
From Coq Require Import List Bool.
From Verif Require Import Num SpecStats ModelTail SpecTail.
Import ListNotations.

(** Equal samples, and equal pairs of sample and variate. *)
Definition same (K : Num) (x y : car K) : bool := negb (ltb K x y) && negb (ltb K y x).
Definition same_pair (K : Num) (p q : car K * car K) : bool := same K (fst p) (fst q) && same K (snd p) (snd q).

(** The weights of the samples equal to [v], added. *)
Definition WeightAt (K : Num) {A : Type} (eq : A -> A -> bool) (h : list (A * car K)) (v : A) : car K :=
  TotalWeight K (filter (fun e => eq (fst e) v) h).

(** Two histories, of any lengths and in any order, that give the same weight to every value. *)
Definition SameWeights (K : Num) {A : Type} (eq : A -> A -> bool) (h g : list (A * car K)) : Prop :=
  forall v, WeightAt K eq h v = WeightAt K eq g v.

(** What a set with weighted_tail_quantile or non_coherent_weighted_tail_mean reports after a history. *)
Definition wafter (K : Num) (H : HeapOps) (lr : side) (k : nat) (dA dV : car K) (ops : list (tail_op (car K) (car K)))
           (f : list (car K) -> list (car K) -> outcome (car K)) : outcome (car K) :=
  match tail_run H (tail_pred K lr) (tail_init k 1 dA dV) ops with
  | Ok s => match tail_result H (tail_pred K lr) s, tail_variate_result H (tail_pred K lr) s 0 with
            | Ok tl, Ok ws => f tl ws
            | UB, _ | _, UB => UB
            | _, _ => NotANumber
            end
  | NotANumber => NotANumber
  | UB => UB
  end.
