(** What weighted sums and means of doubles should be.  A history is a list of (sample, weight). *)
From Coq Require Import ZArith List Reals.
From Verif Require Import Num SpecStats ModelDouble SpecDouble.
Import ListNotations.
Local Open Scope R_scope.

(** The total weight, the weighted sum and the weighted mean of the real numbers the doubles stand for. *)
Definition ExactWeight (h : list (double * double)) : R := ExactSum (map snd h).
Definition ExactWeightedSum (h : list (double * double)) : R := total RN (fun p => val (fst p) * val (snd p)) h.
Definition ExactWeightedMean (h : list (double * double)) : R := ExactWeightedSum h / ExactWeight h.

(** The sum of the magnitudes of the products. *)
Definition WeightedMagnitude (h : list (double * double)) : R := total RN (fun p => Rabs (val (fst p) * val (snd p))) h.

(** Weights from 0 to [c]. *)
Definition Weights (c : R) (h : list (double * double)) : Prop := Forall (fun p => finite (snd p) /\ 0 <= val (snd p) <= c) h.
