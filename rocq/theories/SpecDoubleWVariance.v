(** What weighted variances of doubles should be.  A history is a list of (sample, weight). *)
From Coq Require Import ZArith List Reals.
From Verif Require Import Num SpecStats ModelDouble SpecDouble SpecDoubleWeighted.
Import ListNotations.
Local Open Scope R_scope.

(** The weighted variance of the real numbers the doubles stand for. *)
Definition ExactWeightedVariance (h : list (double * double)) : R := WVariance RN (map (fun p => (val (fst p), val (snd p))) h).

(** A bound of the samples whose square, times a moderate weight, neither overflows nor underflows. *)
Definition Mild (b : R) : Prop := / 2 ^ 220 <= b <= 2 ^ 220.

(** No weight but the first is more than [r] times the total of the weights before it. *)
Definition Balanced (r : R) (h : list (double * double)) : Prop :=
  forall g x w k, h = g ++ (x, w) :: k -> g <> [] -> val w <= r * ExactWeight g.
