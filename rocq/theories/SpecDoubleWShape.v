(** What the weighted skewness and the weighted kurtosis of doubles should be. *)
From Coq Require Import ZArith List Reals.
From Verif Require Import Num SpecStats ModelDouble SpecDouble SpecDoubleWVariance.
Import ListNotations.
Local Open Scope R_scope.

(** The exact weighted third and fourth central moments of the real numbers the doubles stand for, in units of the
    weighted standard deviation. *)
Definition ExactWeightedSkewness (h : list (double * double)) : R :=
  WCentralMoment RN 3 (map (fun p => (val (fst p), val (snd p))) h) / sqrt (ExactWeightedVariance h) ^ 3.
Definition ExactWeightedKurtosis (h : list (double * double)) : R :=
  WCentralMoment RN 4 (map (fun p => (val (fst p), val (snd p))) h) / ExactWeightedVariance h ^ 2 - 3.
