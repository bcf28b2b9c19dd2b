(** What the skewness and the kurtosis of doubles should be. *)
From Coq Require Import ZArith List Reals.
From Verif Require Import Num SpecStats ModelDouble SpecDouble SpecDoubleVariance.
Import ListNotations.
Local Open Scope R_scope.

(** The exact third and fourth central moments of the real numbers the doubles stand for, in units of the standard
    deviation. *)
Definition ExactSkewness (xs : list double) : R := CentralMoment RN 3 (map val xs) / sqrt (ExactVariance xs) ^ 3.
Definition ExactKurtosis (xs : list double) : R := CentralMoment RN 4 (map val xs) / ExactVariance xs ^ 2 - 3.
