(** What the rolling statistics of doubles should be. *)
From Coq Require Import ZArith List Reals.
From Verif Require Import Num SpecStats ModelDouble SpecDouble.
Import ListNotations.
Local Open Scope R_scope.

(** The exact unbiased estimate of the variance of the real numbers the doubles stand for. *)
Definition ExactSampleVariance (xs : list double) : R := SampleVariance RN (map val xs).
