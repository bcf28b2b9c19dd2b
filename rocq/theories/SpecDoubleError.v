(** What the errors of means of doubles should be. *)
From Coq Require Import ZArith List Reals.
From Verif Require Import Num SpecStats ModelDouble SpecDouble SpecDoubleVariance.
Import ListNotations.
Local Open Scope R_scope.

(** The exact standard error of the mean of the real numbers the doubles stand for. *)
Definition ExactError (xs : list double) : R := sqrt (ExactVariance xs / (INR (length xs) - 1)).
