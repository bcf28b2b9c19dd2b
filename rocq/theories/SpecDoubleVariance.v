(** What the variance and the covariance of doubles should be. *)
From Coq Require Import ZArith List Reals.
From Verif Require Import Num SpecStats ModelDouble SpecDouble.
Import ListNotations.
Local Open Scope R_scope.

(** The exact variance and covariance of the real numbers the doubles stand for. *)
Definition ExactVariance (xs : list double) : R := Variance RN (map val xs).
Definition ExactCovariance (h : list (double * double)) : R := Covariance RN (map (fun p => (val (fst p), val (snd p))) h).

(** A bound of the samples whose square neither overflows nor underflows. *)
Definition Moderate (b : R) : Prop := / 2 ^ 450 <= b <= 2 ^ 440.

(** No more than 2^40 samples. *)
Definition Few {A : Type} (xs : list A) : Prop := (Z.of_nat (length xs) <= 2 ^ 40)%Z.
