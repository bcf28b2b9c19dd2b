(** What the statistics of doubles should be: the real numbers they stand for. *)
From Coq Require Import ZArith List Reals.
From Flocq Require Import IEEE754.BinarySingleNaN.
From Verif Require Import Num SpecStats ModelDouble.
Import ListNotations.
Local Open Scope R_scope.

(** Neither infinite nor NaN; NaN; the real number a finite double stands for. *)
Definition finite (x : double) : Prop := is_finite x = true.
Definition nan (x : double) : Prop := is_nan x = true.
Definition val (x : double) : R := B2R x.

(** The unit roundoff: the relative error of one operation.  Half the smallest positive double: the
    absolute error where the result underflows. *)
Definition roundoff : R := / 2 ^ 53.
Definition tiny : R := / 2 ^ 1075.

(** The exact sum and mean, and the sum of the magnitudes. *)
Definition ExactSum (xs : list double) : R := total RN val xs.
Definition ExactMean (xs : list double) : R := ExactSum xs / INR (length xs).
Definition Magnitude (xs : list double) : R := total RN (fun x => Rabs (val x)) xs.

(** The samples are at most [b] in magnitude. *)
Definition Within (b : R) (xs : list double) : Prop := Forall (fun x => finite x /\ Rabs (val x) <= b) xs.

(** The samples are integers, at most [b] in magnitude. *)
Definition Integers (b : Z) (xs : list double) : Prop := Forall (fun x => finite x /\ exists z, val x = IZR z /\ (Z.abs z <= b)%Z) xs.

(** No more samples than a double can count. *)
Definition Countable {A : Type} (xs : list A) : Prop := (Z.of_nat (length xs) <= 2 ^ 53)%Z.

(** [a] is a smallest, [b] a largest of the samples; a list of doubles in ascending order. *)
Definition Spans (xs : list double) (a b : double) : Prop := In a xs /\ In b xs /\ forall x, In x xs -> val a <= val x <= val b.
Fixpoint Ascending (l : list double) : Prop :=
  match l with a :: (b :: _) as t => val a <= val b /\ Ascending t | _ => True end.
