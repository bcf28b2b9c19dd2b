(** Histograms of doubles. *)
From Coq Require Import List Arith Bool Reals.
From Verif Require Import Num ModelDouble SpecDouble.
Import ListNotations.
Local Open Scope R_scope.

(** [x] falls into bin [i] of the [b] bins (and an underflow and an overflow bin) that begin at [pos 0], ..., [pos (b + 1)]. *)
Definition FallsIn (K : Num) (b : nat) (pos : nat -> car K) (i : nat) (x : car K) : bool :=
  (Nat.eqb i 0 || negb (ltb K x (pos i))) && (Nat.eqb i (b + 1) || ltb K x (pos (i + 1)%nat)).

(** Where bin [i] of [b] bins from [m] to [M] should begin. *)
Definition ExactPosition (m M : double) (b i : nat) : R := val m + (INR i - 1) * ((val M - val m) / INR b).
