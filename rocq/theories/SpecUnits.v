(** Specification of ranks in a list of samples. *)
From Coq Require Import List Permutation.
From Verif Require Import Num SpecPSquare.
Import ListNotations.

(** [v] is the element at place [i] (counted from 0) of the samples [l] in ascending order. *)
Definition Ranked (K : Num) (i : nat) (l : list (car K)) (v : car K) : Prop :=
  exists l', Permutation l l' /\ NonDecreasing K l' /\ nth_error l' i = Some v.
