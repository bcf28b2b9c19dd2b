(** Ranks of probabilities given as doubles. *)
From Coq Require Import List Reals.
From Verif Require Import Num ModelTail ModelDouble SpecDouble.
Import ListNotations.
Local Open Scope R_scope.

(** No sample is a NaN. *)
Definition Numbers (xs : list double) : Prop := Forall (fun x => ~ nan x) xs.
(** A probability strictly inside (0, 1), and the exact share of the samples in the chosen tail. *)
Definition Probability (p : double) : Prop := finite p /\ 0 < val p < 1.
Definition ExactShare (lr : side) (p : double) : R := match lr with Left => val p | Right => 1 - val p end.
(** [r] is the number of samples that make up the share of [n] samples, rounded up. *)
Definition ExactRank (lr : side) (n : nat) (p : double) (r : nat) : Prop :=
  INR r - 1 < INR n * ExactShare lr p <= INR r.
