(** What the moments of doubles should be. *)
From Coq Require Import ZArith List Reals.
From Verif Require Import Num SpecStats ModelDouble SpecDouble.
Import ListNotations.
Local Open Scope R_scope.

(** The exact moment of order [N] of the real numbers the doubles stand for. *)
Definition ExactMoment (N : nat) (xs : list double) : R := Moment RN N (map val xs).
Definition ExactWeightedMoment (N : nat) (h : list (double * double)) : R := WMoment RN N (map (fun p => (val (fst p), val (snd p))) h).

(** The samples are the integers [zs]. *)
Definition Are (zs : list Z) (xs : list double) : Prop := Forall2 (fun x z => finite x /\ val x = IZR z) xs zs.
