(** Specification of C82: histories in which some samples have been raised. *)
From Coq Require Import List Bool.
From Verif Require Import Num ModelDouble SpecDouble.
Import ListNotations.

(** No sample of the second history is below its counterpart in the first. *)
Definition Higher (xs ys : list double) : Prop := Forall2 (fun x y => d_lt y x = false) xs ys.

(** The same for samples with weights; the weights are the same, and none is below zero. *)
Definition HigherWeighted (h g : list (double * double)) : Prop :=
  Forall2 (fun e f => d_lt (fst f) (fst e) = false /\ snd f = snd e /\ d_lt (snd e) d_zero = false) h g.
