(** Specification of what is expected of a quantile or a tail mean when the probability changes. *)
From Coq Require Import List.
From Verif Require Import Num ModelTail SpecTail.
Import ListNotations.

(** A higher probability never gives a smaller value (where both are defined). *)
Definition GrowsWithProbability (K : Num) (F : car K -> outcome (car K)) : Prop :=
  forall p q a b, Inside01 K p -> Inside01 K q -> leb K p q = true -> F p = Ok a -> F q = Ok b -> leb K a b = true.
(** If a share of the samples is enough for a result then so is every smaller share. *)
Definition DefinedFurtherOut (K : Num) (lr : side) (F : car K -> outcome (car K)) : Prop :=
  forall p q b, Inside01 K p -> Inside01 K q -> leb K (TailShare K lr p) (TailShare K lr q) = true ->
    F q = Ok b -> exists a, F p = Ok a.
