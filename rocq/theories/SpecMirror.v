(** Specification of C84: a history seen in a mirror. *)
From Coq Require Import List Bool Reals.
From Verif Require Import Num ModelTail ModelDouble SpecDouble.
Import ListNotations.

(** [y] is [x] itself, or its negative if [turn] is true, bit for bit; or both are zeros, of whatever sign. *)
Definition Turned (turn : bool) (x y : double) : Prop :=
  y = (if turn then d_opp x else x) \/ (finite x /\ finite y /\ val x = 0%R /\ val y = 0%R).
Definition Unturned : double -> double -> Prop := Turned false.
Definition Mirrored : double -> double -> Prop := Turned true.

(** The same for histories: samples; samples with weights, which stay as they are. *)
Definition TurnedAll (turn : bool) (xs ys : list double) : Prop := Forall2 (Turned turn) xs ys.
Definition TurnedWeighted (turn : bool) (h g : list (double * double)) : Prop :=
  Forall2 (fun e f => Turned turn (fst e) (fst f) /\ snd f = snd e) h g.
(** Samples and variates, each turned or not. *)
Definition TurnedPairs (turn turnv : bool) (h g : list (double * double)) : Prop :=
  Forall2 (fun e f => Turned turn (fst e) (fst f) /\ Turned turnv (snd e) (snd f)) h g.

(** Samples, variates and weights. *)
Definition TurnedTriples (turn turnv : bool) (h g : list (double * double * double)) : Prop :=
  Forall2 (fun e f => Turned turn (fst (fst e)) (fst (fst f)) /\ Turned turnv (snd (fst e)) (snd (fst f)) /\ snd f = snd e) h g.

(** Histories of a tail: the same operations, the samples turned, the variates as they are. *)
Definition TurnedOps {V : Type} (turn : bool) (h g : list (tail_op double V)) : Prop :=
  Forall2 (fun o p => match o, p with
                      | TPush x vs, TPush y us => Turned turn x y /\ us = vs
                      | TExtract, TExtract => True
                      | _, _ => False
                      end) h g.
(** Heap algorithms learn about the elements only what the comparison answers. *)
Definition Asking (H : HeapOps) : Prop :=
  forall c d, (forall i j, c i j = d i j) ->
  forall l, push_heap H c l = push_heap H d l /\ pop_heap H c l = pop_heap H d l /\ sort_heap H c l = sort_heap H d l.
(** The tail at the other end. *)
Definition opposite (lr : side) : side := match lr with Left => Right | Right => Left end.
