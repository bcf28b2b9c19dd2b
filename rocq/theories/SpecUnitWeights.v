(** Specification: histories in which every sample gets the weight 1, and agreement of two outcomes. *)
From Coq Require Import List.
From Verif Require Import Num ModelDensity ModelTail.
Import ListNotations.

(** The same operations, every push with the weight 1. *)
Definition unit_op (K : Num) (o : dens_op (car K)) : dens_op (car K * car K) :=
  match o with DPush x => DPush (x, one K) | DExtract => DExtract end.
Definition unit_mop (K : Num) (o : dmed_ops (car K)) : dmed_ops (car K * car K) :=
  match o with MPush x => MPush (x, one K) | MExtract => MExtract end.
Definition unit_top (K : Num) (o : tail_op (car K) (car K)) : tail_op (car K) (car K) :=
  match o with TPush x _ => TPush x [one K] | TExtract => TExtract end.

(** Both are undefined, or both are NaN, or both are values that are related by [R]. *)
Definition alike {A B : Type} (R : A -> B -> Prop) (o : outcome A) (o' : outcome B) : Prop :=
  match o, o' with Ok a, Ok a' => R a a' | NotANumber, NotANumber => True | UB, UB => True | _, _ => False end.
