(** What a reference counted accumulator that remembers its result must do. *)

From Coq Require Import List ZArith Bool.
From Verif Require Import ModelCached.
Import ListNotations.

Section Spec.
Context {Args : Type}.

(** The samples among the uses; how often it was released. *)
Definition fed (us : list (use Args)) : list Args :=
  flat_map (fun u => match u with Sample x => [x] | _ => [] end) us.
Definition releases (us : list (use Args)) : nat :=
  length (flat_map (fun u => match u with Release x => [x] | _ => [] end) us).

(** No further references are taken. *)
Definition NoAddRef (us : list (use Args)) : Prop := ~ In AddRef us.

End Spec.
