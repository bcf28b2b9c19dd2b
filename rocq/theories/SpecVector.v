(** Vectors, their components, and matrices. *)
From Coq Require Import List.
From Verif Require Import Num.
Import ListNotations.

(** The vector (f 0, ..., f (d - 1)); the d x e matrix of the f i j. *)
Definition vector {T : Type} (d : nat) (f : nat -> T) : list T := map f (seq 0 d).
Definition matrix {T : Type} (d e : nat) (f : nat -> nat -> T) : list (list T) := vector d (fun i => vector e (f i)).

(** All vectors have dimension [d]. *)
Definition AllDim {T : Type} (d : nat) (xs : list (list T)) : Prop := Forall (fun x => length x = d) xs.

(** The history of the j-th components ([z] is never used when j is less than the dimension). *)
Definition column {T : Type} (z : T) (j : nat) (xs : list (list T)) : list T := map (fun x => nth j x z) xs.
Definition wcolumn {T W : Type} (z : T) (j : nat) (h : list (list T * W)) : list (T * W) :=
  map (fun p => (nth j (fst p) z, snd p)) h.
(** The history of the pairs of components i and j of two vectors. *)
Definition columns {T : Type} (z : T) (i j : nat) (h : list (list T * list T)) : list (T * T) :=
  map (fun p => (nth i (fst p) z, nth j (snd p) z)) h.
Definition wcolumns {T W : Type} (z : T) (i j : nat) (h : list (list T * list T * W)) : list (T * T * W) :=
  map (fun p => (nth i (fst (fst p)) z, nth j (snd (fst p)) z, snd p)) h.
(** Mixed histories: vector sample and scalar variate, scalar sample and vector variate. *)
Definition vscolumn {T : Type} (z : T) (j : nat) (h : list (list T * T)) : list (T * T) := wcolumn z j h.
Definition svcolumn {T : Type} (z : T) (j : nat) (h : list (T * list T)) : list (T * T) :=
  map (fun p => (fst p, nth j (snd p) z)) h.
