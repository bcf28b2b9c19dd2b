(** Specification of histograms. *)
From Coq Require Import List Arith Bool.
From Verif Require Import Num SpecStats ModelDensity.
Import ListNotations.

Section Spec.
Variable K : Num.
Local Notation T := (car K).
Local Notation "1" := (one K) : num_scope.
Local Notation "x + y" := (add K x y) : num_scope.
Local Notation "x - y" := (sub K x y) : num_scope.
Local Notation "x * y" := (mul K x y) : num_scope.
Local Notation "x / y" := (div K x y) : num_scope.
Local Open Scope num_scope.

(** [m] is the least, [M] the greatest element of [l]. *)
Definition IsMin (l : list T) (m : T) : Prop := In m l /\ forall x, In x l -> ltb K x m = false.
Definition IsMax (l : list T) (M : T) : Prop := In M l /\ forall x, In x l -> ltb K M x = false.

(** Lower bounds of [b] equal bins from [m] to [M], preceded by an underflow bin and followed by
    an overflow bin: numbers 0 .. b + 1. *)
Definition BinPosition (m M : T) (b i : nat) : T := m + (ofnat K i - 1) * ((M - m) / ofnat K b).
(** [x] belongs to bin [i]. *)
Definition InBin (m M : T) (b i : nat) (x : T) : bool :=
  (Nat.eqb i 0 || leb K (BinPosition m M b i) x) && (Nat.eqb i (b + 1) || ltb K x (BinPosition m M b (i + 1))).
End Spec.

Definition dens_pushes {E} (ops : list (dens_op E)) : list E :=
  flat_map (fun o => match o with DPush e => [e] | DExtract => [] end) ops.

(** [i] is the first bin of the histogram [h] at which the cumulated fractions reach one half. *)
Definition MedianBin (K : Num) (h : list (car K * car K)) (i : nat) : Prop :=
  let half := div K (one K) (add K (one K) (one K)) in
  i < length h /\ ltb K (total K snd (firstn i h)) half = true /\ leb K half (total K snd (firstn (S i) h)) = true.

Definition dmed_pushes {E} (ops : list (dmed_ops E)) : list E :=
  flat_map (fun o => match o with MPush e => [e] | MExtract => [] end) ops.
