(** Specification of marker-based quantile estimators. *)
From Coq Require Import List Arith Bool Sorted.
From Verif Require Import Num SpecStats.
Import ListNotations.

Section Spec.
Variable K : Num.
Local Notation T := (car K).
Local Notation "x + y" := (add K x y) : num_scope.
Local Notation "x - y" := (sub K x y) : num_scope.
Local Notation "x * y" := (mul K x y) : num_scope.
Local Notation "x / y" := (div K x y) : num_scope.
Local Open Scope num_scope.

Definition Increasing (l : list T) : Prop := StronglySorted (fun a b => ltb K a b = true) l.
Definition NonDecreasing (l : list T) : Prop := StronglySorted (fun a b => ltb K b a = false) l.
Definition Between (a x b : T) : Prop := ltb K x a = false /\ ltb K b x = false.

(** The value at [x] of the polynomial of degree at most two through three points (Lagrange), and of the
    line through two. *)
Definition Parabola (x0 y0 x1 y1 x2 y2 x : T) : T :=
  y0 * ((x - x1) * (x - x2)) / ((x0 - x1) * (x0 - x2)) +
  y1 * ((x - x0) * (x - x2)) / ((x1 - x0) * (x1 - x2)) +
  y2 * ((x - x0) * (x - x1)) / ((x2 - x0) * (x2 - x1)).
Definition Line (x0 y0 x1 y1 x : T) : T := y0 + (y1 - y0) * (x - x0) / (x1 - x0).
End Spec.

(** ** Markers *)
From Verif Require Import SpecDensity.
Section Markers.
Variable K : Num.
Local Notation T := (car K).
(** [M] ordered heights between the exact extremes of the history [xs]. *)
Definition MarkerHeights (M : nat) (xs h : list T) : Prop :=
  length h = M /\ NonDecreasing K h /\
  exists lo hi, nth_error h 0 = Some lo /\ nth_error h (M - 1) = Some hi /\ IsMin K xs lo /\ IsMax K xs hi.
(** [M] distinct ranks from 1 to [n], in increasing order. *)
Definition MarkerRanks (M n : nat) (p : list T) : Prop :=
  exists ns, p = map (ofnat K) ns /\ length ns = M /\ StronglySorted lt ns /\
    nth_error ns 0 = Some 1 /\ nth_error ns (M - 1) = Some n.
(** [M] increasing cumulative weights up to the total [W]. *)
Definition MarkerWeights (M : nat) (W : T) (p : list T) : Prop :=
  length p = M /\ Increasing K p /\ Forall (fun y => ltb K (zero K) y = true) p /\ nth_error p (M - 1) = Some W.
End Markers.

(** The height a marker gets when it moves by [d] (1 or -1): the parabola through it and its neighbours
    if that is strictly between the neighbours, otherwise the line to the neighbour in that direction. *)
Definition MovedHeight (K : Num) (pl hl pc hc pr hr : car K) (up : bool) : car K :=
  let p' := if up then add K pc (one K) else sub K pc (one K) in
  let q := Parabola K pl hl pc hc pr hr p' in
  if ltb K hl q && ltb K q hr then q
  else if up then Line K pc hc pr hr p' else Line K pl hl pc hc p'.

(** The sample/weight pairs of a list of calls. *)
From Verif Require Import ModelPSquare.
Definition cd_pushes {K : Num} (ops : list (cd_op K)) : list (car K * car K) :=
  flat_map (fun o => match o with CPush _ x w => [(x, w)] | _ => [] end) ops.
