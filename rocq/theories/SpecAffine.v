(** Specification of a change of the unit of the samples. *)
From Coq Require Import List.
From Verif Require Import Num ModelTail ModelDensity ModelPSquare.
Import ListNotations.

Section Affine.
Variable K : Num.
Local Notation T := (car K).
(** A change of unit: degrees Celsius to Fahrenheit, metres to feet ... *)
Definition Affine (a b x : T) : T := add K (mul K a x) b.
(** A negative factor reverses the order: the left tail becomes the right one, the level p becomes 1 - p. *)
Definition ImageSide (a : T) (lr : side) : side :=
  if ltb K (zero K) a then lr else match lr with Left => Right | Right => Left end.
Definition ImageLevel (a p : T) : T := if ltb K (zero K) a then p else sub K (one K) p.
Definition Absolute (a : T) : T := if ltb K (zero K) a then a else opp K a.
(** The same history in the other unit. *)
Definition in_unit_d (g : T -> T) (o : dens_op T) : dens_op T := match o with DPush x => DPush (g x) | DExtract => DExtract end.
Definition in_unit_t {V : Type} (g : T -> T) (o : tail_op T V) : tail_op T V := match o with TPush x vs => TPush (g x) vs | TExtract => TExtract end.
(** A result, if there is one, in the other unit. *)
Definition in_unit {A : Type} (g : A -> A) (o : outcome A) : outcome A := match o with Ok x => Ok (g x) | NotANumber => NotANumber | UB => UB end.
End Affine.
