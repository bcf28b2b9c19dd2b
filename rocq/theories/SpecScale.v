(** Specification of C85: histories of doubles in a unit that is a power of two times smaller or larger. *)
From Coq Require Import ZArith List Bool Reals.
From Flocq Require Import Core IEEE754.BinarySingleNaN.
From Verif Require Import Num ModelTail ModelDouble SpecDouble.
Import ListNotations.
Local Open Scope R_scope.

(** [y] is 2^e times [x], both being finite. *)
Definition Scaled (e : Z) (x y : double) : Prop := finite x /\ finite y /\ val y = bpow radix2 e * val x.
Definition ScaledAll (e : Z) (xs ys : list double) : Prop := Forall2 (Scaled e) xs ys.
(** Samples scaled by 2^d, variates or weights by 2^e. *)
Definition ScaledPairs (d e : Z) (h g : list (double * double)) : Prop :=
  Forall2 (fun p q => Scaled d (fst p) (fst q) /\ Scaled e (snd p) (snd q)) h g.
Definition ScaledTriples (d t e : Z) (h g : list (double * double * double)) : Prop :=
  Forall2 (fun p q => Scaled d (fst (fst p)) (fst (fst q)) /\ Scaled t (snd (fst p)) (snd (fst q)) /\ Scaled e (snd p) (snd q)) h g.

(** Doubles with a sticky flag that stays up as long as no operation on the way overflowed, underflowed or was
    invalid.  A product or quotient of numbers other than zero underflows here if it is not above 2^-1022; sums and
    differences cannot underflow. *)
Definition watched : Type := (double * bool)%type.
Definition smallest_normal : double := dbl 1 (-1022).
Definition d_abs (x : double) : double := Babs x.
Definition is_zero (x : double) : bool := match x with B754_zero _ => true | _ => false end.
Definition large (x : double) : bool := d_lt smallest_normal (d_abs x).
Definition w_add (a b : watched) : watched := let r := d_add (fst a) (fst b) in (r, snd a && snd b && is_finite r).
Definition w_sub (a b : watched) : watched := let r := d_sub (fst a) (fst b) in (r, snd a && snd b && is_finite r).
Definition w_mul (a b : watched) : watched :=
  let r := d_mul (fst a) (fst b) in (r, snd a && snd b && is_finite r && (large r || is_zero (fst a) || is_zero (fst b))).
Definition w_div (a b : watched) : watched :=
  let r := d_div (fst a) (fst b) in (r, snd a && snd b && is_finite r && negb (is_zero (fst b)) && (large r || is_zero (fst a))).
Definition w_sqrt (a : watched) : watched := let r := d_sqrt (fst a) in (r, snd a && is_finite r).
Definition watch (x : double) : watched := (x, is_finite x).
Definition watch2 (p : double * double) : watched * watched := (watch (fst p), watch (snd p)).
Definition watch3 (p : double * double * double) : watched * watched * watched := (watch2 (fst p), watch (snd p)).
Definition WatchedN : Num := {|
  car := watched; zero := watch d_zero; one := watch d_one; add := w_add; sub := w_sub; mul := w_mul; div := w_div;
  opp := fun a => (d_opp (fst a), snd a); inv := fun a => w_div (watch d_one) a; ltb := fun a b => d_lt (fst a) (fst b)
|}.
(** Nothing happened on the way to this result. *)
Definition calm (a : watched) : Prop := snd a = true.
(** Neither of two watched runs saw anything, and what they hold is 2^e apart. *)
Definition ScaledIfCalm (e : Z) (a b : watched) : Prop := calm a -> calm b -> Scaled e (fst a) (fst b).
(** Two results that are both there, in that relation. *)
Definition BothScaled (e : Z) (a b : option watched) : Prop :=
  match a, b with Some a, Some b => ScaledIfCalm e a b | None, None => True | _, _ => False end.
(** What a watched run holds beside its flag. *)
Definition plain (a : option watched) : option double := match a with Some a => Some (fst a) | None => None end.
(** Histories of a tail cache: pushes of scaled samples with the same variates, extractions at the same places. *)
Definition ScaledOps {V : Type} (e : Z) (h g : list (tail_op double V)) : Prop :=
  Forall2 (fun o p => match o, p with TPush x vs, TPush y us => Scaled e x y /\ us = vs | TExtract, TExtract => True | _, _ => False end) h g.
