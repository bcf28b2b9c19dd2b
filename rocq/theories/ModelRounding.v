(** Floating arithmetic as rounded real arithmetic: every operation returns the rounding
    of the exact result.  The accumulators of ModelBasic.v are instantiated unchanged with
    this [Num].  Overflow to infinity and NaN are not represented. *)
From Coq Require Import Reals.
From Verif Require Import Num.
Open Scope R_scope.

Definition RndN (rnd : R -> R) : Num := {|
  car := R; zero := 0; one := 1;
  add := fun x y => rnd (x + y); sub := fun x y => rnd (x - y);
  mul := fun x y => rnd (x * y); div := fun x y => rnd (x / y);
  opp := Ropp; inv := fun x => rnd (/ x); ltb := Rltb
|}.

(** [u] is the unit roundoff of [rnd] on sums and differences of values of the format [F]. *)
Record RoundingModel (F : R -> Prop) (rnd : R -> R) (u : R) : Prop := {
  rm_format : forall x, F (rnd x);
  rm_zero : F 0;
  rm_add : forall x y, F x -> F y -> exists d, Rabs d <= u /\ rnd (x + y) = (x + y) * (1 + d);
  rm_sub : forall x y, F x -> F y -> exists d, Rabs d <= u /\ rnd (x - y) = (x - y) * (1 + d)
}.
