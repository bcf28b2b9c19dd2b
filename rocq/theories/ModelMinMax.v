(** Model of min/max and of sums over machine integers. *)
From Coq Require Import List ZArith Bool.
From Verif Require Import Num.
Import ListNotations.

(** What min/max need to know about the sample type: operator<, and the extreme values
    used by numeric::as_min / numeric::as_max (numeric/functional.hpp 285-325):
    [lowest] is std::numeric_limits::min() for integers and -numeric_limits::max() for
    floating types (lines 297-311), [highest] is numeric_limits::max() (313-325). *)
Record Limits := MkLimits {
  lcar : Type;
  lltb : lcar -> lcar -> bool;
  lowest : lcar;
  highest : lcar
}.

Section MinMax.
Variable L : Limits.

(** numeric/functional.hpp 217-231 min_assign: if (right < left) left = right. *)
Definition min_assign (left right : lcar L) : lcar L :=
  if lltb L right left then right else left.
(** numeric/functional.hpp 233-247 max_assign: if (left < right) left = right. *)
Definition max_assign (left right : lcar L) : lcar L :=
  if lltb L left right then right else left.

(** statistics/min.hpp 27-60: initialised with as_max (whatever the initial sample). *)
Definition min_init : lcar L := highest L.
Definition min_run (xs : list (lcar L)) : lcar L := fold_left min_assign xs min_init.

(** statistics/max.hpp 27-60: initialised with as_min. *)
Definition max_init : lcar L := lowest L.
Definition max_run (xs : list (lcar L)) : lcar L := fold_left max_assign xs max_init.
End MinMax.

(** Instances. *)

(** A two's complement integer type of [w] bits. *)
Definition IntL (w : Z) : Limits :=
  {| lcar := Z; lltb := Z.ltb; lowest := (- 2 ^ (w - 1))%Z; highest := (2 ^ (w - 1) - 1)%Z |}.

(** A floating type restricted to its finite values (scaled to integers) and the two
    infinities; NaN is left out.  [m] is the largest finite value. *)
Inductive xval := NegInf | Fin (z : Z) | PosInf.
Definition xltb (a b : xval) : bool :=
  match a, b with
  | NegInf, NegInf => false | NegInf, _ => true
  | Fin _, NegInf => false | Fin x, Fin y => Z.ltb x y | Fin _, PosInf => true
  | PosInf, _ => false
  end.
Definition FloatL (m : Z) : Limits :=
  {| lcar := xval; lltb := xltb; lowest := Fin (- m); highest := Fin m |}.

(** statistics/sum.hpp 43-47 for a signed machine integer of [w] bits, [w] at least the
    width of int: `this->sum += x` is undefined behaviour when the result does not fit. *)
Definition in_range (w z : Z) : bool :=
  (Z.leb (- 2 ^ (w - 1)) z && Z.ltb z (2 ^ (w - 1)))%bool.
Definition isum_op (w : Z) (sum : outcome Z) (x : Z) : outcome Z :=
  match sum with
  | Ok s => if in_range w (s + x) then Ok (s + x)%Z else UB
  | o => o
  end.
Definition isum_run (w s0 : Z) (xs : list Z) : outcome Z := fold_left (isum_op w) xs (Ok s0).

(** The same for an unsigned type: arithmetic modulo 2^w. *)
Definition usum_op (w sum x : Z) : Z := ((sum + x) mod 2 ^ w)%Z.
Definition usum_run (w s0 : Z) (xs : list Z) : Z := fold_left (usum_op w) xs s0.
