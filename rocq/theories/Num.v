(** Numbers: the C++ library is generic in the sample type, so is the model.

    [Num] is a bare record of operations, without laws: it plays the role of the
    template parameter [Sample].  Laws appear only as explicit hypotheses of
    theorems ([FieldLaws]) or through concrete instances ([QcN], [RN]). *)

From Coq Require Import List Arith ZArith QArith Qcanon Field Reals.
Import ListNotations.

Record Num := MkNum {
  car : Type;
  zero : car;
  one : car;
  add : car -> car -> car;
  sub : car -> car -> car;
  mul : car -> car -> car;
  div : car -> car -> car;
  opp : car -> car;
  inv : car -> car;
  ltb : car -> car -> bool
}.

Declare Scope num_scope.
Delimit Scope num_scope with num.

(** Embedding of [nat] (the implicit conversion of [std::size_t] operands). *)
Fixpoint ofnat (K : Num) (n : nat) : car K :=
  match n with
  | O => zero K
  | S m => add K (ofnat K m) (one K)
  end.

(** [x <= y], [x = y] tests derived from [<], as the code only uses [<], [>],
    [<=], [>=] on ordered types. *)
Definition leb (K : Num) (x y : car K) : bool := negb (ltb K y x).

(** The laws of a field of characteristic zero.  Nothing is said about [inv 0]. *)
Record FieldLaws (K : Num) : Prop := {
  fl_field : field_theory (zero K) (one K) (add K) (mul K) (sub K) (opp K)
                          (div K) (inv K) (@eq (car K));
  fl_char0 : forall n : nat, ofnat K (S n) <> zero K
}.

(** Ordered fields. *)
Record OrderedLaws (K : Num) : Prop := {
  ord_field : FieldLaws K;
  ord_irrefl : forall x, ltb K x x = false;
  ord_trans : forall x y z, ltb K x y = true -> ltb K y z = true -> ltb K x z = true;
  ord_total : forall x y, ltb K x y = false -> ltb K y x = false -> x = y;
  ord_add : forall x y z, ltb K x y = true -> ltb K (add K x z) (add K y z) = true;
  ord_mul : forall x y, ltb K (zero K) x = true -> ltb K (zero K) y = true ->
                        ltb K (zero K) (mul K x y) = true
}.

(** Exact rationals with Leibniz equality. *)
Definition Qcltb (x y : Qc) : bool := negb (Qle_bool (this y) (this x)).

Definition QcN : Num := {|
  car := Qc; zero := 0%Qc; one := 1%Qc;
  add := Qcplus; sub := Qcminus; mul := Qcmult; div := Qcdiv;
  opp := Qcopp; inv := Qcinv; ltb := Qcltb
|}.

(** Real numbers (for formulae containing a square root or a power). *)
Definition Rltb (x y : R) : bool := if Rlt_dec x y then true else false.

Definition RN : Num := {|
  car := R; zero := 0%R; one := 1%R;
  add := Rplus; sub := Rminus; mul := Rmult; div := Rdiv;
  opp := Ropp; inv := Rinv; ltb := Rltb
|}.

(** Outcome of an operation that may hit undefined behaviour or report an error.
    [NotANumber] is the branch of the code that returns a quiet NaN when the
    result type has one and throws otherwise (e.g. tail_quantile.hpp 86-98). *)
Inductive outcome (A : Type) : Type :=
| Ok (a : A)
| NotANumber
| UB.
Arguments Ok {A} a.
Arguments NotANumber {A}.
Arguments UB {A}.
