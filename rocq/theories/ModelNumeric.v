(** Model of the numeric helpers: numeric/functional.hpp, functional/vector.hpp, functional/complex.hpp. *)
From Coq Require Import List ZArith Bool.
From Verif Require Import Num ModelPSquare ModelMinMax ModelVector.
Import ListNotations.

Section Numeric.
(** [K]: a floating type.  Integers are modelled by Z (no helper below overflows unless its operands
    do). *)
Variable K : Num.
Local Notation T := (car K).

(** Conversion of an integer to the floating type (exact here). *)
Definition of_Z (n : Z) : T :=
  match n with
  | Z0 => zero K
  | Zpos p => ofnat K (Pos.to_nat p)
  | Zneg p => opp K (ofnat K (Pos.to_nat p))
  end.

(** ** divides and fdiv *)
(** numeric::divides on integers is the built-in division, functional.hpp 186; a zero divisor is
    undefined. *)
Definition divides_int (a b : Z) : outcome Z := if Z.eqb b 0 then UB else Ok (Z.quot a b).
(** fdiv: functional.hpp 249-259.  Two integral operands are converted to double; otherwise divides. *)
Definition fdiv_int (a b : Z) : T := div K (of_Z a) (of_Z b).
Definition fdiv_float (a b : T) : T := div K a b.
(** an integer and a floating operand: the usual arithmetic conversions *)
Definition fdiv_mixed (a : T) (b : Z) : T := div K a (of_Z b).
(** fdiv of a vector of integers by an integer: vector.hpp 239-247, divides<Left, double const>: the
    divisor is converted, each element by the usual conversions. *)
Definition fdiv_vec_int (v : list Z) (b : Z) : list T := map (fun a => div K (of_Z a) (of_Z b)) v.
(** fdiv of two vectors of integers: no specialisation, fdiv_base with are_integral<vector, vector>
    false (functional.hpp 249-252), i.e. divides on vectors (vector.hpp 59-72), element by element
    numeric::divides on integers. *)
Fixpoint fdiv_vec_vec (l r : list Z) : outcome (list Z) :=
  match l, r with
  | [], _ => Ok []
  | a :: l, b :: r => obnd (divides_int a b) (fun q => obnd (fdiv_vec_vec l r) (fun res => Ok (q :: res)))
  | _ :: _, [] => UB
  end.

(** ** zero and one *)
(** functional.hpp 493-523: zero<T>::value = T(), one<T>::value = T(1). *)
Definition zero_int : Z := 0.
Definition one_int : Z := 1.
Definition zero_float : T := zero K.
Definition one_float : T := one K.
(** For std::vector<double> the same primary templates apply: T() is the empty vector and T(1) is
    the vector with one value-initialised element. *)
Definition zero_vec : list T := [].
Definition one_vec : list T := [zero K].
(** as_zero, as_one of a vector: vector.hpp 311-341 *)
Definition as_zero_vec (arr : list T) : list T := repeat (zero K) (length arr).
Definition as_one_vec (arr : list T) : list T := repeat (one K) (length arr).

(** ** complex numbers: (real, imaginary) *)
Definition cadd (a b : T * T) : T * T := (add K (fst a) (fst b), add K (snd a) (snd b)).
Definition csub (a b : T * T) : T * T := (sub K (fst a) (fst b), sub K (snd a) (snd b)).
Definition copp (a : T * T) : T * T := (opp K (fst a), opp K (snd a)).
Definition cmul (a b : T * T) : T * T :=
  (sub K (mul K (fst a) (fst b)) (mul K (snd a) (snd b)), add K (mul K (fst a) (snd b)) (mul K (snd a) (fst b))).
Definition cnorm (a : T * T) : T := add K (mul K (fst a) (fst a)) (mul K (snd a) (snd a)).
Definition cinv (a : T * T) : T * T := (div K (fst a) (cnorm a), div K (opp K (snd a)) (cnorm a)).
Definition cdiv (a b : T * T) : T * T := cmul a (cinv b).
(** The operators complex multiplied or divided by a scalar of another type, complex.hpp 25-48:
    the real and the imaginary part are each multiplied or divided by static_cast<T>(u). *)
Definition cmul_scalar (ri : T * T) (u : Z) : T * T := (mul K (fst ri) (of_Z u), mul K (snd ri) (of_Z u)).
Definition cdiv_scalar (ri : T * T) (u : Z) : T * T := (div K (fst ri) (of_Z u), div K (snd ri) (of_Z u)).
(** zero<complex> = complex<T>() (functional.hpp 523); one<complex>, complex.hpp 53-78:
    std::complex<T>(one<T>::value, one<T>::value). *)
Definition zero_complex : T * T := (zero K, zero K).
Definition one_complex : T * T := (one K, one K).
(** weighted_sum.hpp 36-43 with complex weights: initialised with args[sample | Sample()] * one<Weight> *)
Definition complex_weighted_sum_run (s0 : T * T) (h : list ((T * T) * (T * T))) : T * T :=
  fold_left (fun s p => cadd s (cmul (fst p) (snd p))) h (cmul s0 one_complex).
(** std::complex as a number type; its unit is 1 + 0i. *)
Definition ComplexN : Num := {|
  car := T * T; zero := zero_complex; one := (one K, zero K);
  add := cadd; sub := csub; mul := cmul; div := cdiv; opp := copp; inv := cinv;
  ltb := fun _ _ => false
|}.
End Numeric.
