(** Model of the numeric operators on std::valarray (numeric/functional/valarray.hpp) and of the
    statistics of test/valarray.cpp, for valarrays of a floating type and of an integer type.

    Which operator a statistic gets is decided by the element types: for one common element type it is
    the operator of the C++ library (std::valarray), whose operands must have the same length; for two
    different ones it is the operator of valarray.hpp, which has no check.  Where both exist (vector and
    valarray) the vectors are those of vector.hpp. *)
From Coq Require Import List ZArith Arith Bool.
From Verif Require Import Num ModelBasic ModelPSquare ModelMinMax ModelVector ModelNumeric SpecInteger ModelInteger.
Import ListNotations.
Open Scope nat_scope.

(** ** One element type: the operators of std::valarray *)
Section Valarray.
Variable K : Num.
Local Notation T := (car K).
Local Notation arr := (list T).
Local Notation "# n" := (ofnat K n) (at level 2).

(** [numeric::plus], [minus], [multiplies], [divides] of two valarrays of one element type
    (valarray.hpp 116-178, the first specialisation): promote is the identity (246-256) and [Op] is the
    library's: undefined for different lengths. *)
Definition va_zip (op : T -> T -> T) (l r : arr) : outcome arr :=
  if Nat.eqb (length l) (length r) then vzip K op l r else UB.
(** valarray / scalar, valarray times scalar: the library's for the element type (every element), the
    ones of valarray.hpp 42-76 for another scalar type (every element): [vdivs], [vmuls], [smulv].
    [+=] of the library: same lengths, [vplus_assign]. *)

(** min_assign, max_assign, as_min, as_max (valarray.hpp 180-226, 293-325) repeat the code of vector.hpp:
    [vassign], [vmin_run], [vmax_run] of ModelVector are their model as well. *)

(** promote<bool>(a == b), valarray.hpp 264-291: the library's == gives a valarray of bool (same lengths),
    the loop looks for a false element. *)
Fixpoint va_all (b : list bool) : bool :=
  match b with [] => true | x :: b => if negb x then false else va_all b end.
Definition va_equal (eq : T -> T -> bool) (l r : arr) : outcome bool :=
  if Nat.eqb (length l) (length r) then Ok (va_all (map (fun p => eq (fst p) (snd p)) (combine l r))) else UB.

(** numeric::pow, moment.hpp 27-42 *)
Fixpoint va_pow_fuel (fuel : nat) (x : arr) (n : nat) : outcome arr :=
  match fuel with
  | O => UB
  | S f =>
      if Nat.eqb n 1 then Ok x
      else obnd (va_pow_fuel f x (Nat.div n 2)) (fun y =>
           obnd (va_zip (mul K) y y) (fun z =>
             if Nat.eqb (Nat.modulo n 2) 0 then Ok z else va_zip (mul K) z x))
  end.
Definition va_pow (x : arr) (n : nat) : outcome arr := va_pow_fuel n x n.

(** sum.hpp 29-62; stats<tag::sum> and stats<tag::mean>; mean.hpp 29-48 *)
Definition va_sum_run (s0 : arr) (xs : list arr) : outcome arr :=
  fold_left (fun o x => obnd o (fun s => vplus_assign K s x)) xs (Ok s0).
Definition va_mean_run (s0 : arr) (xs : list arr) : outcome arr :=
  obnd (va_sum_run s0 xs) (fun s => Ok (vdivs K s (#(length xs)))).
(** mean.hpp 50-86 *)
Definition va_imm_mean_op (mean : arr) (cnt : nat) (x : arr) : outcome arr :=
  obnd (va_zip (add K) (vmuls K mean (#(cnt - 1))) x) (fun s => Ok (vdivs K s (#cnt))).
Definition va_imean_step (s : nat * arr) (x : arr) : outcome (nat * arr) :=
  let cnt := S (fst s) in obnd (va_imm_mean_op (snd s) cnt x) (fun m => Ok (cnt, m)).
Definition va_imean_run (s0 : arr) (xs : list arr) : outcome arr :=
  obnd (fold_left (fun o x => obnd o (fun s => va_imean_step s x)) xs (Ok (0, vdivs K s0 (one K)))) (fun s => Ok (snd s)).
(** variance.hpp 87-129 *)
Definition va_variance_op (var mean : arr) (cnt : nat) (x : arr) : outcome arr :=
  if Nat.ltb 1 cnt then
    obnd (va_zip (sub K) x mean) (fun tmp =>
    obnd (va_zip (mul K) tmp tmp) (fun sq =>
      va_zip (add K) (vdivs K (vmuls K var (#(cnt - 1))) (#cnt)) (vdivs K sq (#(cnt - 1)))))
  else Ok var.
Definition va_var_step (s : nat * arr * arr) (x : arr) : outcome (nat * arr * arr) :=
  let '(cnt, mean, var) := s in
  let cnt := S cnt in
  obnd (va_imm_mean_op mean cnt x) (fun mean =>
  obnd (va_variance_op var mean cnt x) (fun var => Ok (cnt, mean, var))).
Definition va_var_run (s0 : arr) (xs : list arr) : outcome arr :=
  obnd (fold_left (fun o x => obnd o (fun s => va_var_step s x)) xs (Ok (0, vdivs K s0 (one K), vdivs K s0 (one K))))
       (fun s => Ok (snd s)).
(** moment.hpp 52-87 *)
Definition va_moment_run (N : nat) (s0 : arr) (xs : list arr) : outcome arr :=
  obnd (fold_left (fun o x => obnd o (fun s => obnd (va_pow x N) (fun p => vplus_assign K s p))) xs (Ok s0))
       (fun s => Ok (vdivs K s (#(length xs)))).
(** variance.hpp 40-60 *)
Definition va_lazy_variance_run (s0 : arr) (xs : list arr) : outcome arr :=
  obnd (va_moment_run 2 s0 xs) (fun m2 => obnd (va_mean_run s0 xs) (fun m =>
    obnd (va_zip (mul K) m m) (fun t => va_zip (sub K) m2 t))).
(** weighted_sum.hpp 28-68, weighted_mean.hpp 33-58 (weights of the element type) *)
Definition va_weighted_sum_run (s0 : arr) (h : list (arr * T)) : outcome arr :=
  fold_left (fun o p => obnd o (fun s => vplus_assign K s (vmuls K (fst p) (snd p)))) h (Ok (vmuls K s0 (one K))).
Definition va_weighted_mean_run (s0 : arr) (h : list (arr * T)) : outcome arr :=
  obnd (va_weighted_sum_run s0 h) (fun s => Ok (vdivs K s (vweight_sum K (zero K) h))).
(** weighted_mean.hpp 63-109 with the sum of weights it asks for *)
Definition va_imm_weighted_mean_op (mean : arr) (W : T) (x : arr) (w : T) : outcome arr :=
  obnd (va_zip (add K) (vmuls K mean (sub K W w)) (vmuls K x w)) (fun s => Ok (vdivs K s W)).
Definition va_wimean_step (s : T * arr) (p : arr * T) : outcome (T * arr) :=
  let W := add K (fst s) (snd p) in
  obnd (va_imm_weighted_mean_op (snd s) W (fst p) (snd p)) (fun m => Ok (W, m)).
Definition va_wimean_run (s0 : arr) (h : list (arr * T)) : outcome arr :=
  obnd (fold_left (fun o p => obnd o (fun s => va_wimean_step s p)) h
          (Ok (zero K, vdivs K (vmuls K s0 (one K)) (one K)))) (fun s => Ok (snd s)).
End Valarray.

(** ** Elements of an integer type, results in a floating type: vectors and valarrays *)
Section IntegerElements.
Variable E : itype.
Variable K : Num.
Local Notation F := (car K).
Local Notation "# n" := (ofnat K n) (at level 2).

(** Element by element with integer operations that may be undefined. *)
Fixpoint izip (op : Z -> Z -> outcome Z) (l r : list Z) : outcome (list Z) :=
  match l, r with
  | [], _ => Ok []
  | a :: l, b :: r => obnd (op a b) (fun c => obnd (izip op l r) (fun m => Ok (c :: m)))
  | _ :: _, [] => UB
  end.
Fixpoint imap (op : Z -> outcome Z) (l : list Z) : outcome (list Z) :=
  match l with
  | [] => Ok []
  | a :: l => obnd (op a) (fun c => obnd (imap op l) (fun m => Ok (c :: m)))
  end.
(** [+=]: vector.hpp 155-167 (assertion), valarray: the library's; same lengths in both. *)
Definition iplus_assign (l r : list Z) : outcome (list Z) :=
  if Nat.eqb (length l) (length r) then izip (int_sum_op E) l r else UB.
(** [container<double> + container<int>]: vector.hpp 125-138 and valarray.hpp 78-95; no check. *)
Fixpoint mixed_plus (l : list F) (r : list Z) : outcome (list F) :=
  match l, r with
  | [], _ => Ok []
  | a :: l, b :: r => obnd (mixed_plus l r) (fun m => Ok (add K a (of_Z K b) :: m))
  | _ :: _, [] => UB
  end.
(** sum.hpp 29-62 *)
Definition ia_sum_run (s0 : list Z) (xs : list (list Z)) : outcome (list Z) :=
  fold_left (fun o x => obnd o (fun s => iplus_assign s x)) xs (Ok s0).
(** mean.hpp 29-48: fdiv of integers divides by a double (vector.hpp 239-247, valarray.hpp 228-236), with
    [container<int> / double] of vector.hpp 40-57, valarray.hpp 42-58. *)
Definition ia_mean_run (s0 : list Z) (xs : list (list Z)) : outcome (list F) :=
  obnd (ia_sum_run s0 xs) (fun s => Ok (map (fun a => fdiv_int K a (Z.of_nat (length xs))) s)).
(** mean.hpp 50-86: the mean is floating, the sample is not. *)
Definition ia_imean_step (s : nat * list F) (x : list Z) : outcome (nat * list F) :=
  let cnt := S (fst s) in
  obnd (mixed_plus (vmuls K (snd s) (#(cnt - 1))) x) (fun m => Ok (cnt, vdivs K m (#cnt))).
Definition ia_imean_run (s0 : list Z) (xs : list (list Z)) : outcome (list F) :=
  obnd (fold_left (fun o x => obnd o (fun s => ia_imean_step s x)) xs
          (Ok (0, map (fun a => div K (of_Z K a) (one K)) s0))) (fun s => Ok (snd s)).
(** weighted_sum.hpp 28-68: samples and weights of the type [E], not narrower than int. *)
Definition ia_weighted_sum_run (s0 : list Z) (h : list (list Z * Z)) : outcome (list Z) :=
  fold_left (fun o p => obnd o (fun s =>
      obnd (imap (fun a => arith E E Z.mul a (snd p)) (fst p)) (fun q => iplus_assign s q))) h
    (imap (fun a => arith E E Z.mul a 1%Z) s0).
(** weighted_mean.hpp 33-58 *)
Definition ia_weighted_mean_run (s0 : list Z) (h : list (list Z * Z)) : outcome (list F) :=
  obnd (ia_weighted_sum_run s0 h) (fun s =>
  obnd (int_sum_run E (map snd h)) (fun w => Ok (map (fun a => fdiv_int K a w) s))).
End IntegerElements.
