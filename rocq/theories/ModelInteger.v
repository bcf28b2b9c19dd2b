(** Model of the accumulators instantiated with an integer sample type: sum, mean, moment, variance,
    rolling_sum, rolling_mean, rolling_moment, rolling_variance, weighted_sum. *)
From Coq Require Import List ZArith Bool.
From Verif Require Import Num ModelPSquare ModelMinMax ModelBasic ModelRolling ModelNumeric SpecInteger.
Import ListNotations.
Open Scope Z_scope.

(** ** C++ integer arithmetic (the language rules, not a file of /repo; int has 32 bits) *)
Definition Int : itype := {| bits := 32; signed := true |}.
Definition UInt : itype := {| bits := 32; signed := false |}.
Definition Long : itype := {| bits := 64; signed := true |}.
Definition ULong : itype := {| bits := 64; signed := false |}.
Definition Short : itype := {| bits := 16; signed := true |}.
Definition UShort : itype := {| bits := 16; signed := false |}.
Definition SChar : itype := {| bits := 8; signed := true |}.
Definition UChar : itype := {| bits := 8; signed := false |}.
Definition fits (T : itype) (z : Z) : bool :=
  if signed T then (- 2 ^ (bits T - 1) <=? z) && (z <? 2 ^ (bits T - 1)) else (0 <=? z) && (z <? 2 ^ bits T).
(** Conversion to [T]: modular (for a signed destination: implementation-defined before C++20, modular
    in every implementation and in C++20). *)
Definition conv (T : itype) (z : Z) : Z :=
  if signed T then (z + 2 ^ (bits T - 1)) mod 2 ^ bits T - 2 ^ (bits T - 1) else z mod 2 ^ bits T.
(** Integral promotion: a type narrower than int becomes int. *)
Definition promote (T : itype) : itype := if bits T <? 32 then Int else T.
(** The usual arithmetic conversions of two integer operands. *)
Definition common (S T : itype) : itype :=
  let P := promote S in let Q := promote T in
  if Bool.eqb (signed P) (signed Q) then (if bits P <? bits Q then Q else P)
  else if signed P then (if bits P <=? bits Q then Q else P)
  else (if bits Q <=? bits P then P else Q).
(** A built-in binary operator: operands converted to the common type; a signed result that does not
    fit is undefined, an unsigned one is reduced. *)
Definition arith (S T : itype) (f : Z -> Z -> Z) (a b : Z) : outcome Z :=
  let C := common S T in
  let r := f (conv C a) (conv C b) in
  if signed C then (if fits C r then Ok r else UB) else Ok (conv C r).
(** Storing a value in an object of type [T]. *)
Definition store (T : itype) (o : outcome Z) : outcome Z := obnd o (fun z => Ok (conv T z)).

(** ** sum, moment: one Sample type for the samples and the accumulator *)
Section Integer.
Variable T : itype.
(** statistics/sum.hpp 43-48: [this->sum += args[sample]]. *)
Definition int_sum_op (s x : Z) : outcome Z := store T (arith T T Z.add s x).
Definition int_sum_run (xs : list Z) : outcome Z := fold_left (fun o x => obnd o (fun s => int_sum_op s x)) xs (Ok 0).

(** statistics/moment.hpp 27-42: each intermediate result is stored in a T; fuel as in [npow_fuel]
    (running out stands for a recursion that does not terminate, N = 0). *)
Fixpoint int_pow_fuel (fuel : nat) (x : Z) (n : nat) : outcome Z :=
  match fuel with
  | O => UB
  | S f =>
      if Nat.eqb n 1 then Ok x
      else obnd (int_pow_fuel f x (Nat.div n 2)) (fun y =>
           obnd (store T (arith T T Z.mul y y)) (fun z =>
             if Nat.eqb (Nat.modulo n 2) 0 then Ok z else store T (arith T T Z.mul z x)))
  end.
Definition int_pow (x : Z) (n : nat) : outcome Z := int_pow_fuel n x n.
(** moment.hpp 66-70: [this->sum += numeric::pow(args[sample], N())], [Sample sum]. *)
Definition int_moment_op (n : nat) (s x : Z) : outcome Z :=
  obnd (int_pow x n) (fun p => store T (arith T T Z.add s p)).
Definition int_moment_sum (n : nat) (xs : list Z) : outcome Z :=
  fold_left (fun o x => obnd o (fun s => int_moment_op n s x)) xs (Ok 0).

(** rolling_sum.hpp 43-52: [if full: sum_ -= front; sum_ += sample], [Sample sum_]; the buffer is already
    updated. *)
Definition int_rolling_sum_op (N : nat) (buf : list Z) (s x : Z) : outcome Z :=
  obnd (if rwp1_full N buf then
          match buf with
          | [] => UB
          | front :: _ => store T (arith T T Z.sub s front)
          end
        else Ok s) (fun s => store T (arith T T Z.add s x)).
Definition int_rolling_sum_push (N : nat) (o : outcome (list Z * Z)) (x : Z) : outcome (list Z * Z) :=
  obnd o (fun st => let buf := rwp1_op N (fst st) x in
    obnd (int_rolling_sum_op N buf (snd st) x) (fun s => Ok (buf, s))).
Definition int_rolling_sum_run (N : nat) (xs : list Z) : outcome (list Z * Z) :=
  fold_left (int_rolling_sum_push N) xs (Ok (rwp1_init, 0)).

(** ** Results in the floating type *)
Variable K : Num.
Local Notation F := (car K).
(** mean.hpp 52-56 (lazy): fdiv(sum, count), two integral operands converted to double. *)
Definition int_mean_run (xs : list Z) : outcome F :=
  obnd (int_sum_run xs) (fun s => Ok (fdiv_int K s (Z.of_nat (length xs)))).
(** moment.hpp 72-76 *)
Definition int_moment_run (n : nat) (xs : list Z) : outcome F :=
  obnd (int_moment_sum n xs) (fun s => Ok (fdiv_int K s (Z.of_nat (length xs)))).
(** variance.hpp 52-60 (lazy): moment<2> minus the square of the mean, both floating. *)
Definition int_lazy_variance_run (xs : list Z) : outcome F :=
  obnd (int_moment_run 2 xs) (fun m2 => obnd (int_mean_run xs) (fun m => Ok (lazy_variance_result K m2 m))).

(** mean.hpp 103-115 (immediate): [mean] is floating and [mean * (cnt - 1) + sample] converts the sample;
    variance.hpp 98-112 (immediate, the default): [tmp = sample - mean] is floating.  Every operation of
    these two is floating, on the converted sample. *)
Definition int_immediate_mean_run (xs : list Z) : F := im_mean K (imean_set_run K (zero K) (map (of_Z K) xs)).
Definition int_variance_run (xs : list Z) : F := vs_var K (var_set_run K (zero K) (map (of_Z K) xs)).

(** A set whose Sample is a floating type, fed with integers of type [T]: accumulator_set::operator()
    (accumulator_set.hpp 329-378) passes each argument on with its own type, so numeric::pow works in
    [T] (moment.hpp 66-70), the sum is floating. *)
Definition fed_moment_sum (n : nat) (xs : list Z) : outcome F :=
  fold_left (fun o x => obnd o (fun s => obnd (int_pow x n) (fun p => Ok (add K s (of_Z K p))))) xs (Ok (zero K)).
Definition fed_moment_run (n : nat) (xs : list Z) : outcome F :=
  obnd (fed_moment_sum n xs) (fun s => Ok (moment_result K s (length xs))).
Definition fed_lazy_variance_run (xs : list Z) : outcome F :=
  obnd (fed_moment_run 2 xs) (fun m2 =>
    Ok (lazy_variance_result K m2 (mean_set_mean K (mean_set_run K (zero K) (map (of_Z K) xs))))).

(** ** Rolling statistics, Sample = T *)
(** rolling_mean.hpp 37-41 (lazy) *)
Definition int_lazy_rolling_mean_run (N : nat) (xs : list Z) : outcome F :=
  obnd (int_rolling_sum_run N xs) (fun st =>
    Ok (fdiv_int K (snd st) (Z.of_nat (rolling_count_result N (fst st))))).
(** rolling_mean.hpp 68-92 (immediate): with a full window the difference of two samples is computed in
    the integer type, the larger minus the smaller; otherwise prev_mean is floating. *)
Definition int_rolling_mean_op (N : nat) (buf : list Z) (mean : F) (x : Z) : outcome F :=
  let cnt := rolling_count_result N buf in
  if rwp1_full N buf then
    match buf with
    | [] => UB
    | front :: _ =>
        if x <? front then obnd (arith T T Z.sub front x) (fun d => Ok (sub K mean (fdiv_int K d (Z.of_nat cnt))))
        else if front <? x then obnd (arith T T Z.sub x front) (fun d => Ok (add K mean (fdiv_int K d (Z.of_nat cnt))))
        else Ok mean
    end
  else match immediate_rolling_mean_op K N (map (of_Z K) buf) mean (of_Z K x) with
       | Some m => Ok m
       | None => UB
       end.
(** rolling_moment.hpp 45-52: [result_type sum_] is floating, numeric::pow works in [T]. *)
Definition int_rolling_moment_op (n N : nat) (buf : list Z) (s : F) (x : Z) : outcome F :=
  obnd (if rwp1_full N buf then
          match buf with
          | [] => UB
          | front :: _ => obnd (int_pow front n) (fun p => Ok (sub K s (of_Z K p)))
          end
        else Ok s) (fun s => obnd (int_pow x n) (fun p => Ok (add K s (of_Z K p)))).
(** rolling_variance.hpp 126-152: [Sample added_sample], [Sample removed_sample]; every operation is
    between a sample and a floating mean. *)
Definition int_rolling_variance_op (N : nat) (buf : list Z) (st : F * F) (mean : F) (x : Z) : outcome (F * F) :=
  match rolling_variance_op K N (map (of_Z K) buf) st mean (of_Z K x) with
  | Some st => Ok st
  | None => UB
  end.
(** stats<rolling_moment<n>, rolling_mean, rolling_variance> in dependency order. *)
Record int_roll := { ir_buf : list Z; ir_mom : F; ir_mean : F; ir_var : F * F }.
Definition int_roll_push (n N : nat) (o : outcome int_roll) (x : Z) : outcome int_roll :=
  obnd o (fun s =>
    let buf := rwp1_op N (ir_buf s) x in
    obnd (int_rolling_moment_op n N buf (ir_mom s) x) (fun mom =>
    obnd (int_rolling_mean_op N buf (ir_mean s) x) (fun mean =>
    obnd (int_rolling_variance_op N buf (ir_var s) mean x) (fun var =>
      Ok {| ir_buf := buf; ir_mom := mom; ir_mean := mean; ir_var := var |})))).
Definition int_roll_run (n N : nat) (xs : list Z) : outcome int_roll :=
  fold_left (int_roll_push n N) xs
    (Ok {| ir_buf := rwp1_init; ir_mom := rolling_moment_init K (zero K);
           ir_mean := immediate_rolling_mean_init K (zero K); ir_var := rolling_variance_init K (zero K) |}).
Definition ir_moment (N : nat) (s : int_roll) : F := rolling_moment_result K (ir_mom s) (rolling_count_result N (ir_buf s)).
Definition ir_variance (N : nat) (s : int_roll) : F := rolling_variance_result K (ir_var s) (rolling_count_result N (ir_buf s)).
End Integer.

(** ** weighted_sum, weighted_mean: Sample = S, Weight = W, both integers *)
Section Weighted.
Variables S W : itype.
(** weighted_sum.hpp 31, 46-50: weighted_sample is the type of sample * weight. *)
Definition int_weighted_sum_op (s x w : Z) : outcome Z :=
  obnd (arith S W Z.mul x w) (fun p => store (common S W) (arith (common S W) (common S W) Z.add s p)).
Definition int_weighted_sum_run (h : list (Z * Z)) : outcome Z :=
  fold_left (fun o xw => obnd o (fun s => int_weighted_sum_op s (fst xw) (snd xw))) h (Ok 0).
(** weighted_mean.hpp 38-47 (lazy): fdiv(weighted_sum, sum_of_weights); sum_of_weights is sum_impl on
    the weights. *)
Definition int_weighted_mean_run (K : Num) (h : list (Z * Z)) : outcome (car K) :=
  obnd (int_weighted_sum_run h) (fun s => obnd (int_sum_run W (map snd h)) (fun w => Ok (fdiv_int K s w))).
End Weighted.
