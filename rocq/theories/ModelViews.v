(** Results that are ranges.  tail, tail_variate, density, the cumulative distribution, extended P-square, the
    rolling window and the tail variate means return an iterator range into their own members
    (make_iterator_range ...).  This file models what a range that was kept shows later, given the state
    the accumulator has then.  All other features return a value. *)
From Coq Require Import List Arith Bool.
From Verif Require Import Num ModelRolling ModelDensity ModelPSquare ModelTail.
Import ListNotations.

(** density.hpp 186, weighted_density.hpp 173: the whole of [histogram], a vector that gets its size in the
    constructor and is never resized. *)
Definition dens_view {K : Num} {E : Type} (s : dens K E) : list (car K * car K) := de_hist K E s.

(** p_square_cumul_dist.hpp 207, weighted_p_square_cumul_dist.hpp 221: the same. *)
Definition cdist_view {K : Num} (s : cdist K) : list (car K * car K) := cs_hist K s.

(** extended_p_square.hpp 228-238, weighted_extended_p_square.hpp 243-253: iterators that read heights[2 i + 2] when they are
    dereferenced. *)
Definition ext_view (K : Num) (probs : list (car K)) (s : psq K) : outcome (list (car K)) := ext_result K probs s.

(** tail.hpp 205-222 and 52-69: reversed iterators over indices.begin() .. indices.end(), each dereferenced through
    samples.begin().  [n] is the size of indices when the range was made.  The capacity was reserved (166), so that
    push_back (194) moves nothing, but it invalidates the iterator indices.end(). *)
Definition tail_taken {A V : Type} (s : tail_state A V) : nat := length (tl_indices s).
Definition tail_view {A V : Type} (n : nat) (s : tail_state A V) : outcome (list A) :=
  if Nat.eqb n (length (tl_indices s)) then read_all (tl_samples s) (rev (tl_indices s)) else UB.

(** tail_variate.hpp 55-73: the same iterators over indices, dereferenced through the array of the j-th tail variate. *)
Definition tail_variate_view {A V : Type} (n : nat) (s : tail_state A V) (j : nat) : outcome (list V) :=
  if Nat.eqb n (length (tl_indices s)) then
    match nth_error (tl_variates s) j with
    | Some arr => read_all arr (rev (tl_indices s))
    | None => UB
    end
  else UB.

(** rolling_window.hpp 114-119, 156-159.  The buffer has seen [pushed] samples; its elements are numbered in the order in
    which they were pushed.  The range goes from element number [q] (Some q), or from end() when it was empty (None), to
    end().  By the documentation of boost::circular_buffer push_back invalidates only iterators to the element it overwrites;
    end() remains the end. *)
Definition window_taken {A : Type} (N pushed : nat) (buf : list A) : option nat :=
  match rolling_window_result N buf with
  | [] => None
  | _ => Some (pushed - length (rolling_window_result N buf))
  end.
Definition window_view {A : Type} (from : option nat) (pushed : nat) (buf : list A) : outcome (list A) :=
  match from with
  | None => Ok []
  | Some q => if Nat.ltb q (pushed - length buf) then UB              (* overwritten *)
              else Ok (skipn (q - (pushed - length buf)) buf)
  end.

(** tail_variate_means.hpp 103-146, weighted_tail_variate_means.hpp 146-179: every extraction begins with tail_means_.clear(), which
    invalidates all iterators into it (and the assignment that follows moves another buffer in).  [vm_extractions] counts the
    extractions; a range is known by its number. *)
Record vmeans (T : Type) := { vm_extractions : nat; vm_means : outcome (list T) }.
Arguments vm_extractions {T}. Arguments vm_means {T}.
Definition vmeans_init {T : Type} : vmeans T := {| vm_extractions := 0; vm_means := Ok [] |}.
(** [means] is what the extraction computes: ModelTail.tail_variate_means_result or its weighted version. *)
Definition vmeans_extract {T : Type} (s : vmeans T) (means : outcome (list T)) : vmeans T :=
  {| vm_extractions := S (vm_extractions s); vm_means := means |}.
Definition vmeans_view {T : Type} (n : nat) (s : vmeans T) : outcome (list T) :=
  if Nat.eqb n (vm_extractions s) then vm_means s else UB.
