(** Model of the tail family: statistics/tail.hpp, tail_variate.hpp, tail_quantile.hpp,
    tail_mean.hpp, tail_variate_means.hpp and their weighted versions. *)
From Coq Require Import List Arith Bool.
From Verif Require Import Num ModelRolling.
Import ListNotations.

(** std::push_heap, std::pop_heap, std::sort_heap on a whole vector of indices, given the
    comparison.  Their behaviour is not fixed here: theorems assume only the contract of the
    C++ standard (SpecTail.HeapContract). *)
Record HeapOps := {
  push_heap : (nat -> nat -> bool) -> list nat -> list nat;
  pop_heap : (nat -> nat -> bool) -> list nat -> list nat;
  sort_heap : (nat -> nat -> bool) -> list nat -> list nat
}.

Section Tail.
(** [A]: the sample type, [V]: the type of the variates (or weights), [dA], [dV]: what
    [args[sample | Sample()]] and [args[variate | VariateType()]] evaluate to at construction. *)
Variables A V : Type.
Variable H : HeapOps.
(** predicate_type, tail.hpp 147-153: [greater] for the right tail, [less] for the left. *)
Variable pred : A -> A -> bool.

(** The mutable members of tail_impl (tail.hpp 281-284) and the arrays of all the
    tail_variate / tail_weights accumulators of the set (tail_variate.hpp 81). *)
Record tail_state := {
  tl_sorted : bool;
  tl_indices : list nat;
  tl_samples : list A;
  tl_variates : list (list V)
}.

(** tail.hpp 161-168, tail_variate.hpp 43-47; [nv] tail variates. *)
Definition tail_init (cache_size nv : nat) (dA : A) (dV : V) : tail_state :=
  {| tl_sorted := false; tl_indices := []; tl_samples := repeat dA cache_size;
     tl_variates := repeat (repeat dV cache_size) nv |}.

(** tail.hpp 250-269.  An index out of range would be undefined behaviour; indices in the heap
    are always in range (ProofTail.tail_inv), so the value given to this case is irrelevant; it
    is chosen so that the comparison is a strict weak order on all indices. *)
Definition indirect_cmp (samples : list A) (i j : nat) : bool :=
  match nth_error samples i, nth_error samples j with
  | Some a, Some b => pred a b
  | Some _, None => true
  | None, _ => false
  end.

(** tail.hpp 237-246 and tail_variate.hpp 49-53: store the sample, restore the heap, tell each
    tail variate to store its own value at the same index. *)
Definition tail_assign (samples : list A) (indices : list nat) (variates : list (list V))
           (index : nat) (x : A) (vs : list V) : tail_state :=
  let samples' := set_nth index x samples in
  {| tl_sorted := false;
     tl_indices := push_heap H (indirect_cmp samples') indices;
     tl_samples := samples';
     tl_variates := map (fun p => set_nth index (snd p) (fst p)) (combine variates vs) |}.

(** tail.hpp 190-203.  [vs] holds one value per tail variate of the set. *)
Definition tail_push (s : tail_state) (x : A) (vs : list V) : outcome tail_state :=
  if Nat.ltb (length (tl_indices s)) (length (tl_samples s)) then
    let index := length (tl_indices s) in
    Ok (tail_assign (tl_samples s) (tl_indices s ++ [index]) (tl_variates s) index x vs)
  else
    match tl_indices s with
    | [] => UB                                 (* indices[0] of an empty vector *)
    | top :: _ =>
        match nth_error (tl_samples s) top with
        | None => UB
        | Some t =>
            if pred x t then
              let indices := pop_heap H (indirect_cmp (tl_samples s)) (tl_indices s) in
              match rev indices with
              | [] => UB                       (* indices.back() *)
              | back :: _ => Ok (tail_assign (tl_samples s) indices (tl_variates s) back x vs)
              end
            else Ok s
        end
    end.

(** tail.hpp 205-222: the state after an extraction ... *)
Definition tail_sort (s : tail_state) : tail_state :=
  if tl_sorted s then s
  else {| tl_sorted := true;
          tl_indices := rev (sort_heap H (indirect_cmp (tl_samples s)) (tl_indices s));
          tl_samples := tl_samples s; tl_variates := tl_variates s |}.
(** ... and the range it returns: samples (tail.hpp 52-69, a reversed permutation range) ... *)
Fixpoint read_all {B : Type} (arr : list B) (is : list nat) : outcome (list B) :=
  match is with
  | [] => Ok []
  | i :: is =>
      match nth_error arr i, read_all arr is with
      | Some b, Ok bs => Ok (b :: bs)
      | _, _ => UB
      end
  end.
Definition tail_result (s : tail_state) : outcome (list A) :=
  read_all (tl_samples s) (rev (tl_indices (tail_sort s))).
(** ... or the values of the j-th tail variate, tail_variate.hpp 55-73. *)
Definition tail_variate_result (s : tail_state) (j : nat) : outcome (list V) :=
  match nth_error (tl_variates s) j with
  | Some arr => read_all arr (rev (tl_indices (tail_sort s)))
  | None => UB
  end.

(** Histories: pushes and extractions of the tail in any order. *)
Inductive tail_op := TPush (x : A) (vs : list V) | TExtract.
Definition tail_step (s : outcome tail_state) (o : tail_op) : outcome tail_state :=
  match s with
  | Ok s => match o with TPush x vs => tail_push s x vs | TExtract => Ok (tail_sort s) end
  | NotANumber => NotANumber
  | UB => UB
  end.
Definition tail_run (s : tail_state) (ops : list tail_op) : outcome tail_state :=
  fold_left tail_step ops (Ok s).
End Tail.

Arguments tl_sorted {A V}. Arguments tl_indices {A V}. Arguments tl_samples {A V}. Arguments tl_variates {A V}.
Arguments tail_init {A V}. Arguments indirect_cmp {A}. Arguments tail_assign {A V}. Arguments tail_push {A V}.
Arguments tail_sort {A V}. Arguments tail_result {A V}. Arguments tail_variate_result {A V}.
Arguments TPush {A V}. Arguments TExtract {A V}. Arguments tail_step {A V}. Arguments tail_run {A V}.

(** The two predicates, tail.hpp 147-153. *)
Inductive side := Left | Right.
Definition tail_pred (K : Num) (lr : side) (a b : car K) : bool :=
  match lr with Left => ltb K a b | Right => ltb K b a end.

(** *** Statistics on an extracted tail.  [tl] is the range [tail(args)], [cnt] the count.
    [ceil] is std::ceil followed by the conversion to std::size_t. *)
Section TailStats.
Variable K : Num.
Local Notation T := (car K).
Local Notation "0" := (zero K) : num_scope.
Local Notation "1" := (one K) : num_scope.
Local Notation "x + y" := (add K x y) : num_scope.
Local Notation "x - y" := (sub K x y) : num_scope.
Local Notation "x * y" := (mul K x y) : num_scope.
Local Notation "x / y" := (div K x y) : num_scope.
Local Notation "x <? y" := (ltb K x y) : num_scope.
Local Notation "# n" := (ofnat K n) (at level 2) : num_scope.
Local Open Scope num_scope.
Variable ceil : T -> nat.
Variable lr : side.

(** ( is_same<LeftRight, left>::value ) ? p : 1. - p *)
Definition tail_level (p : T) : T := match lr with Left => p | Right => 1 - p end.
(** tail_quantile.hpp 71-77 and the same lines elsewhere *)
Definition tail_n (cnt : nat) (p : T) : nat := ceil (#cnt * tail_level p).

(** tail_quantile.hpp 68-100.  [begin + n - 1] with n = 0 points before the range. *)
Definition tail_quantile_result (cnt : nat) (tl : list T) (p : T) : outcome T :=
  let n := tail_n cnt p in
  if Nat.ltb n (length tl) then
    match n with
    | O => UB
    | S m => match nth_error tl m with Some v => Ok v | None => UB end
    end
  else NotANumber.

(** tail_mean.hpp 130-165.  With n = 0 the result is 0. / 0., a NaN. *)
Definition non_coherent_tail_mean_result (cnt : nat) (tl : list T) (p : T) : outcome T :=
  let n := tail_n cnt p in
  if Nat.leb n (length tl) then
    match n with
    | O => NotANumber
    | S _ => Ok (fold_left (add K) (firstn n tl) 0 / #n)
    end
  else NotANumber.

(** tail_mean.hpp 71-90, given what the set reports as non_coherent_tail_mean and as quantile.
    The conditional operator binds weaker than the subtraction: the [n / count] term belongs to
    the third operand only (lines 86-89). *)
Definition coherent_tail_mean_of (nctm q : outcome T) (cnt : nat) (p : T) : outcome T :=
  let n := tail_n cnt p in
  match nctm with
  | Ok nctm =>
      match q with
      | Ok q => Ok (nctm + (q / #n) * (match lr with Left => p | Right => 1 - p - #n / #cnt end))
      | r => r
      end
  | NotANumber => match q with UB => UB | _ => NotANumber end
  | UB => UB
  end.
(** In a set where the quantile is tail_quantile. *)
Definition coherent_tail_mean_result (cnt : nat) (tl : list T) (p : T) : outcome T :=
  coherent_tail_mean_of (non_coherent_tail_mean_result cnt tl p) (tail_quantile_result cnt tl p) cnt p.

(** numeric::plus on vectors (numeric/functional/vector.hpp): BOOST_ASSERT of equal sizes. *)
Fixpoint vplus (a b : list T) : outcome (list T) :=
  match a, b with
  | [], [] => Ok []
  | x :: a, y :: b => match vplus a b with Ok r => Ok ((x + y) :: r) | e => e end
  | _, _ => UB
  end.
Definition vaccumulate (l : list (list T)) (init : list T) : outcome (list T) :=
  fold_left (fun acc v => match acc with Ok a => vplus a v | e => e end) l (Ok init).

(** tail_variate_means.hpp 90-147; [tv] is the range tail_variate(args), [nctm] what the set reports
    as non_coherent_tail_mean.  [relative] selects the relative version.  Reading [begin()] of an
    empty range is undefined. *)
Definition tail_variate_means_of (relative : bool) (nctm : outcome T) (cnt : nat) (tl : list T) (tv : list (list T)) (p : T)
  : outcome (list T) :=
  let n := tail_n cnt p in
  match tv with
  | [] => UB
  | v0 :: _ =>
      if Nat.ltb n (length tl) then
        match vaccumulate (firstn n tv) (repeat 0 (length v0)) with
        | Ok means =>
            if relative then
              match nctm with
              | Ok m => Ok (map (fun x => x / (#n * m)) means)
              | _ => NotANumber
              end
            else match n with
                 | O => NotANumber           (* 0. / 0. in every component *)
                 | S _ => Ok (map (fun x => x / #n) means)
                 end
        | e => e
        end
      else NotANumber
  end.
Definition tail_variate_means_result (relative : bool) (cnt : nat) (tl : list T) (tv : list (list T)) (p : T)
  : outcome (list T) :=
  tail_variate_means_of relative (non_coherent_tail_mean_result cnt tl p) cnt tl tv p.

(** weighted_tail_quantile.hpp 75-105 (the same loop in weighted_tail_mean.hpp 90-120): add
    cached weights until the threshold is reached.  Returns the number of weights and their
    sum, or [None] where the code returns NaN / throws. *)
Fixpoint weight_loop (threshold sum : T) (n : nat) (ws : list T) : option (nat * T) :=
  if sum <? threshold then
    match ws with
    | [] => None
    | w :: ws => weight_loop threshold (sum + w) (S n) ws
    end
  else Some (n, sum).
(** weighted_tail_quantile.hpp 65-111; [wtot] is sum_of_weights(args). *)
Definition weighted_tail_quantile_result (wtot : T) (tl ws : list T) (p : T) : outcome T :=
  match weight_loop (wtot * tail_level p) 0 0 ws with
  | None => NotANumber
  | Some (O, _) => UB                        (* begin + 0 - 1 *)
  | Some (S m, _) => match nth_error tl m with Some v => Ok v | None => UB end
  end.
Fixpoint inner_product (xs ws : list T) (acc : T) : T :=
  match xs, ws with
  | x :: xs, w :: ws => inner_product xs ws (acc + x * w)
  | _, _ => acc
  end.
(** weighted_tail_mean.hpp 80-133.  With n = 0 the result is 0. / 0., a NaN. *)
Definition non_coherent_weighted_tail_mean_result (wtot : T) (tl ws : list T) (p : T) : outcome T :=
  match weight_loop (wtot * tail_level p) 0 0 ws with
  | None => NotANumber
  | Some (O, _) => NotANumber
  | Some (S m, sum) => Ok (inner_product (firstn (S m) tl) ws 0 / sum)
  end.

(** weighted_tail_variate_means.hpp 117-150: here the branch taken when the cache is exhausted
    fills the result with NaN but neither returns nor changes [sum] or [n]: the loop goes on.
    [fuel] bounds the number of iterations; [None]: still running. *)
Fixpoint variate_loop (fuel : nat) (threshold sum : T) (n : nat) (ws : list T) : option (nat * T) :=
  match fuel with
  | O => None
  | S fuel =>
      if sum <? threshold then
        match nth_error ws n with
        | Some w => variate_loop fuel threshold (sum + w) (S n) ws
        | None => variate_loop fuel threshold sum n ws
        end
      else Some (n, sum)
  end.
Definition vscale (v : list T) (w : T) : list T := map (fun x => x * w) v.
Fixpoint vinner (tv : list (list T)) (ws : list T) (acc : list T) : outcome (list T) :=
  match tv, ws with
  | v :: tv, w :: ws => match vplus acc (vscale v w) with Ok a => vinner tv ws a | e => e end
  | _, _ => Ok acc
  end.
(** weighted_tail_variate_means.hpp 117-193; outer [None]: does not terminate within [fuel]. *)
Definition weighted_tail_variate_means_of (fuel : nat) (relative : bool) (nctm : outcome T) (wtot : T)
           (ws : list T) (tv : list (list T)) (p : T) : option (outcome (list T)) :=
  match variate_loop fuel (wtot * tail_level p) 0 0 ws with
  | None => None
  | Some (n, sum) =>
      Some (match tv with
            | [] => UB
            | v0 :: _ =>
                match vinner (firstn n tv) ws (repeat 0 (length v0)) with
                | Ok means =>
                    if relative then
                      match nctm with
                      | Ok m => Ok (map (fun x => x / (sum * m)) means)
                      | _ => NotANumber
                      end
                    else match n with
                         | O => NotANumber   (* 0. / 0. in every component *)
                         | S _ => Ok (map (fun x => x / sum) means)
                         end
                | e => e
                end
            end)
  end.
Definition weighted_tail_variate_means_result (fuel : nat) (relative : bool) (wtot : T) (tl ws : list T)
           (tv : list (list T)) (p : T) : option (outcome (list T)) :=
  weighted_tail_variate_means_of fuel relative (non_coherent_weighted_tail_mean_result wtot tl ws p) wtot ws tv p.
End TailStats.
