(** Model of the rolling-window accumulators (statistics/rolling_*.hpp). *)
From Coq Require Import List Arith Bool.
From Verif Require Import Num ModelBasic.
Import ListNotations.

(** boost::circular_buffer::push_back on the logical contents (oldest first); an external
    dependency, modelled by its documented behaviour: when full the first element is
    overwritten; a buffer of capacity 0 stays empty. *)
Definition cb_push {A : Type} (cap : nat) (buf : list A) (x : A) : list A :=
  if Nat.eqb (length buf) cap then match buf with [] => [] | _ :: t => t ++ [x] end
  else buf ++ [x].
Definition cb_full {A : Type} (cap : nat) (buf : list A) : bool := Nat.eqb (length buf) cap.

(** rolling_window.hpp 79-133: rolling_window_plus1_impl; capacity window_size + 1. *)
Definition rwp1_init {A : Type} : list A := [].
Definition rwp1_op {A : Type} (N : nat) (buf : list A) (x : A) : list A := cb_push (N + 1) buf x.
Definition rwp1_full {A : Type} (N : nat) (buf : list A) : bool := cb_full (N + 1) buf.
(** rolling_window.hpp 145-164: skip the oldest element iff the plus1 buffer is full. *)
Definition rolling_window_result {A : Type} (N : nat) (buf : list A) : list A :=
  if rwp1_full N buf then skipn 1 buf else buf.
(** rolling_count.hpp 29-47: size() - full(). *)
Definition rolling_count_result {A : Type} (N : nat) (buf : list A) : nat :=
  length buf - (if rwp1_full N buf then 1 else 0).

Section Rolling.
Variable K : Num.
Local Notation T := (car K).
Local Notation "0" := (zero K) : num_scope.
Local Notation "1" := (one K) : num_scope.
Local Notation "x + y" := (add K x y) : num_scope.
Local Notation "x - y" := (sub K x y) : num_scope.
Local Notation "x * y" := (mul K x y) : num_scope.
Local Notation "x / y" := (div K x y) : num_scope.
Local Notation "x <? y" := (ltb K x y) : num_scope.
Local Notation "# n" := (ofnat K n) (at level 2) : num_scope.
Local Open Scope num_scope.

(** In the operations below [buf] is the already updated plus1 buffer and [front()] of an
    empty buffer (undefined behaviour in the code) is [None]. *)

(** rolling_sum.hpp 27-63. *)
Definition rolling_sum_init (s0 : T) : T := s0.
Definition rolling_sum_op (N : nat) (buf : list T) (sum x : T) : option T :=
  if rwp1_full N buf then
    match buf with
    | [] => None
    | front :: _ => Some ((sum - front) + x)
    end
  else Some (sum + x).

(** rolling_mean.hpp 30-50 (lazy). *)
Definition lazy_rolling_mean_result (sum : T) (count : nat) : T := sum / #count.

(** rolling_mean.hpp 56-105 (immediate, the default). *)
Definition immediate_rolling_mean_init (s0 : T) : T := s0 / 1.
Definition immediate_rolling_mean_op (N : nat) (buf : list T) (mean x : T) : option T :=
  let count := rolling_count_result N buf in
  if rwp1_full N buf then
    match buf with
    | [] => None
    | front :: _ =>
        Some (if x <? front then mean - (front - x) / #count
              else if front <? x then mean + (x - front) / #count
              else mean)
    end
  else
    let prev_mean := mean in
    Some (if x <? prev_mean then mean - (prev_mean - x) / #count
          else if prev_mean <? x then mean + (x - prev_mean) / #count
          else mean).

(** rolling_moment.hpp 31-71. *)
Definition rolling_moment_init (s0 : T) : T := s0.
Definition rolling_moment_op (M N : nat) (buf : list T) (sum x : T) : option T :=
  match (if rwp1_full N buf then
           match buf with
           | [] => None
           | front :: _ => match npow K front M with Some p => Some (sum - p) | None => None end
           end
         else Some sum), npow K x M with
  | Some s, Some p => Some (s + p)
  | _, _ => None
  end.
Definition rolling_moment_result (sum : T) (count : nat) : T := sum / #count.

(** rolling_variance.hpp 48-69 (lazy); [result_type()] is 0. *)
Definition lazy_rolling_variance_result (mean moment2 : T) (nr_samples : nat) : T :=
  if Nat.ltb nr_samples 2 then 0
  else #nr_samples * (moment2 - mean * mean) / #(nr_samples - 1).

(** rolling_variance.hpp 107-168 (immediate, the default). *)
Definition rolling_variance_init (s0 : T) : T * T := (s0 / 1, s0 / 1).
Definition prevent_underflow (x : T) : T := if x <? 0 then 0 else x.
Definition rolling_variance_op (N : nat) (buf : list T) (st : T * T) (mean x : T) : option (T * T) :=
  let '(previous_mean, sum_of_squares) := st in
  let ss := sum_of_squares + (x - mean) * (x - previous_mean) in
  if rwp1_full N buf then
    match buf with
    | [] => None
    | removed :: _ =>
        Some (mean, prevent_underflow (ss - (removed - mean) * (removed - previous_mean)))
    end
  else Some (mean, ss).
Definition rolling_variance_result (st : T * T) (nr_samples : nat) : T :=
  if Nat.ltb nr_samples 2 then 0 else snd st / #(nr_samples - 1).

(** A set with all of these: stats<rolling_window, rolling_count, rolling_sum,
    rolling_moment<M>, rolling_moment<2>, rolling_mean, rolling_variance>(lazy forms are pure
    functions of the others), constructed with [rolling_window_size = N, sample = s0] and
    updated in dependency order: window, sum / moments, mean, variance. *)
Record roll := { ro_buf : list T; ro_sum : T; ro_mom : T; ro_mom2 : T; ro_mean : T; ro_var : T * T }.
Definition roll_init (s0 : T) : roll :=
  {| ro_buf := rwp1_init; ro_sum := rolling_sum_init s0; ro_mom := rolling_moment_init s0;
     ro_mom2 := rolling_moment_init s0;
     ro_mean := immediate_rolling_mean_init s0; ro_var := rolling_variance_init s0 |}.
Definition roll_push (N M : nat) (s : option roll) (x : T) : option roll :=
  match s with
  | None => None
  | Some s =>
    let buf := rwp1_op N (ro_buf s) x in
    match rolling_sum_op N buf (ro_sum s) x, rolling_moment_op M N buf (ro_mom s) x,
          rolling_moment_op 2 N buf (ro_mom2 s) x, immediate_rolling_mean_op N buf (ro_mean s) x with
    | Some sum, Some mom, Some mom2, Some mean =>
        match rolling_variance_op N buf (ro_var s) mean x with
        | Some var => Some {| ro_buf := buf; ro_sum := sum; ro_mom := mom; ro_mom2 := mom2;
                              ro_mean := mean; ro_var := var |}
        | None => None
        end
    | _, _, _, _ => None
    end
  end.
Definition roll_run (N M : nat) (s0 : T) (xs : list T) : option roll :=
  fold_left (roll_push N M) xs (Some (roll_init s0)).

(** Extraction. *)
Definition ro_count (N : nat) (s : roll) : nat := rolling_count_result N (ro_buf s).
Definition ro_window (N : nat) (s : roll) : list T := rolling_window_result N (ro_buf s).
Definition ro_lazy_mean (N : nat) (s : roll) : T := lazy_rolling_mean_result (ro_sum s) (ro_count N s).
Definition ro_moment (N : nat) (s : roll) : T := rolling_moment_result (ro_mom s) (ro_count N s).
Definition ro_variance (N : nat) (s : roll) : T := rolling_variance_result (ro_var s) (ro_count N s).
(** lazy_rolling_variance reads whichever rolling_mean the set contains *)
Definition ro_lazy_variance (N : nat) (s : roll) : T :=
  lazy_rolling_variance_result (ro_mean s) (rolling_moment_result (ro_mom2 s) (ro_count N s)) (ro_count N s).
Definition ro_lazy_variance_lazy_mean (N : nat) (s : roll) : T :=
  lazy_rolling_variance_result (ro_lazy_mean N s) (rolling_moment_result (ro_mom2 s) (ro_count N s)) (ro_count N s).
End Rolling.

(** ** The physical circular buffer, for serialization.
    boost::circular_buffer keeps [cap] cells, the position of the first element and the
    number of elements; element i lives in cell (first + i) mod cap.  A cell that was never
    written is [None]. *)
Record cbuf (A : Type) := { cb_cap : nat; cb_cells : list (option A); cb_first : nat; cb_size : nat }.
Arguments cb_cap {A}. Arguments cb_cells {A}. Arguments cb_first {A}. Arguments cb_size {A}.

Fixpoint set_nth {B : Type} (n : nat) (v : B) (l : list B) : list B :=
  match l, n with
  | [], _ => []
  | _ :: t, O => v :: t
  | h :: t, S m => h :: set_nth m v t
  end.

Definition cbuf_new {A : Type} (cap : nat) : cbuf A :=
  {| cb_cap := cap; cb_cells := repeat None cap; cb_first := 0; cb_size := 0 |}.
(** circular_buffer(cap) starting at another physical position (as a rotated buffer would). *)
Definition cbuf_push {A : Type} (b : cbuf A) (x : A) : cbuf A :=
  if Nat.eqb (cb_size b) (cb_cap b) then
    if Nat.eqb (cb_cap b) 0 then b
    else {| cb_cap := cb_cap b; cb_cells := set_nth (cb_first b) (Some x) (cb_cells b);
            cb_first := Nat.modulo (cb_first b + 1) (cb_cap b); cb_size := cb_size b |}
  else {| cb_cap := cb_cap b;
          cb_cells := set_nth (Nat.modulo (cb_first b + cb_size b) (cb_cap b)) (Some x) (cb_cells b);
          cb_first := cb_first b; cb_size := S (cb_size b) |}.
(** logical contents, oldest first (begin() .. end()) *)
Definition cbuf_contents {A : Type} (b : cbuf A) : list (option A) :=
  map (fun i => nth (Nat.modulo (cb_first b + i) (cb_cap b)) (cb_cells b) None) (seq 0 (cb_size b)).
(** array_one() / array_two(): the two contiguous physical pieces. *)
Definition array_one {A : Type} (b : cbuf A) : list (option A) :=
  firstn (Nat.min (cb_size b) (cb_cap b - cb_first b)) (skipn (cb_first b) (cb_cells b)).
Definition array_two {A : Type} (b : cbuf A) : list (option A) :=
  firstn (cb_size b - (cb_cap b - cb_first b)) (cb_cells b).
(** rolling_window.hpp 28-39: save writes capacity, size, then the two pieces. *)
Definition cbuf_save {A : Type} (b : cbuf A) : nat * nat * list (option A) :=
  (cb_cap b, cb_size b, array_one b ++ array_two b).
(** rolling_window.hpp 41-54: load sets the capacity, clears, reads [size] elements and
    inserts them at begin(); [None] if the archive is too short or holds an indeterminate
    element (raw bytes are copied, so T must be trivially copyable). *)
Fixpoint all_some {A : Type} (l : list (option A)) : option (list A) :=
  match l with
  | [] => Some []
  | Some a :: t => match all_some t with Some r => Some (a :: r) | None => None end
  | None :: _ => None
  end.
Definition cbuf_load {A : Type} (ar : nat * nat * list (option A)) : option (cbuf A) :=
  let '(cap, size, bytes) := ar in
  if Nat.ltb (length bytes) size then None
  else match all_some (firstn size bytes) with
       | Some xs => Some (fold_left cbuf_push xs (cbuf_new cap))
       | None => None
       end.
