(** A binary heap in an array: the algorithms behind std::push_heap, std::pop_heap and std::sort_heap as implementations
    of the C++ standard library write them (sift the hole down to a leaf, then the value up).  They are not part of the
    repository; tail.hpp 192-222 calls them.  Everything proved about tails holds for every [HeapOps] that keeps the
    promises of the standard ([HeapContract]); this is one that computes the way real libraries do. *)
From Coq Require Import List Arith Bool.
From Verif Require Import ModelTail.
Import ListNotations.

Definition get (l : list nat) (i : nat) : nat := nth i l 0.
Fixpoint set (l : list nat) (i v : nat) : list nat :=
  match l, i with
  | [], _ => []
  | _ :: l, 0 => v :: l
  | a :: l, S i => a :: set l i v
  end.
Definition parent (i : nat) : nat := Nat.div2 (i - 1).

(** Move the hole up until the value fits; [fuel] bounds the number of steps, the position of the hole is enough. *)
Fixpoint sift_up (comp : nat -> nat -> bool) (fuel : nat) (l : list nat) (hole v : nat) : list nat :=
  match fuel with
  | 0 => set l hole v
  | S fuel =>
      if (0 <? hole) && comp (get l (parent hole)) v then
        sift_up comp fuel (set l hole (get l (parent hole))) (parent hole) v
      else set l hole v
  end.
(** Move the hole down to a leaf, always to the greater child; returns the array and the leaf. *)
Fixpoint sift_down (comp : nat -> nat -> bool) (fuel : nat) (l : list nat) (hole : nat) : list nat * nat :=
  match fuel with
  | 0 => (l, hole)
  | S fuel =>
      let left := 2 * hole + 1 in
      let right := 2 * hole + 2 in
      if right <? length l then
        let child := if comp (get l right) (get l left) then left else right in
        sift_down comp fuel (set l hole (get l child)) child
      else if left <? length l then (set l hole (get l left), left)
      else (l, hole)
  end.
Definition push_heap_bin (comp : nat -> nat -> bool) (l : list nat) : list nat :=
  sift_up comp (length l) l (length l - 1) (last l 0).
Definition adjust (comp : nat -> nat -> bool) (l : list nat) (v : nat) : list nat :=
  let '(l, leaf) := sift_down comp (length l) l 0 in sift_up comp (length l) l leaf v.
Definition pop_heap_bin (comp : nat -> nat -> bool) (l : list nat) : list nat :=
  match l with
  | [] => []
  | [x] => [x]
  | t :: _ => adjust comp (removelast l) (last l 0) ++ [t]
  end.
Fixpoint sort_heap_fuel (comp : nat -> nat -> bool) (fuel : nat) (l : list nat) : list nat :=
  match fuel with
  | 0 => l
  | S fuel => let p := pop_heap_bin comp l in
              match l with [] | [_] => l | _ => sort_heap_fuel comp fuel (removelast p) ++ [last p 0] end
  end.
Definition sort_heap_bin (comp : nat -> nat -> bool) (l : list nat) : list nat := sort_heap_fuel comp (length l) l.

Definition binary_heap : HeapOps :=
  {| push_heap := push_heap_bin; pop_heap := pop_heap_bin; sort_heap := sort_heap_bin |}.
