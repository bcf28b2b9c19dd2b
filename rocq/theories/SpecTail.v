(** Specification of heaps, tails and order statistics. *)
From Coq Require Import List Arith Bool Permutation Sorted.
From Verif Require Import Num SpecStats ModelTail.
Import ListNotations.

(** Strict weak orders, as a boolean comparison. *)
Record StrictWeak {A : Type} (lt : A -> A -> bool) : Prop := {
  sw_irrefl : forall a, lt a a = false;
  sw_trans : forall a b c, lt a b = true -> lt b c = true -> lt a c = true;
  sw_negtrans : forall a b c, lt a b = false -> lt b c = false -> lt a c = false
}.

(** [alg.heap.operations]: no element compares greater than its parent. *)
Definition IsHeap (comp : nat -> nat -> bool) (l : list nat) : Prop :=
  forall i a b, 0 < i -> nth_error l (Nat.div2 (i - 1)) = Some a -> nth_error l i = Some b -> comp a b = false.

(** What the C++ standard promises about the three heap algorithms ([push.heap], [pop.heap],
    [sort.heap]), for every comparison that is a strict weak order. *)
Record HeapContract (H : HeapOps) : Prop := {
  hc_push : forall comp, StrictWeak comp -> forall l x, IsHeap comp l ->
    Permutation (push_heap H comp (l ++ [x])) (l ++ [x]) /\ IsHeap comp (push_heap H comp (l ++ [x]));
  hc_pop : forall comp, StrictWeak comp -> forall t l, IsHeap comp (t :: l) ->
    exists l', pop_heap H comp (t :: l) = l' ++ [t] /\ Permutation l' l /\ IsHeap comp l';
  hc_sort : forall comp, StrictWeak comp -> forall l, IsHeap comp l ->
    Permutation (sort_heap H comp l) l /\
    StronglySorted (fun a b => comp b a = false) (sort_heap H comp l)
}.

(** [before a b = true]: a is strictly more extreme than b. *)
Section Tails.
Context {A : Type}.
Variable before : A -> A -> bool.

(** Sorted from the most extreme on. *)
Definition SortedBy (l : list A) : Prop := StronglySorted (fun a b => before b a = false) l.

(** [t] consists of the [k] most extreme elements of [xs], most extreme first. *)
Definition IsTail (k : nat) (xs t : list A) : Prop :=
  length t = Nat.min k (length xs) /\ SortedBy t /\
  exists rest, Permutation xs (t ++ rest) /\ forall a b, In a t -> In b rest -> before b a = false.

(** [v] is the r-th most extreme element of [xs] (r = 1, 2, ...). *)
Definition OrderStat (xs : list A) (r : nat) (v : A) : Prop :=
  exists a b, Permutation xs (a ++ v :: b) /\ S (length a) = r /\
    (forall y, In y a -> before v y = false) /\ (forall y, In y b -> before y v = false).

(** [a] is a set of the [r] most extreme elements of [xs]. *)
Definition MostExtreme (xs : list A) (r : nat) (a : list A) : Prop :=
  length a = r /\ exists b, Permutation xs (a ++ b) /\ forall x y, In x a -> In y b -> before y x = false.
End Tails.

(** The left tail is the tail of the small samples, the right tail that of the large ones:
    [MoreExtreme K lr a b] says that [a] is strictly more extreme than [b] on side [lr]. *)
Definition MoreExtreme (K : Num) (lr : side) (a b : car K) : bool :=
  match lr with Left => ltb K a b | Right => ltb K b a end.

(** [r] is the least natural number not below [x]. *)
Definition IsCeil (K : Num) (x : car K) (r : nat) : Prop :=
  leb K x (ofnat K r) = true /\ forall m, leb K x (ofnat K m) = true -> r <= m.
Definition CeilSpec (K : Num) (ceil : car K -> nat) : Prop := forall x, IsCeil K x (ceil x).

(** Probabilities strictly inside (0, 1), and the share of the samples in the chosen tail. *)
Definition Inside01 (K : Num) (p : car K) : Prop := ltb K (zero K) p = true /\ ltb K p (one K) = true.
Definition TailShare (K : Num) (lr : side) (p : car K) : car K :=
  match lr with Left => p | Right => sub K (one K) p end.

(** What was pushed during a history of pushes and extractions; one value per tail variate. *)
Definition pushes {A V : Type} (ops : list (tail_op A V)) : list (A * list V) :=
  flat_map (fun o => match o with TPush x vs => [(x, vs)] | TExtract => [] end) ops.
Definition WellFormed {A V : Type} (nv : nat) (ops : list (tail_op A V)) : Prop :=
  Forall (fun p => length (snd p) = nv) (pushes ops).

(** [a] then [v] are the most extreme elements of [hist] (by [key]), and [v] is the first one
    at which their cumulated weight reaches [thr]. *)
Definition ReachesAt (K : Num) {E : Type} (before : E -> E -> bool) (wt : E -> car K) (hist : list E)
           (thr : car K) (a : list E) (v : E) : Prop :=
  (exists b, Permutation hist (a ++ v :: b) /\
     forall x y, In x (a ++ [v]) -> In y b -> before y x = false) /\
  (forall y, In y a -> before v y = false) /\
  (forall p q, a = p ++ q -> ltb K (total K wt p) thr = true) /\
  leb K thr (total K wt (a ++ [v])) = true.
