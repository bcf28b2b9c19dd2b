(** Specification vocabulary for integer sample types. *)
From Coq Require Import List ZArith.
From Verif Require Import SpecRolling.
Import ListNotations.
Open Scope Z_scope.

(** A built-in integer type: its width in bits and whether it is signed. *)
Record itype := { bits : Z; signed : bool }.
Definition StandardWidth (T : itype) : Prop := bits T = 8 \/ bits T = 16 \/ bits T = 32 \/ bits T = 64.
(** The values of the type. *)
Definition Representable (T : itype) (z : Z) : Prop :=
  if signed T then - 2 ^ (bits T - 1) <= z < 2 ^ (bits T - 1) else 0 <= z < 2 ^ bits T.
(** The value of the type congruent to [z]. *)
Definition WrapsTo (T : itype) (z r : Z) : Prop := Representable T r /\ (2 ^ bits T | r - z).
(** The mathematical sum and sum of powers. *)
Definition Sum (xs : list Z) : Z := fold_right Z.add 0 xs.
Definition SumOfPowers (n : nat) (xs : list Z) : Z := Sum (map (fun x => x ^ Z.of_nat n) xs).
Definition WeightedSum (h : list (Z * Z)) : Z := Sum (map (fun p => fst p * snd p) h).
(** Every nonempty prefix of [xs] satisfies [P]. *)
Definition AtEveryPrefix {A : Type} (P : list A -> Prop) (xs : list A) : Prop :=
  forall p q, xs = p ++ q -> p <> [] -> P p.
(** Every n-th power and every running total of them fits. *)
Definition MomentFits (T : itype) (n : nat) (xs : list Z) : Prop :=
  Forall (fun x => Representable T (x ^ Z.of_nat n)) xs /\ AtEveryPrefix (fun p => Representable T (SumOfPowers n p)) xs.
(** After each push the sum of the window fits, and so does the sum of the samples of the previous
    window that stay when the oldest leaves (the last N-1 samples before the push). *)
Definition RollingFits (T : itype) (N : nat) (xs : list Z) : Prop :=
  AtEveryPrefix (fun p => Representable T (Sum (LastN N p)) /\ Representable T (Sum (LastN (N - 1) (removelast p)))) xs.
(** The distance of any two samples [N] pushes apart is a value of [P]. *)
Definition ApartFit (P : itype) (N : nat) (xs : list Z) : Prop :=
  forall p y m x q, xs = p ++ y :: m ++ x :: q -> S (length m) = N -> Representable P (Z.abs (x - y)).
