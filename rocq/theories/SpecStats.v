(** Textbook definitions of the statistics, independent of the model. *)
From Coq Require Import List.
From Verif Require Import Num.
Import ListNotations.

Section Spec.
Variable K : Num.
Local Notation T := (car K).
Local Notation "0" := (zero K) : num_scope.
Local Notation "1" := (one K) : num_scope.
Local Notation "x + y" := (add K x y) : num_scope.
Local Notation "x - y" := (sub K x y) : num_scope.
Local Notation "x * y" := (mul K x y) : num_scope.
Local Notation "x / y" := (div K x y) : num_scope.
Local Open Scope num_scope.

(** Sum of [f x] over a list. *)
Definition total {A : Type} (f : A -> T) (l : list A) : T :=
  fold_right (fun x acc => f x + acc) 0 l.

Fixpoint power (x : T) (n : nat) : T :=
  match n with O => 1 | S m => x * power x m end.

(** Average of [f x] over a (non-empty) list. *)
Definition average {A : Type} (f : A -> T) (l : list A) : T :=
  total f l / ofnat K (length l).

Definition Mean (l : list T) : T := average (fun x => x) l.
Definition Moment (k : nat) (l : list T) : T := average (fun x => power x k) l.
Definition CentralMoment (k : nat) (l : list T) : T := average (fun x => power (x - Mean l) k) l.
Definition Variance (l : list T) : T := CentralMoment 2 l.
Definition Covariance (l : list (T * T)) : T :=
  average (fun p => (fst p - Mean (map fst l)) * (snd p - Mean (map snd l))) l.

(** Unbiased variance estimate: sum of squared deviations over n - 1. *)
Definition SampleVariance (l : list T) : T :=
  total (fun x => power (x - Mean l) 2) l / ofnat K (length l - 1).

(** Weighted versions: the second component is the weight. *)
Definition TotalWeight {A : Type} (l : list (A * T)) : T := total snd l.
Definition waverage {A : Type} (f : A -> T) (l : list (A * T)) : T :=
  total (fun p => snd p * f (fst p)) l / TotalWeight l.
Definition WMean (l : list (T * T)) : T := waverage (fun x => x) l.
Definition WMoment (k : nat) (l : list (T * T)) : T := waverage (fun x => power x k) l.
Definition WCentralMoment (k : nat) (l : list (T * T)) : T :=
  waverage (fun x => power (x - WMean l) k) l.
Definition WVariance (l : list (T * T)) : T := WCentralMoment 2 l.
Definition WCovariance (l : list (T * T * T)) : T :=
  waverage (fun p => (fst p - waverage fst l) * (snd p - waverage snd l)) l.

(** Every non-empty prefix of the history has a non-zero total weight. *)
Definition PrefixWeightsNonzero {A : Type} (l : list (A * T)) : Prop :=
  forall p q, l = p ++ q -> p <> [] -> TotalWeight p <> 0.

(** Ways of assigning weights. *)
Definition unit_weights {A : Type} (l : list A) : list (A * T) := map (fun x => (x, 1)) l.
Definition scale_weights {A : Type} (c : T) (l : list (A * T)) : list (A * T) :=
  map (fun p => (fst p, c * snd p)) l.
Definition nat_weights {A : Type} (l : list (A * nat)) : list (A * T) :=
  map (fun p => (fst p, ofnat K (snd p))) l.
End Spec.

(** The history in which a sample of natural weight [k] is pushed [k] times. *)
Definition replicated {A : Type} (l : list (A * nat)) : list A :=
  flat_map (fun p => repeat (fst p) (snd p)) l.

Arguments total K {A} f l.
Arguments average K {A} f l.
Arguments TotalWeight K {A} l.
Arguments waverage K {A} f l.
Arguments PrefixWeightsNonzero K {A} l.
Arguments unit_weights K {A} l.
Arguments scale_weights K {A} c l.
Arguments nat_weights K {A} l.
