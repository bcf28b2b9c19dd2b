(** Specification side of programs with several sets: what has happened to a set, told backwards. *)
From Coq Require Import List Bool Arith.
From Verif Require Import ModelFramework ModelWorld.
Import ListNotations.

Section Story.
Variable L : Lib.
Variable B : Behaviour L.

Definition creates (e : statement L B) : bool :=
  match e with Create _ _ | CreateReferring _ _ _ | CopyOf _ => true | _ => false end.
(** The number of objects after a program; the next one gets this number. *)
Definition objects (es : list (statement L B)) : nat := length (filter creates es).

(** The life of a set: how it was made, what it refers to if anything, the samples and drops since. *)
Record life : Type := mkLife {
  weighted : bool;
  features : list (request L);
  referent : option nat;
  events : list (event L B)
}.
Definition more (e : event L B) (o : option life) : option life :=
  match o with
  | Some l => Some (mkLife (weighted l) (features l) (referent l) (events l ++ [e]))
  | None => None
  end.

(** The life of object [k], the last statement first: a copy has the life of the original up to that moment, an assigned
    object that of the right hand side; what happens to other objects does not matter. *)
Fixpoint life_of (k : nat) (latest : list (statement L B)) : option life :=
  match latest with
  | [] => None
  | e :: r =>
      match e with
      | Create W fs => if Nat.eqb k (objects r) then Some (mkLife W fs None []) else life_of k r
      | CreateReferring W fs a => if Nat.eqb k (objects r) then Some (mkLife W fs (Some a) []) else life_of k r
      | CopyOf i => if Nat.eqb k (objects r) then life_of i r else life_of k r
      | AssignTo i j => if Nat.eqb k i then life_of j r else life_of k r
      | PushTo i x => if Nat.eqb k i then more (Push L B x) (life_of k r) else life_of k r
      | DropIn i t => if Nat.eqb k i then more (Drop L B t) (life_of k r) else life_of k r
      | Destroy i => if Nat.eqb k i then None else life_of k r
      end
  end.

(** The statements that act on object [k]. *)
Definition Touches (k : nat) (e : statement L B) : Prop :=
  match e with
  | Create _ _ | CreateReferring _ _ _ | CopyOf _ => False
  | AssignTo i _ | PushTo i _ | DropIn i _ | Destroy i => i = k
  end.
(** The statements that act on no object but [k], and make none. *)
Definition OnlyTouches (k : nat) (e : statement L B) : Prop :=
  match e with PushTo i _ | DropIn i _ => i = k | _ => False end.
(** The same statement for another object. *)
Definition instead (k : nat) (e : statement L B) : statement L B :=
  match e with
  | PushTo _ x => PushTo k x
  | DropIn _ t => DropIn k t
  | e => e
  end.
End Story.
