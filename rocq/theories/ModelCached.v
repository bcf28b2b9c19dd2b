(** Model of with_cached_result (framework/accumulators/droppable_accumulator.hpp
    184-257) inside droppable_accumulator_base (107-162): an accumulator that stores its
    result when it is dropped.

    [AState], [Args], [Res] and the functions are the wrapped accumulator: [aop] its
    operator(), [ares] its result().  The cache is raw storage (aligned_storage, 256):
    [None] until an object has been placed in it.  Whether the cache holds a result is
    not recorded anywhere: has_result() (249-254) asks the derived class whether the
    reference count is zero. *)

From Coq Require Import List ZArith Bool.
Import ListNotations.

(** The end of a member function: normally, by a failed BOOST_ASSERT, or with undefined
    behaviour (here: using the raw cache as an object). *)
Inductive done (A : Type) : Type := Fine (a : A) | Asserted | Undefined.
Arguments Fine {A} _.
Arguments Asserted {A}.
Arguments Undefined {A}.

Definition next {A A'} (m : done A) (k : A -> done A') : done A' :=
  match m with Fine a => k a | Asserted => Asserted | Undefined => Undefined end.

Section Cached.
Context {AState Args Res : Type}.
Variable ainit : AState.
Variable aop : AState -> Args -> AState.
Variable ares : AState -> Args -> Res.

Record cached : Type := mkCached {
  base : AState;
  ref_count : Z;        (* 161 *)
  cache : option Res    (* 256 *)
}.

(** Constructors 190-195 and 115-119. *)
Definition construct_cached : cached := mkCached ainit 0 None.

(** is_dropped 154-157, has_result 249-254. *)
Definition has_result (c : cached) : bool := Z.eqb (ref_count c) 0.

(** get 244-247. *)
Definition get (c : cached) : done Res :=
  match cache c with Some r => Fine r | None => Undefined end.

(** The copy constructors 197-205 and 121-125. *)
Definition copy_cached (that : cached) : done cached :=
  if has_result that
  then next (get that) (fun r => Fine (mkCached (base that) (ref_count that) (Some r)))
  else Fine (mkCached (base that) (ref_count that) None).

(** operator() 127-134: [aop] of the wrapped accumulator unless dropped. *)
Definition operate_cached (c : cached) (x : Args) : cached :=
  if has_result c then c else mkCached (aop (base c) x) (ref_count c) (cache c).

(** add_ref 136-140. *)
Definition add_ref_cached (c : cached) : cached := mkCached (base c) (ref_count c + 1) (cache c).

(** on_drop 219-225: called while the count is still 1, so the assertion holds. *)
Definition on_drop (c : cached) (x : Args) : done cached :=
  if has_result c then Asserted else Fine (mkCached (base c) (ref_count c) (Some (ares (base c) x))).

(** drop 142-152; [checked]: assertions are compiled in. *)
Definition drop_cached (checked : bool) (c : cached) (x : Args) : done cached :=
  if checked && negb (0 <? ref_count c)%Z then Asserted
  else
    next (if Z.eqb (ref_count c) 1 then on_drop c x else Fine c)
      (fun c' => Fine (mkCached (base c') (ref_count c' - 1) (cache c'))).

(** result 227-231. *)
Definition result_cached (c : cached) (x : Args) : done Res :=
  if has_result c then get c else Fine (ares (base c) x).

(** The destructor 207-218.  It runs after that of droppable_accumulator_base, contrary to
    its comment, and reads ref_count_ out of its lifetime; the model takes the value that
    was there last. *)
Definition destroy_cached (c : cached) : done unit :=
  if has_result c then next (get c) (fun _ => Fine tt) else Fine tt.

(** What can happen to one accumulator of a set. *)
Inductive use : Type :=
| AddRef               (* from the constructor of the set *)
| Sample (x : Args)    (* a sample *)
| Release (x : Args)   (* drop<>() of something that holds a reference *)
| Copied.              (* the set is copied; the original is forgotten *)

Definition used (checked : bool) (m : done cached) (u : use) : done cached :=
  next m (fun c =>
    match u with
    | AddRef => Fine (add_ref_cached c)
    | Sample x => Fine (operate_cached c x)
    | Release x => drop_cached checked c x
    | Copied => copy_cached c
    end).

Definition uses (checked : bool) (us : list use) : done cached :=
  fold_left (used checked) us (Fine construct_cached).

(** result() after that. *)
Definition reported (checked : bool) (us : list use) (x : Args) : done Res :=
  next (uses checked us) (fun c => result_cached c x).

End Cached.

Arguments cached _ _ : clear implicits.
Arguments use _ : clear implicits.
Arguments AddRef {Args}.
Arguments Copied {Args}.
