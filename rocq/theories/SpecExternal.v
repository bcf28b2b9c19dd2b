(** Specification side of external weights and references. *)

From Coq Require Import List Bool Arith.
From Verif Require Import ModelFramework SpecFramework ModelExternal.
Import ListNotations.

(** The value an object has after a history: the last one assigned to it, else the first. *)
Fixpoint current {V X : Type} (v0 : V) (a : nat) (es : list (happening V X)) : V :=
  match es with
  | [] => v0
  | Assign b v :: r => current (if Nat.eqb a b then v else v0) a r
  | Push_sample _ :: r => current v0 a r
  end.

Section Spec.
Variable L : Lib.
Variable B : Behaviour L.
Variable ext : tag L -> bool.
Variable on_push : tag L -> bool.

(** The external accumulators that some accumulator of the set [ts] needs while a sample is
    pushed (rather than when a result is asked for). *)
Definition UsedOnPush (ts : list (ftag L)) (b : ftag L) : Prop :=
  ext (fst b) = true /\ exists a, In a ts /\ on_push (fst a) = true /\ Needs L ts a b /\ b <> a.

(** Some requested feature that is not dropped needs [t]. *)
Definition Kept (fs : list (request L)) (ts : list (ftag L)) (t : ftag L) : Prop :=
  exists r, Live L fs ts [] r /\ Needs L ts r t.

(** The set [ts2] provides every external feature of the set [ts], by the same implementation. *)
Definition Provides (fs ffs : list (request L)) (ts ts2 : list (ftag L)) : Prop :=
  forall t, In t ts -> ext (fst t) = true -> Kept fs ts t /\
    exists t2, Kept ffs ts2 t2 /\ ffeature L t2 = ffeature L t /\
      forall u, Needs L ts t u -> exists u2, Needs L ts2 t2 u2 /\ fst u2 = fst u.

End Spec.
