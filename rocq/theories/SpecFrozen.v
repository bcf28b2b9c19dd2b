(** What "keeps reporting the value it had" means for a feature of a set. *)

From Coq Require Import List ZArith Bool.
From Verif Require Import ModelFramework SpecFramework.
Import ListNotations.

Section Frozen.
Variable L : Lib.
Variable B : Behaviour L.

(** result() of the accumulator of [t] extracts only the features [shows t]. *)
Definition ResultReads (shows : tag L -> list (tag L)) : Prop :=
  forall t r1 r2 s, (forall d, In d (shows t) -> r1 (feature L d) = r2 (feature L d)) ->
    result L B t r1 s = result L B t r2 s.

(** Inside the set [ts], the value reported for [a] is computed from the state of [b]:
    [b] is [a], or the value of a feature that result() of [a] extracts is computed
    from the state of [b]. *)
Inductive ComputedFrom (shows : tag L -> list (tag L)) (ts : list (ftag L)) : ftag L -> ftag L -> Prop :=
| from_self : forall a, In a ts -> ComputedFrom shows ts a a
| from_shown : forall a c d b, In a ts -> In d (shows (fst a)) -> In c ts ->
    ffeature L c = feature L d -> ComputedFrom shows ts c b -> ComputedFrom shows ts a b.

(** The accumulator of [t] has been dropped. *)
Definition Stopped (s : accset L B) (t : ftag L) : Prop :=
  exists a, In a s /\ who L B a = t /\ is_dropped L B a = true.

End Frozen.
