(** Specification side of the feature framework: what a sensible library of
    features is, what a request asks for, and what it means to read, to come
    before, to be needed.  Nothing here mentions maps, sorting, bases or
    reference counts. *)

From Coq Require Import List ZArith Bool Permutation.
From Verif Require Import ModelFramework.
Import ListNotations.

(** A library of features: types can be compared, feature_of is idempotent, the
    weighted version of a tag provides the same feature (the static assertion of
    depends_on.hpp 288-294), and dependencies are acyclic, even when an
    implementation of a feature is exchanged for another one of the same
    feature. *)
Record LibLaws (L : Lib) : Prop := mkLaws {
  ll_eqb : forall a b, tag_eqb L a b = true <-> a = b;
  ll_feature : forall t, feature L (feature L t) = feature L t;
  ll_weighted : forall t, feature L (weighted L t) = feature L t;
  ll_depth : forall t d, In d (deps L t) ->
      (depth L (feature L d) < depth L (feature L t))%nat
}.

Section Spec.
Variable L : Lib.

(** mpl::map may be enumerated in any order. *)
Definition Enumeration (enum : fmap L -> fmap L) : Prop :=
  forall m, Permutation (enum m) m.

(** All tags the user wrote, in order, nested sequences included. *)
Definition listed (fs : list (request L)) : list (ftag L) :=
  flat_map (fun r => match r with One t => [t] | Many ts => ts end) fs.

(** The tags the request calls for: what the user listed, and what any of these
    declares as a dependency, transitively; each in its weighted version if the
    set has weights. *)
Inductive Called (W : bool) (fs : list (request L)) : ftag L -> Prop :=
| called_listed : forall t, In t (listed fs) -> Called W fs (as_listed L W t)
| called_dep : forall t d, Called W fs t -> In d (fdeps L t) ->
    Called W fs (as_listed L W d).

(** Accumulator [a] reads accumulator [b]: [b] provides a feature that [a]'s tag
    lists among its dependencies. *)
Definition Reads (a b : ftag L) : Prop :=
  In (ffeature L b) (map (feature L) (deps L (fst a))).

(** [x] stands before [y] in [l]. *)
Definition Before {A} (x y : A) (l : list A) : Prop :=
  exists l1 l2 l3, l = l1 ++ x :: l2 ++ y :: l3.

(** The order a set must be visited in. *)
Definition WellOrdered (ts : list (ftag L)) : Prop :=
  forall a b, In a ts -> In b ts -> Reads a b -> Before b a ts.

(** [Needs ts a b]: inside the set [ts], [a] needs [b]: it is [b], or reads an
    accumulator that needs [b]. *)
Inductive Needs (ts : list (ftag L)) : ftag L -> ftag L -> Prop :=
| needs_self : forall a, In a ts -> Needs ts a a
| needs_read : forall a c b, In a ts -> In c ts -> Reads a c -> Needs ts c b ->
    Needs ts a b.

(** What the code of the accumulators looks at: [consults t] are the features that
    operator() and result() of [t]'s accumulator extract from the set, [on_push t]
    says whether operator() extracts anything at all. *)
Definition ReadsOnly (B : Behaviour L) (consults : tag L -> list (tag L))
    (on_push : tag L -> bool) : Prop :=
  (forall t r1 r2 x s,
     (on_push t = true ->
      forall d, In d (consults t) -> r1 (feature L d) = r2 (feature L d)) ->
     step L B t r1 x s = step L B t r2 x s) /\
  (forall t r1 r2 s,
     (forall d, In d (consults t) -> r1 (feature L d) = r2 (feature L d)) ->
     result L B t r1 s = result L B t r2 s).

(** Everything an accumulator of the set consults is provided by another one that
    it needs. *)
Definition Supplied (consults : tag L -> list (tag L)) (ts : list (ftag L)) : Prop :=
  forall a d, In a ts -> In d (consults (fst a)) ->
    exists u, Needs ts a u /\ u <> a /\ ffeature L u = feature L d.

(** The order that matters when a sample is pushed: an accumulator whose operator()
    consults others comes after all that it needs, directly or indirectly (the
    result of a direct dependency may be computed from an indirect one). *)
Definition PushOrdered (on_push : tag L -> bool) (ts : list (ftag L)) : Prop :=
  forall a b, In a ts -> on_push (fst a) = true -> Needs ts a b -> b <> a ->
    Before b a ts.

(** ** Histories of samples and drops *)
Variable B : Behaviour L.

(** The samples of a history, the features dropped in it. *)
Definition samples (es : list (event L B)) : list (Sample L B) :=
  flat_map (fun e => match e with Push _ _ x => [x] | Drop _ _ _ => [] end) es.

Definition dropped_tags (es : list (event L B)) : list (tag L) :=
  flat_map (fun e => match e with Push _ _ _ => [] | Drop _ _ t => [t] end) es.

Variable fs : list (request L).
Variable ts : list (ftag L).

(** The features dropped are different, and each was requested as droppable. *)
Definition LegalDrops (ds : list (tag L)) : Prop :=
  NoDup (map (feature L) ds) /\
  forall t, In t ds -> exists r, In r ts /\ requests L fs r = true /\ snd r = true /\
                                 ffeature L r = feature L t.

(** drop<t>() consults the abstract feature's list of dependencies; the provider
    [r] of that feature has its own.  [Released]: every accumulator the former
    list names is also named by the latter; [Releasing]: the converse. *)
Definition Released (r : ftag L) : Prop :=
  forall u, In u ts -> In (ffeature L u) (map (feature L) (deps L (ffeature L r))) -> Reads r u.

Definition Releasing (r : ftag L) : Prop :=
  forall u, In u ts -> Reads r u -> In (ffeature L u) (map (feature L) (deps L (ffeature L r))).

(** Still wanted: requested and not dropped. *)
Definition Live (ds : list (tag L)) (r : ftag L) : Prop :=
  In r ts /\ requests L fs r = true /\ ~ In (ffeature L r) (map (feature L) ds).

End Spec.
