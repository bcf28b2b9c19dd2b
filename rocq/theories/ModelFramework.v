(** Model of the feature framework: how a list of requested features becomes an
    ordered list of accumulators, how samples are distributed, how results are
    extracted, how accumulators are reference counted and dropped.

    Sources (all below include/boost/accumulators/framework/):
    depends_on.hpp, accumulator_set.hpp,
    accumulators/droppable_accumulator.hpp, accumulator_base.hpp.

    The C++ code works on types at compile time; the model works on values.
    A library of features is a record [Lib]: its tags, and the three
    metafunctions feature_of, as_weighted_feature and [dependencies].
    as_feature (depends_on.hpp 50-54) only rewrites spellings such as
    mean(immediate); the model starts from the rewritten tags.

    Template recursion over the acyclic graph of dependencies is written as
    recursion on a number; [depth], the length of the longest chain below a
    feature, is the starting value.  The laws in SpecFramework say what makes
    that value large enough, and the proofs never rely on running out. *)

From Coq Require Import List ZArith Bool.
Import ListNotations.

Record Lib : Type := mkLib {
  tag : Type;
  tag_eqb : tag -> tag -> bool;     (* is_same *)
  feature : tag -> tag;             (* feature_of, depends_on.hpp 66-71 *)
  deps : tag -> list tag;           (* Feature::dependencies, depends_on.hpp 166-172 *)
  weighted : tag -> tag;            (* as_weighted_feature, depends_on.hpp 58-63 *)
  depth : tag -> nat                (* recursion bound, not in the C++ *)
}.

Section Resolution.
Variable L : Lib.
Local Notation tag := (tag L).

Definition mem (t : tag) (l : list tag) : bool := existsb (tag_eqb L t) l.

(** A tag as it appears in a set: the plain tag, and whether it is wrapped in
    tag::droppable<> (droppable_accumulator.hpp 272-300).  droppable<droppable<F>>,
    which as_droppable collapses (265-269), is identified with droppable<F>. *)
Definition ftag : Type := (tag * bool)%type.

(** feature_of<droppable<F>> is feature_of<F>: droppable_accumulator.hpp 318-323. *)
Definition ffeature (t : ftag) : tag := feature L (fst t).

(** droppable<F>::dependencies are F's, each made droppable:
    droppable_accumulator.hpp 281-286. *)
Definition fdeps (t : ftag) : list ftag := map (fun d => (d, snd t)) (deps L (fst t)).

(** as_weighted_feature<droppable<F>>: droppable_accumulator.hpp 311-315;
    as_feature_list, depends_on.hpp 299-311: with a void weight type the tag is
    taken as it is, otherwise it is replaced by its weighted version.  The static
    assertion of checked_as_weighted_feature (288-294) is a law of the library
    (SpecFramework). *)
Definition as_listed (W : bool) (t : ftag) : ftag :=
  if W then (weighted L (fst t), snd t) else t.

(** ** is_dependent_on, depends_on.hpp 97-173 *)

(** collect_abstract_features 121-131. *)
Fixpoint collect (n : nat) (ts : list tag) : list tag :=
  match n with
  | O => []
  | S n' => flat_map (fun d => feature L d :: collect n' (deps L d)) ts
  end.

(** The features a tag derives from: depends_on_base 133-151 inherits from every
    collected abstract feature (unless it is a base already), and each of these
    in turn derives from its own.  (A tag written as struct rolling_mean :
    immediate_rolling_mean also derives from a tag that is nobody's abstract
    feature; that base is left out, it never decides anything.) *)
Fixpoint bases (n : nat) (t : tag) : list tag :=
  match n with
  | O => []
  | S n' => flat_map (fun f => f :: bases n' f) (collect (S (depth L (feature L t))) (deps L t))
  end.

(** is_dependent_on<A, B>, depends_on.hpp 97-103: feature_of<B> is a proper base
    of A, both stripped of droppable<> (undroppable 83-93). *)
Definition dependent (a b : ftag) : bool :=
  mem (ffeature b) (bases (S (depth L (ffeature a))) (fst a)).

(** ** make_accumulator_tuple, depends_on.hpp 373-455 *)

(** mpl::map from abstract features to tags; insertion order is kept, but see
    [enum] below. *)
Definition fmap : Type := list (tag * ftag).

Definition has_key (k : tag) (m : fmap) : bool := mem k (map fst m).

(** insert_feature 373-381: the first insertion wins. *)
Definition insert_feature (m : fmap) (t : ftag) : fmap :=
  if has_key (ffeature t) m then m else m ++ [(ffeature t, t)].

(** insert_dependencies 383-395: insert every declared dependency, then go on
    with that declared tag, even when the feature was provided already. *)
Fixpoint insert_dependencies (n : nat) (W : bool) (m : fmap) (t : ftag) : fmap :=
  match n with
  | O => m
  | S n' =>
      fold_left
        (fun m' d => insert_dependencies n' W (insert_feature m' d) d)
        (map (as_listed W) (fdeps t)) m
  end.

(** An element of the Features sequence: a feature, or a nested sequence of
    features (the mpl::is_sequence branch, 415-419). *)
Inductive request : Type :=
| One : ftag -> request
| Many : list ftag -> request.

(** insert_sequence 397-405. *)
Definition insert_sequence (W : bool) (m : fmap) (ts : list ftag) : fmap :=
  fold_left (fun m' t => insert_feature m' (as_listed W t)) ts m.

(** make_accumulator_tuple::feature_map 411-421. *)
Definition requested_map (W : bool) (fs : list request) : fmap :=
  fold_left
    (fun m r => match r with
                | One t => insert_feature m (as_listed W t)
                | Many ts => insert_sequence W m ts
                end) fs [].

(** feature_map_with_dependencies 424-430.  [m1] is the order in which mpl::fold
    enumerates [m]. *)
Definition add_dependencies (W : bool) (m1 m : fmap) : fmap :=
  fold_left
    (fun m' e => insert_dependencies (S (depth L (ffeature (snd e)))) W m' (snd e)) m1 m.

(** mpl::sort (Boost.MPL, aux_/sort_impl.hpp; not in the repository): quicksort
    with the first element as pivot; what the predicate puts before the pivot goes
    left, everything else right.  The predicate is_dependent_on<_2, _1> (444-447)
    puts x before y when y depends on x. *)
Fixpoint quick_sort (n : nat) (l : list ftag) : list ftag :=
  match n, l with
  | S n', p :: r =>
      let ab := partition (fun x => dependent p x) r in
      quick_sort n' (fst ab) ++ p :: quick_sort n' (snd ab)
  | _, _ => []
  end.

(** make_accumulator_tuple 407-455 as a whole.  [enum] is the order in which the
    mpl::map is enumerated, a matter of Boost.MPL: theorems hold for every one. *)
Definition make_tuple (enum : fmap -> fmap) (W : bool) (fs : list request) : list ftag :=
  let m := requested_map W fs in
  let v := map snd (enum (add_dependencies W (enum m) m)) in
  quick_sort (length v) v.

(** contains_feature_of<Features, Accumulator>, depends_on.hpp 188-202, for the
    user's Features.  A nested sequence is compared as a whole with a feature, so
    it contains nothing. *)
Definition requests (fs : list request) (t : ftag) : bool :=
  existsb (fun r => match r with
                    | One u => tag_eqb L (ffeature t) (ffeature u)
                    | Many _ => false
                    end) fs.

(** contains_feature_of_<dependencies> for a list of tags. *)
Definition provides_one_of (ds : list tag) (t : ftag) : bool :=
  mem (ffeature t) (map (feature L) ds).

End Resolution.

Arguments One {L} _.
Arguments Many {L} _.

(** ** accumulator_set *)

(** What the accumulators of a library do.  [step t read x s] is operator() of
    the accumulator implementing tag [t] in state [s] on argument pack [x];
    [read f] is the result of feature [f] extracted from the set it lives in.
    [result t read s] is result().  [absent] is the value of reading a feature that
    is not in the set: a compilation error in C++. *)
Record Behaviour (L : Lib) : Type := mkBehaviour {
  State : Type;
  Sample : Type;
  Result : Type;
  absent : Result;
  init : tag L -> State;
  step : tag L -> (tag L -> Result) -> Sample -> State -> State;
  result : tag L -> (tag L -> Result) -> State -> Result
}.

Section AccumulatorSet.
Variable L : Lib.
Variable B : Behaviour L.

(** One accumulator of the set: accumulator_wrapper (depends_on.hpp 313-336)
    around a plain accumulator or a droppable_accumulator_base
    (droppable_accumulator.hpp 107-162).  [refs] is ref_count_, meaningless for a
    plain accumulator; int overflow is not modelled.  [tripped] records that
    BOOST_ASSERT(0 < ref_count_) failed (145). *)
Record acc : Type := mkAcc {
  who : ftag L;
  refs : Z;
  tripped : bool;
  state : State L B
}.

Definition accset : Type := list acc.

Definition droppable (a : acc) : bool := snd (who a).

(** is_dropped 154-157; a plain accumulator never is. *)
Definition is_dropped (a : acc) : bool := droppable a && Z.eqb (refs a) 0.

(** accumulator_set::apply / extract, accumulator_set.hpp 393-420: the first
    accumulator whose feature matches (matches_feature, depends_on.hpp 176-186);
    result() reads other features through the set in turn. *)
Definition find (s : accset) (f : tag L) : option acc :=
  List.find (fun a => tag_eqb L f (ffeature L (who a))) s.

Fixpoint extract (n : nat) (s : accset) (f : tag L) : Result L B :=
  match find s f with
  | None => absent L B
  | Some a =>
      match n with
      | O => absent L B
      | S n' => result L B (fst (who a)) (extract n' s) (state a)
      end
  end.

(** What an accumulator reads through args[accumulator]. *)
Definition read (s : accset) (f : tag L) : Result L B := extract (S (depth L f)) s f.

(** operator() of one accumulator: a droppable one skips the sample when it has
    been dropped, droppable_accumulator.hpp 127-133. *)
Definition operate (s : accset) (x : Sample L B) (a : acc) : acc :=
  if is_dropped a then a
  else mkAcc (who a) (refs a) (tripped a)
             (step L B (fst (who a)) (read s) x (state a)).

(** accumulator_set::operator(), 308-378: visit the accumulators in order; each
    sees the earlier ones updated and the later ones not yet. *)
Fixpoint visit (x : Sample L B) (done todo : accset) : accset :=
  match todo with
  | [] => done
  | a :: r => visit x (done ++ [operate (done ++ a :: r) x a]) r
  end.

Definition push (s : accset) (x : Sample L B) : accset := visit x [] s.

Definition pushes (s : accset) (xs : list (Sample L B)) : accset := fold_left push xs s.

(** add_ref / drop on the one accumulator providing feature [f]; no-ops for plain
    accumulators (accumulator_base.hpp 47-59, droppable_accumulator.hpp 135-152). *)
Definition add_ref1 (f : tag L) (s : accset) : accset :=
  map (fun a => if tag_eqb L f (ffeature L (who a)) && droppable a
                then mkAcc (who a) (refs a + 1) (tripped a) (state a) else a) s.

Definition drop1 (f : tag L) (s : accset) : accset :=
  map (fun a => if tag_eqb L f (ffeature L (who a)) && droppable a
                then mkAcc (who a) (refs a - 1) (tripped a || negb (Z.ltb 0 (refs a)))
                           (state a)
                else a) s.

(** add_ref_visitor 27-59: the accumulator, then everything in the set that its
    own tag depends on, also below a plain accumulator. *)
Fixpoint add_ref (n : nat) (t : ftag L) (s : accset) : accset :=
  match n with
  | O => s
  | S n' =>
      fold_left (fun s' u => add_ref n' u s')
        (filter (provides_one_of L (deps L (fst t))) (map who s))
        (add_ref1 (ffeature L t) s)
  end.

(** drop_visitor 68-97: the same for drop, but it stops at a plain accumulator. *)
Fixpoint drop_ref (n : nat) (t : ftag L) (s : accset) : accset :=
  match n with
  | O => s
  | S n' =>
      if snd t then
        fold_left (fun s' u => drop_ref n' u s')
          (filter (provides_one_of L (deps L (fst t))) (map who s))
          (drop1 (ffeature L t) s)
      else s
  end.

(** The constructor, accumulator_set.hpp 145-157: construct in order, then add_ref
    the accumulators of the features the user listed. *)
Definition construct (enum : fmap L -> fmap L) (W : bool) (fs : list (request L)) : accset :=
  let ts := make_tuple L enum W fs in
  fold_left (fun s t => add_ref (S (depth L (ffeature L t))) t s)
    (filter (requests L fs) ts)
    (map (fun t => mkAcc t 0 false (init L B (fst t))) ts).

(** accumulator_set::drop<Feature>(), 426-445: the accumulator itself, then the
    visitor over what the ABSTRACT feature depends on (the_feature::dependencies).
    That Feature is one of the requested ones is a static assertion (431). *)
Definition drop (t : tag L) (s : accset) : accset :=
  let f := feature L t in
  fold_left (fun s' u => drop_ref (S (depth L (ffeature L u))) u s')
    (filter (provides_one_of L (deps L f)) (map who s))
    (drop1 f s).

(** A history: samples and drops in any order. *)
Inductive event : Type :=
| Push : Sample L B -> event
| Drop : tag L -> event.

Definition handle (s : accset) (e : event) : accset :=
  match e with
  | Push x => push s x
  | Drop t => drop t s
  end.

Definition history (s : accset) (es : list event) : accset := fold_left handle es s.

End AccumulatorSet.
