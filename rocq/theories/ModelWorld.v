(** Model of programs with several accumulator sets: copies, assignments and sets that refer to other sets
    (framework/accumulator_set.hpp 120-300, framework/depends_on.hpp 307-345,
    framework/accumulators/reference_accumulator.hpp, external_accumulator.hpp).

    A set is copied and assigned member by member: accumulator_set declares neither copy constructor nor assignment,
    those of accumulator_wrapper (depends_on.hpp 318-329) and of droppable_accumulator (droppable_accumulator.hpp
    123-127, 177-180) copy the accumulator and the reference count.  A reference accumulator is copied like the rest:
    reference_wrapper (reference_accumulator.hpp 48) goes on referring to the same object. *)
From Coq Require Import List Bool Arith.
From Verif Require Import Num ModelFramework ModelExternal.
Import ListNotations.

Section World.
Variable L : Lib.
Variable B : Behaviour L.
(** The tags that are implemented by external_impl in the sets that have such features. *)
Variable ext : tag L -> bool.
Variable enum : fmap L -> fmap L.

(** An object of the program: a set with accumulators of its own only, or a set whose external features are those of
    the set at the address [a] (simplified: a set referred to has no external features itself). *)
Inductive object : Type :=
| Plain (s : accset L B)
| Referring (s : accset L (ExtB L B ext)) (a : nat).
(** The objects in the order of their creation; [None]: the lifetime has ended. *)
Definition world : Type := list (option object).

Inductive statement : Type :=
| Create (W : bool) (fs : list (request L))
| CreateReferring (W : bool) (fs : list (request L)) (a : nat)
| CopyOf (i : nat)
| AssignTo (i j : nat)
| PushTo (i : nat) (x : Sample L B)
| DropIn (i : nat) (t : tag L)
| Destroy (i : nat).

Definition object_at (w : world) (i : nat) : option object := match nth_error w i with Some o => o | None => None end.
Fixpoint replace (i : nat) (o : option object) (w : world) : world :=
  match w, i with
  | [], _ => []
  | _ :: w, O => o :: w
  | p :: w, S i => p :: replace i o w
  end.
(** What extractor<f>(object a) gives, if object a is a set with accumulators of its own. *)
Definition asked (w : world) (a : nat) : option (tag L -> Result L B) :=
  match object_at w a with Some (Plain s) => Some (read L B s) | _ => None end.

(** One statement.  The use of an object before its creation or after its end is undefined; simplified: so is every
    sample for a set whose referent is dead, also if no accumulator asks for it, and an assignment between a set of
    the one kind and one of the other (which does not compile). *)
Definition exec (w : world) (e : statement) : outcome world :=
  match e with
  | Create W fs => Ok (w ++ [Some (Plain (construct L B enum W fs))])
  | CreateReferring W fs a => Ok (w ++ [Some (Referring (construct L (ExtB L B ext) enum W fs) a)])
  | CopyOf i => match object_at w i with Some o => Ok (w ++ [Some o]) | None => UB end
  | AssignTo i j =>
      match object_at w i, object_at w j with
      | Some (Plain _), Some (Plain s) => Ok (replace i (Some (Plain s)) w)
      | Some (Referring _ _), Some (Referring s a) => Ok (replace i (Some (Referring s a)) w)
      | _, _ => UB
      end
  | PushTo i x =>
      match object_at w i with
      | Some (Plain s) => Ok (replace i (Some (Plain (push L B s x))) w)
      | Some (Referring s a) =>
          match asked w a with
          | Some env => Ok (replace i (Some (Referring (push_with L B ext s (x, env)) a)) w)
          | None => UB
          end
      | None => UB
      end
  | DropIn i t =>
      match object_at w i with
      | Some (Plain s) => Ok (replace i (Some (Plain (drop L B t s))) w)
      | Some (Referring s a) => Ok (replace i (Some (Referring (drop L (ExtB L B ext) t s) a)) w)
      | None => UB
      end
  | Destroy i => match object_at w i with Some _ => Ok (replace i None w) | None => UB end
  end.
Definition execute (es : list statement) (o : outcome world) : outcome world :=
  fold_left (fun o e => match o with Ok w => exec w e | o => o end) es o.

(** extractor<f>(object i), with no named argument (external_accumulator.hpp 43-49). *)
Definition answer (w : world) (i : nat) (f : tag L) : outcome (Result L B) :=
  match object_at w i with
  | Some (Plain s) => Ok (read L B s f)
  | Some (Referring s a) =>
      match asked w a with
      | Some env => Ok (read_with L B ext env s f)
      | None => UB
      end
  | None => UB
  end.
End World.
Arguments Create {L B}. Arguments CreateReferring {L B}. Arguments CopyOf {L B}. Arguments AssignTo {L B}.
Arguments PushTo {L B}. Arguments DropIn {L B}. Arguments Destroy {L B}.
Arguments Plain {L B ext}. Arguments Referring {L B ext}.
