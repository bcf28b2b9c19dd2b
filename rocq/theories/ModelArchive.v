(** Model of what serialize() members write and read.

    An archive of Boost.Serialization (not in the repository) is modelled by its contract: it is a
    sequence of items; [ar & x] on a saving archive appends the items of [x], on a loading one it reads
    as many items and overwrites [x].  A std::vector is written as its size and its elements. *)
From Coq Require Import List Bool Arith.
From Verif Require Import Num.
Import ListNotations.

Section Archive.
Variable T : Type.       (* the numbers *)

Inductive item := INat (n : nat) | IBool (b : bool) | INum (x : T) | INaN.

(** How a type is written and read. *)
Record codec (A : Type) := mkCodec {
  enc : A -> list item;
  dec : list item -> option (A * list item)
}.
Arguments enc {A}. Arguments dec {A}.

Definition c_nat : codec nat :=
  mkCodec nat (fun n => [INat n]) (fun ar => match ar with INat n :: r => Some (n, r) | _ => None end).
Definition c_bool : codec bool :=
  mkCodec bool (fun b => [IBool b]) (fun ar => match ar with IBool b :: r => Some (b, r) | _ => None end).
Definition c_num : codec T :=
  mkCodec T (fun x => [INum x]) (fun ar => match ar with INum x :: r => Some (x, r) | _ => None end).
(** a floating-point member that may hold a NaN *)
Definition c_float : codec (option T) :=
  mkCodec (option T) (fun o => match o with Some x => [INum x] | None => [INaN] end)
    (fun ar => match ar with INum x :: r => Some (Some x, r) | INaN :: r => Some (None, r) | _ => None end).
Definition c_unit : codec unit := mkCodec unit (fun _ => []) (fun ar => Some (tt, ar)).

Section Combine.
Variables A B : Type.
Variable ca : codec A.
Variable cb : codec B.
(** ar & a; ar & b; *)
Definition c_pair : codec (A * B) :=
  mkCodec (A * B) (fun p => enc ca (fst p) ++ enc cb (snd p))
    (fun ar => match dec ca ar with
               | Some (a, r) => match dec cb r with Some (b, r') => Some ((a, b), r') | None => None end
               | None => None
               end).
Fixpoint dec_many (n : nat) (ar : list item) : option (list A * list item) :=
  match n with
  | O => Some ([], ar)
  | S n => match dec ca ar with
           | Some (a, r) => match dec_many n r with Some (l, r') => Some (a :: l, r') | None => None end
           | None => None
           end
  end.
Definition c_list : codec (list A) :=
  mkCodec (list A) (fun l => INat (length l) :: flat_map (enc ca) l)
    (fun ar => match ar with INat n :: r => dec_many n r | _ => None end).
(** the members [f s] of a larger object are written; reading them gives [g fresh]. *)
Definition c_map (f : B -> A) (g : A -> B) : codec B :=
  mkCodec B (fun b => enc ca (f b))
    (fun ar => match dec ca ar with Some (a, r) => Some (g a, r) | None => None end).
End Combine.
End Archive.

Arguments INat {T} _. Arguments IBool {T} _. Arguments INum {T} _. Arguments INaN {T}.
Arguments codec T A : clear implicits.
Arguments mkCodec {T A} _ _.
Arguments enc {T A}. Arguments dec {T A}.
Arguments c_nat {T}. Arguments c_bool {T}. Arguments c_num {T}. Arguments c_float {T}. Arguments c_unit {T}.
Arguments c_pair {T A B}. Arguments c_list {T A}. Arguments dec_many {T A}. Arguments c_map {T A B}.

(** Loading a whole archive. *)
Definition load_all {T A : Type} (c : codec T A) (ar : list (item T)) : option A :=
  match dec c ar with Some (a, []) => Some a | _ => None end.
