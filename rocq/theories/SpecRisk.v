(** Specification of C81: tail statistics as measures of risk. *)
From Coq Require Import List.
From Verif Require Import Num ModelTail SpecTail SpecUnitWeights.
Import ListNotations.

(** The samples of a history. *)
Definition samples {A V : Type} (ops : list (tail_op A V)) : list A := map fst (pushes ops).

(** What is reported after a history, [f] being a statistic of the number of samples and the tail. *)
Definition after (K : Num) (H : HeapOps) (lr : side) (k : nat) (dA : car K) (ops : list (tail_op (car K) unit))
           (f : nat -> list (car K) -> outcome (car K)) : outcome (car K) :=
  match tail_run H (tail_pred K lr) (tail_init k 0 dA tt) ops with
  | Ok s => match tail_result H (tail_pred K lr) s with Ok tl => f (length (samples ops)) tl | NotANumber => NotANumber | UB => UB end
  | NotANumber => NotANumber
  | UB => UB
  end.

(** Two histories of equally many samples, none of the first above its counterpart. *)
Definition Below (K : Num) (xs ys : list (car K)) : Prop := Forall2 (fun x y => leb K x y = true) xs ys.

(** The samples of the third are the sums of the samples of the other two. *)
Definition Sums (K : Num) (xs ys zs : list (car K)) : Prop :=
  length xs = length ys /\ zs = map (fun e => add K (fst e) (snd e)) (combine xs ys).

(** Three outcomes: all undefined, all NaN, or all values so that [R] holds of them. *)
Definition alike3 {A : Type} (R : A -> A -> A -> Prop) (o o' o'' : outcome A) : Prop :=
  match o, o', o'' with
  | Ok a, Ok b, Ok c => R a b c
  | NotANumber, NotANumber, NotANumber => True
  | UB, UB, UB => True
  | _, _, _ => False
  end.

(** The third is no worse than the other two together: not above their sum in the right tail (losses are large),
    not below it in the left tail (losses are small). *)
Definition NoWorse (K : Num) (lr : side) (a b c : car K) : Prop :=
  match lr with Right => leb K c (add K a b) = true | Left => leb K (add K a b) c = true end.
