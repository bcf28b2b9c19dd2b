(** How much a set stores.  Only the elements of containers count (vectors, the circular buffer): the other members of an
    accumulator are a number of scalars that its type fixes. *)
From Coq Require Import List Arith.
From Verif Require Import Num ModelRolling ModelDensity ModelPSquare ModelTail ModelFramework ModelLibrary ModelSets ModelRollingSets ModelWhole.
Import ListNotations.

Section Memory.
Variable K : Num.

Definition dens_elements {E : Type} (d : dens K E) : nat :=
  length (de_cache K E d) + length (de_bins K E d) + length (de_pos K E d) + length (de_hist K E d).
Definition marks_elements (m : marks K) : nat := length (mh K m) + length (mp K m) + length (md K m).
(** A tail with its tail_variate and tail_weights accumulators. *)
Definition tail_elements {A V : Type} (s : tail_state A V) : nat :=
  length (tl_indices s) + length (tl_samples s) + list_sum (map (@length V) (tl_variates s)).

(** What one accumulator of a set holds. *)
Definition cell_elements (c : cell K (wcell K)) : nat :=
  match c with
  | CRest (WRoll (RBuf b)) => length b
  | CRest (WDens (Ok d)) => dens_elements d
  | CRest (WWDens (Ok d)) => dens_elements d
  | CRest (WMarks (Ok m)) => marks_elements m
  | CRest (WTail (Ok s)) => tail_elements s
  | _ => 0
  end.

(** What the features of a set allow, given the arguments of its constructor. *)
Definition allowance (A : Args K) (t : ltag) : nat :=
  match t with
  | t_rolling_window_plus1 => a_window K A + 1
  | t_density | t_weighted_density => a_density_cache K A + 3 * (a_density_bins K A + 2)
  | t_p_square_quantile | t_p_square_quantile_for_median
  | t_weighted_p_square_quantile | t_weighted_p_square_quantile_for_median => 15
  | t_p_square_cumulative_distribution | t_weighted_p_square_cumulative_distribution => 3 * (a_cells K A + 1)
  | t_extended_p_square | t_weighted_extended_p_square => 3 * (2 * length (a_probabilities K A) + 3)
  | t_tail _ => 3 * a_tail_cache K A
  | _ => 0
  end.
End Memory.

(** The heap algorithms work in place: they move the elements of a range, and neither add nor remove any. *)
Definition InPlace (H : HeapOps) : Prop :=
  (forall comp l, length (push_heap H comp l) = length l) /\
  (forall comp l, length (pop_heap H comp l) = length l) /\
  (forall comp l, length (sort_heap H comp l) = length l).
