(** Specification vocabulary for rolling windows. *)
From Coq Require Import List Arith.
Import ListNotations.

(** The last [min N (length xs)] elements, in arrival order. *)
Definition LastN {A : Type} (N : nat) (xs : list A) : list A := skipn (length xs - N) xs.
