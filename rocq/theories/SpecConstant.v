(** Samples that are all equal. *)
From Coq Require Import List.
Definition AllEqual {A : Type} (c : A) (xs : list A) : Prop := forall x, In x xs -> x = c.
