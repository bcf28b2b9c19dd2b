(** Specification of C87: results of two parts of a history, put together. *)
From Coq Require Import List.
From Verif Require Import Num.
Import ListNotations.

Section Together.
Variable K : Num.
Local Notation T := (car K).
Local Notation "x + y" := (add K x y) : num_scope.
Local Notation "x - y" := (sub K x y) : num_scope.
Local Notation "x * y" := (mul K x y) : num_scope.
Local Notation "x / y" := (div K x y) : num_scope.
Local Notation "# n" := (ofnat K n) (at level 2) : num_scope.
Local Open Scope num_scope.

(** Two averages, over [w1] and [w2] samples (or weights). *)
Definition Pooled (w1 a w2 b : T) : T := (w1 * a + w2 * b) / (w1 + w2).

(** Two covariances, if the means of the parts differ by [d] and [e]; the variance is the covariance with itself. *)
Definition PooledCov (w1 a w2 b d e : T) : T :=
  Pooled w1 a w2 b + (w1 * w2) * (d * e) / ((w1 + w2) * (w1 + w2)).
Definition PooledVar (w1 a w2 b d : T) : T := PooledCov w1 a w2 b d d.

(** Third and fourth central moments; [u] and [v] are the variances of the parts, [s] and [t] the third moments. *)
Definition Pooled3 (w1 u s w2 v t d : T) : T :=
  let w := w1 + w2 in
  Pooled w1 s w2 t + (w1 * w2 * (w1 - w2)) * (d * d * d) / (w * w * w) + #3 * d * (w1 * w2) * (v - u) / (w * w).
Definition Pooled4 (w1 u s a w2 v t b d : T) : T :=
  let w := w1 + w2 in
  Pooled w1 a w2 b + (w1 * w2 * (w1 * w1 - w1 * w2 + w2 * w2)) * (d * d * d * d) / (w * w * w * w)
  + #6 * (d * d) * (w1 * w1 * w2 * v + w2 * w2 * w1 * u) / (w * w * w) + #4 * d * (w1 * w2) * (t - s) / (w * w).
End Together.
