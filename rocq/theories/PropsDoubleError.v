(** C90: errors of means of doubles. *)
From Coq Require Import ZArith List Bool Reals.
From Verif Require Import Num ModelBasic ModelDouble SpecStats SpecDouble SpecDoubleVariance SpecDoubleError ProofDouble2 ProofDoubleError.
Import ListNotations.
Local Open Scope R_scope.

(** error_of<immediate_mean> of up to 2^40 samples of at most [b] in magnitude is finite and never off by more than
    [b / 2^21] from the exact standard error [e], and by no more than [520 u b^2 / e] when that is smaller. *)
Theorem C90_immediate : forall (b : R) (xs : list double), Few xs -> Moderate b -> (2 <= length xs)%nat -> Within b xs ->
  finite (error_of_immediate_mean xs) /\ Rabs (val (error_of_immediate_mean xs) - ExactError xs) <= b / 2 ^ 21 /\
  Rabs (val (error_of_immediate_mean xs) - ExactError xs) * ExactError xs <= 520 * roundoff * (b * b).
Proof. exact error_of_mean_accurate. Qed.
Print Assumptions C90_immediate.

(** So error_of<mean>, from the lazy variance, as long as the variance of the samples is well above the rounding
    errors; otherwise it may be the root of a negative number (C55). *)
Theorem C90_lazy : forall (b : R) (xs : list double), Few xs -> Moderate b -> (2 <= length xs)%nat -> Within b xs ->
  40 * INR (length xs) * roundoff * (b * b) <= ExactVariance xs ->
  exists r, error_of_mean_run DoubleN d_sqrt xs = Some r /\ finite r /\
    Rabs (val r - ExactError xs) <= b / 2 ^ 21 /\ Rabs (val r - ExactError xs) * ExactError xs <= 520 * roundoff * (b * b).
Proof. exact error_of_lazy_mean_accurate. Qed.
Print Assumptions C90_lazy.
Example C90_ex : let xs := [dbl 7 0; dbl (-3) 0; dbl 7 0] in
  Few xs /\ Moderate 8 /\ (2 <= length xs)%nat /\ Within 8 xs /\ 40 * INR (length xs) * roundoff * (8 * 8) <= ExactVariance xs /\ ExactVariance xs = 200 / 9.
Proof. exact sevens_ok. Qed.
