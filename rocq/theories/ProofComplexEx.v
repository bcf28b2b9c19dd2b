(** Concrete complex samples. *)
From Coq Require Import List Arith ZArith QArith Qcanon.
From Verif Require Import Num NumFacts SpecStats SpecComplex ModelBasic ModelRolling ModelNumeric ModelComplex ProofComplex.
Import ListNotations.
Open Scope Qc_scope.

Local Notation "[[ q ]]" := (Q2Qc q).
(** 1 + 2i, -3 + i/2, 4i *)
Definition ex_complex : list (Qc * Qc) := [ ([[1]], [[2]]); ([[-3]], [[1#2]]); ([[0]], [[4]]) ].
Definition ex_complex_weighted : list (Qc * Qc * Qc) :=
  [ ([[1]], [[2]], [[1#2]]); ([[-3]], [[1#2]], [[3]]); ([[0]], [[4]], [[1]]) ].
Definition shown (z : Qc * Qc) : Q * Q := (this (fst z), this (snd z)).
(** 1, i, -1, -i *)
Definition roots : list (Qc * Qc) := [ ([[1]], [[0]]); ([[0]], [[1]]); ([[-1]], [[0]]); ([[0]], [[-1]]) ].
(** i, -i *)
Definition conjugates : list (Qc * Qc) := [ ([[0]], [[1]]); ([[0]], [[-1]]) ].

Lemma shown_inj (z : Qc * Qc) (a b : Q) : shown z = (this [[a]], this [[b]]) -> z = ([[a]], [[b]]).
Proof.
  destruct z as [x y]. unfold shown. cbn [fst snd]. intros E. injection E as E1 E2. f_equal; apply Qc_is_canon.
  - rewrite E1. apply Qeq_refl.
  - rewrite E2. apply Qeq_refl.
Qed.
Lemma roots_variance : cvar_variance QcN (cvar_run QcN (0, 0) roots) = ([[0]], [[0]]).
Proof. apply shown_inj. vm_compute. reflexivity. Qed.
Lemma conjugates_variance : cvar_variance QcN (cvar_run QcN (0, 0) conjugates) = ([[-1]], [[0]]).
Proof. apply shown_inj. vm_compute. reflexivity. Qed.
Lemma spread_zero : exists xs : list (Qc * Qc), In ([[1]], [[0]]) xs /\ In ([[-1]], [[0]]) xs
  /\ cvar_variance QcN (cvar_run QcN (0, 0) xs) = (0, 0) /\ clazy_variance_run QcN (0, 0) xs = Some (0, 0).
Proof.
  exists roots. split; [now left|]. split; [right; right; now left|].
  split; [exact roots_variance|]. pose proof (clazy_variance_spec QcN QcN_ordered roots) as H.
  change (zero QcN, zero QcN) with ((0, 0) : Qc * Qc) in H. rewrite H by discriminate. f_equal.
  rewrite <- (cvar_spec QcN QcN_ordered roots) by discriminate. exact roots_variance.
Qed.
Lemma spread_negative : exists xs : list (Qc * Qc), xs <> []
  /\ fst (cvar_variance QcN (cvar_run QcN (0, 0) xs)) < 0 /\ snd (cvar_variance QcN (cvar_run QcN (0, 0) xs)) = 0.
Proof.
  exists conjugates. split; [discriminate|]. rewrite conjugates_variance. split; reflexivity.
Qed.
