(** The accumulators of the whole library read only what they consult. *)

From Coq Require Import List Bool Arith Lia Field.
From Verif Require Import Num NumFacts ModelBasic SpecStats ProofBasic.
From Verif Require Import ModelMinMax ModelRolling ModelDensity ModelPSquare ModelTail ModelPot.
From Verif Require Import ModelFramework SpecFramework ProofFramework ProofFrameworkRef ProofFrameworkRun.
From Verif Require Import ModelLibrary ModelSets SpecSets ProofLibrary ProofSets ProofSetsTop.
From Verif Require Import ModelRollingSets ModelWhole SpecWhole.
Import ListNotations.

(** ** Only what is consulted is read *)
Lemma whole_reads_only : forall K A, RestReadsOnly (WholeRest K A).
Proof.
  intros K A; split.
  - intros t r1 r2 x s H.
    assert (E : lon_push t = true -> forall f, In f (map lfeature (lconsults t)) -> r1 f = r2 f).
    { intros Hp f Hf; apply in_map_iff in Hf; destruct Hf as [d [<- Hd]]; now apply H. }
    destruct t, s; cbn; try reflexivity;
    try (destruct c; cbn; try reflexivity);
    try (specialize (E eq_refl); cbn in E;
         repeat match goal with |- context [r1 ?f] => rewrite (E f) by tauto end; reflexivity).
  - intros t r1 r2 s H.
    assert (E : forall f, In f (map lfeature (lconsults t)) -> r1 f = r2 f).
    { intros f Hf; apply in_map_iff in Hf; destruct Hf as [d [<- Hd]]; now apply H. }
    destruct t, s; cbn; try reflexivity;
    try (destruct c; cbn; try reflexivity); cbn in E;
      repeat match goal with |- context [r1 ?f] => rewrite (E f) by tauto end; reflexivity.
Qed.

