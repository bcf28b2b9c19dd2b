(** What the accumulators of the library read does not change if the packs of a tail are permuted. *)

From Coq Require Import List ZArith Bool Lia Arith.
From Verif Require Import Num NumFacts ModelBasic ModelMinMax ModelRolling ModelDensity ModelPSquare ModelTail ModelPot.
From Verif Require Import SpecTail ProofTailTop ProofMachines2.
From Verif Require Import ModelFramework SpecFramework SpecFrozen ProofFramework ProofFrameworkRef ProofFrameworkRun.
From Verif Require Import ModelLibrary ModelSets SpecSets ProofLibrary ProofSets ProofSetsTop ModelRollingSets ModelWhole SpecWhole ProofWhole1.
From Verif Require Import ModelObserve SpecObserve ProofObserve.
Import ListNotations.

Section Views.
Variable K : Num.
Variable A : Args K.
Variable sqrt : car K -> car K.
Local Notation T := (car K).
Local Notation value := (value K (note K)).
Local Notation Same := (SameAnswer K).

Lemma same_refl : forall v, Same v v.
Proof. intros [| n | a | [] ]; cbn; reflexivity. Qed.
Lemma same_sym : forall v w, Same v w -> Same w v.
Proof. intros [| n | a | [] ] [| m | b | [] ]; cbn; intros H; try discriminate; now symmetry. Qed.
Lemma same_trans : forall u v w, Same u v -> Same v w -> Same u w.
Proof. intros [| ? | ? | u ] [| ? | ? | v ] [| ? | ? | w ]; try destruct u; try destruct v; try destruct w; cbn; intros H1 H2; try discriminate; congruence. Qed.

Lemma view : forall (X : Type) (g : value -> X), (forall l p q, g (VRest (NTail l p)) = g (VRest (NTail l q))) ->
  forall v w, Same v w -> g v = g w.
Proof.
  intros X g G [| n | a | [] ] [| m | b | [] ]; cbn; intros H; try discriminate; first [ now rewrite H | subst; apply G | reflexivity ].
Qed.

Section Two.
Variables r r' : ltag -> value.
Hypothesis Hr : forall f, Same (r f) (r' f).
Lemma v_count : forall f, wcount K (r f) = wcount K (r' f). Proof. intros f; now apply view. Qed.
Lemma v_sum : forall f, wsum K (r f) = wsum K (r' f). Proof. intros f; now apply view. Qed.
Lemma v_num : forall f, wnum K (r f) = wnum K (r' f). Proof. intros f; now apply view. Qed.
Lemma v_out : forall f, wout K (r f) = wout K (r' f). Proof. intros f; now apply view. Qed.
Lemma v_hist : forall f, whist K (r f) = whist K (r' f). Proof. intros f; now apply view. Qed.
Lemma v_list : forall f, wlist K (r f) = wlist K (r' f). Proof. intros f; now apply view. Qed.
Lemma v_tail : forall f, wtail K (r f) = wtail K (r' f). Proof. intros f; now apply view. Qed.
Lemma v_vectors : forall f, wvectors K (r f) = wvectors K (r' f). Proof. intros f; now apply view. Qed.
Lemma v_fit : forall f, wfit K (r f) = wfit K (r' f). Proof. intros f; now apply view. Qed.
Lemma v_fun : forall f, wfun K (r f) = wfun K (r' f). Proof. intros f; now apply view. Qed.
Lemma v_roll : forall f, roll_view K (r f) = roll_view K (r' f). Proof. intros f; now apply view. Qed.

Ltac views := repeat first
  [ rewrite v_count | rewrite v_sum | rewrite v_num | rewrite v_out | rewrite v_hist | rewrite v_list
  | rewrite v_tail | rewrite v_vectors | rewrite v_fit | rewrite v_fun | rewrite v_roll ].

Lemma wstep_view : forall t p c, wstep K A t r p c = wstep K A t r' p c.
Proof.
  intros t p c; destruct t, c; cbn [wstep]; try reflexivity; try (destruct c; cbn; try reflexivity); views; reflexivity.
Qed.
Lemma wresult_view : forall t c, companion t = false -> wresult K A t r c = wresult K A t r' c.
Proof.
  intros t c Ht; destruct t, c; cbn in Ht; try discriminate Ht; cbn [wresult]; try reflexivity;
    try (destruct c; cbn; try reflexivity); views; reflexivity.
Qed.

Local Notation MR := (MemoRest K A).
Local Notation WR := (WholeRest K A).
Lemma v_vnat : forall f, vnat K MR (r f) = vnat K WR (r' f). Proof. intros f; now apply (view nat (vnat K WR)). Qed.
Lemma v_vnum : forall f, vnum K MR (r f) = vnum K WR (r' f). Proof. intros f; now apply (view T (vnum K WR)). Qed.
End Two.
End Views.
