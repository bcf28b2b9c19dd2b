(** Parts of a history and the whole: examples. *)
From Coq Require Import List Arith ZArith QArith Qcanon.
From Verif Require Import Num NumFacts ModelBasic ModelMinMax ModelTail SpecStats SpecTail SpecParts ProofBasic2 ProofOrder ProofTailTop ProofParts.
Import ListNotations.

Local Notation "[[ q ]]" := (Q2Qc q).
Local Ltac qc_run := apply Qc_is_canon; vm_compute; reflexivity.
Definition part1 : list Qc := [ [[1]]; [[2]]; [[4]] ].
Definition part2 : list Qc := [ [[4]]; [[-3#2]] ].

Lemma together : part1 <> [] /\ part2 <> [] /\ vs_var QcN (var_set_run QcN 0%Qc part1) = [[14#9]] /\ vs_var QcN (var_set_run QcN 0%Qc part2) = [[121#16]] /\
  vs_var QcN (var_set_run QcN 0%Qc (part1 ++ part2)) = [[106#25]] /\
  PooledVar QcN [[3]] [[14#9]] [[2]] [[121#16]] [[-13#12]] = [[106#25]].
Proof. split; [discriminate |]. split; [discriminate |]. repeat split; qc_run. Qed.

Definition is (o : option Qc) (q : Q) : Prop := match o with Some a => this a = q | None => False end.
(** The identity for sqrt: any function will do. *)
Lemma shapes : mul QcN (vs_var QcN (var_set_run QcN 0%Qc part1)) (vs_var QcN (var_set_run QcN 0%Qc part1)) <> 0%Qc /\
  mul QcN (vs_var QcN (var_set_run QcN 0%Qc part2)) (vs_var QcN (var_set_run QcN 0%Qc part2)) <> 0%Qc /\
  is (kurtosis_run QcN 0%Qc part1) (-3#2) /\ is (kurtosis_run QcN 0%Qc part2) (-2#1) /\ is (kurtosis_run QcN 0%Qc (part1 ++ part2)) (-48239#44944).
Proof.
  assert (N : forall a b : Qc, this a <> this b -> a <> b) by (intros a b H ->; now apply H).
  split; [apply N; vm_compute; discriminate |]. split; [apply N; vm_compute; discriminate |]. repeat split; vm_compute; reflexivity.
Qed.

Definition wpart1 : list (Qc * Qc) := [ ([[1]], [[1#2]]); ([[2]], [[3]]) ].
Definition wpart2 : list (Qc * Qc) := [ ([[-4]], [[1]]); ([[0]], [[2]]) ].
Lemma weighted_parts : PrefixWeightsNonzero QcN (wpart1 ++ wpart2) /\ PrefixWeightsNonzero QcN wpart2 /\
  wmean_set_mean QcN (wmean_set_run QcN 0%Qc 0%Qc (wpart1 ++ wpart2)) = [[5#13]].
Proof.
  split; [| split; [| qc_run] ]; apply Qc_positive_weights; repeat (apply Forall_cons; [reflexivity |]); apply Forall_nil.
Qed.
Definition vpart1 : list (Qc * Qc) := [ ([[1]], [[2]]); ([[2]], [[5]]) ].
Definition vpart2 : list (Qc * Qc) := [ ([[6]], [[2]]) ].
Lemma covariances : vpart1 <> [] /\ vpart2 <> [] /\ cs_cov QcN (cov_set_run QcN 0%Qc 0%Qc (vpart1 ++ vpart2)) = [[-1]] /\
  PooledCov QcN [[2]] [[3#4]] [[1]] [[0]] [[9#2]] [[-3#2]] = [[-1]].
Proof. split; [discriminate |]. split; [discriminate |]. split; qc_run. Qed.

Definition shown_tail (k : nat) (l : list Z) : outcome (list Q) :=
  match tail_run sorting_heap (tail_pred QcN Right) (tail_init (V := unit) k 0 0%Qc tt) (map (fun z => TPush (Q2Qc (z # 1)) []) l) with
  | Ok s => match tail_result sorting_heap (tail_pred QcN Right) s with Ok t => Ok (map this t) | NotANumber => NotANumber | UB => UB end
  | NotANumber => NotANumber
  | UB => UB
  end.
Lemma tails : shown_tail 2 [1; 5; 3]%Z = Ok [5#1; 3#1] /\ shown_tail 2 [4; 2; 0]%Z = Ok [4#1; 2#1] /\
  shown_tail 2 [1; 5; 3; 4; 2; 0]%Z = Ok [5#1; 4#1] /\ shown_tail 2 [5; 3; 4; 2]%Z = Ok [5#1; 4#1].
Proof. repeat split; vm_compute; reflexivity. Qed.
