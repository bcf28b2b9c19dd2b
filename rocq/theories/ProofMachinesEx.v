(** Concrete sessions: instances of the theorems about sessions, and the dropped accumulator that
    comes back to life. *)
From Coq Require Import List Arith Bool ZArith QArith Qcanon.
From Verif Require Import Num NumFacts ModelBasic ModelRolling ModelTail SpecTail ModelDensity ModelPSquare ModelPot
  ModelFramework SpecFramework ModelLibrary ModelSets ModelRollingSets
  SpecMachine ModelArchive ModelMachines ModelSetArchive ModelCircular ProofOrder ProofTailTop ProofDensityMed ProofFrameworkEx
  ProofMachines ProofMachines2 ProofMachines3 ProofSetArchive.
Import ListNotations.

(** ** Serialization of sets *)
Local Notation save := (save_set Library ExB Qc (serializer QcN 2)).
Local Notation load := (load_set Library ExB Qc (serializer QcN 2)).
Local Notation S W fs := (SetMachine Library ExB in_order W fs).

Definition counted (o : outcome (value QcN (rcell QcN))) : nat := match o with Ok (VNat n) => n | _ => O end.
Lemma dropped_not_roundtrip : ~ RoundTrip (S false tw) save load anything.
Proof.
  apply (not_roundtrip (S false tw) _ save load anything _ counted
    [@Feed (S false tw) (push1 1); @Feed (S false tw) (drop1 t_count)] [@Feed (S false tw) (push1 2)] t_count I).
  vm_compute; discriminate.
Qed.

Definition arch_fs : list (request Library) :=
  [plain t_skewness; dropped t_variance; plain t_sum_kahan; plain (t_covariance 0); plain t_rolling_mean; plain t_lazy_rolling_variance].
Lemma arch_ok : forall t, In t (make_tuple Library in_order false arch_fs) -> serializer QcN 2 (fst t) <> None.
Proof.
  assert (E : forallb (fun t : ftag Library => match serializer QcN 2 (fst t) with Some _ => true | None => false end)
                (make_tuple Library in_order false arch_fs) = true) by (vm_compute; reflexivity).
  intros t Ht; rewrite forallb_forall in E; specialize (E t Ht).
  destruct (serializer QcN 2 (fst t)); [discriminate | discriminate E].
Qed.
Definition arch_loaded : option (accset Library ExB) :=
  load (mstart (S false arch_fs)) (save (history Library ExB (built false arch_fs) [push1 1; push1 5; push1 3])).
Lemma arch_session : option_map (fun s => map (fun t => shown (read Library ExB (push Library ExB s (sm 7)) t))
    [t_rolling_variance; t_variance; t_abstract_covariance]) arch_loaded
  = Some [Some (8#1); Some (5#1); Some (5#1)]%Q.
Proof. vm_compute; reflexivity. Qed.

(** ** Sessions *)
Local Notation MT := (TailMachine QcN sorting_heap Qc_ceil Right 3 1).
Definition tail_cs : list (mcall MT) :=
  [@Feed MT (Q2Qc 3, [[Q2Qc 1]]); @Ask MT QTail; @Feed MT (Q2Qc 1, [[Q2Qc 5]]); @Ask MT (QMean QcN (Q2Qc (1#2)));
   @Feed MT (Q2Qc 5, [[Q2Qc 2]]); @Feed MT (Q2Qc 4, [[Q2Qc 9]])].
Lemma tail_session : rows (answer (mrun (mstart MT) tail_cs) (@QVariate QcN 0)) = Some [[2#1]; [9#1]; [1#1]]%Q /\
  Forall (fun e : MIn MT => length (snd e) = 1%nat) (inputs tail_cs) /\
  NoDup (map fst (inputs tail_cs)).
Proof.
  split; [vm_compute; reflexivity | split].
  - repeat constructor.
  - assert (E : map this (map fst (inputs tail_cs)) = [3; 1; 5; 4]%Q) by reflexivity.
    apply (NoDup_map_inv this); rewrite E.
    repeat constructor; cbn; intros X; repeat destruct X as [X | X]; discriminate || contradiction.
Qed.

Local Notation MD := (DensityMachine QcN Qc (fun x => x) (fun _ => Q2Qc 1) (fun n _ => ofnat QcN n) ex_lo ex_hi 2 2 (Q2Qc 0)).
Definition dens_cs : list (mcall MD) := [@Feed MD (Q2Qc 0); @Ask MD tt; @Feed MD (Q2Qc 4); @Ask MD tt; @Feed MD (Q2Qc 1); @Ask MD tt].
Definition pairs_seen (o : outcome (list (Qc * Qc))) : option (list (Q * Q)) :=
  match o with Ok l => Some (map (fun p => (this (fst p), this (snd p))) l) | _ => None end.
Lemma dens_session : pairs_seen (answer (mrun (mstart MD) dens_cs) tt) = Some [(-2#1, 0#1); (0#1, 2#3); (2#1, 0#1); (4#1, 1#3)]%Q.
Proof. vm_compute; reflexivity. Qed.

Lemma unsaved : forall (K : Num) (N : nat) t, basic t || rolling t = true ->
  (serializer K N t = None <->
   In t [t_weighted_mean; t_lazy_weighted_variance; t_weighted_skewness; t_weighted_kurtosis; t_error_of_mean;
         t_error_of_immediate_mean; t_moment 0; t_weighted_moment 0; t_rolling_moment 0] \/
   exists v, t = t_weighted_mean_of_variates v).
Proof.
  intros K N t H; split.
  - destruct t; try discriminate H; cbn; try discriminate; auto 20; try (intros _; right; now eexists).
    all: match goal with n : nat |- _ => destruct n; cbn; try discriminate; auto 20 end.
  - intros [H' | [v ->]]; [| reflexivity]; cbn [In] in H'.
    repeat (destruct H' as [<- | H']; [reflexivity |]); destruct H'.
Qed.
