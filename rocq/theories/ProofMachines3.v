(** Sessions that show the limits: extractions that are not observations, an archive that loses a
    member. *)
From Coq Require Import List Arith Bool QArith Qcanon.
From Verif Require Import Num NumFacts ModelRolling ModelTail SpecTail ModelDensity ModelPSquare ModelPot
  SpecMachine ModelArchive ModelMachines ProofOrder ProofTailTop ProofDensityMed ProofMachines.
Import ListNotations.

Definition defined {A : Type} (o : outcome A) : bool := match o with Ok _ => true | _ => false end.
Lemma not_observation : forall (M : Machine) (P : list (MIn M) -> Prop) (Q : MAsk M -> Prop) (B : Type)
  (f : outcome (MOut M) -> B) (cs : list (mcall M)) (q : MAsk M),
  P (inputs cs) -> Q q -> defined (mrun (mstart M) cs) = true ->
  f (answer (mrun (mstart M) cs) q) <> f (answer (mrun (mstart M) (map Feed (inputs cs))) q) ->
  ~ Observation M P Q.
Proof.
  intros M P Q B f cs q HP HQ D N HO; apply N; f_equal.
  destruct (mrun (mstart M) cs) as [s | |] eqn:Es; try discriminate D; now apply HO.
Qed.

Lemma not_roundtrip : forall (M : Machine) (Ar : Type) (save : MState M -> Ar) (load : MState M -> Ar -> option (MState M))
  (P : list (MIn M) -> Prop) (B : Type) (f : outcome (MOut M) -> B) (cs cs' : list (mcall M)) (q : MAsk M),
  P (inputs cs) ->
  match mrun (mstart M) cs with
  | Ok s => match load (mstart M) (save s) with
            | Some s' => f (answer (mrun s' cs') q) <> f (answer (mrun s cs') q)
            | None => True
            end
  | _ => False
  end -> ~ RoundTrip M save load P.
Proof.
  intros M Ar save load P B f cs cs' q HP HN HR; destruct (mrun (mstart M) cs) as [s | |] eqn:Es; try contradiction.
  destruct (HR cs s HP Es) as (s' & El & Ea); rewrite El in HN; apply HN; now rewrite Ea.
Qed.

(** The shape parameter xi_hat of a fit does not involve std::pow. *)
Definition shape (o : outcome (outcome (Qc * Qc * Qc))) : option Q :=
  match o with Ok (Ok (_, _, x)) => Some (this x) | _ => None end.

Section PotWitness.
Variable pw : Qc -> Qc -> Qc.
Local Notation MP := (PotMachine QcN pw Right (Q2Qc 0)).
Local Notation MW := (WeightedPotMachine QcN pw Right (Q2Qc 0)).
Local Notation MB := (PotProbMachine QcN pw Right sorting_heap Qc_ceil 6 (Q2Qc (1#2))).
Lemma pot_not_observation : ~ Observation MP anything anything.
Proof.
  apply (not_observation MP anything anything _ shape
    [@Feed MP (Q2Qc 1); @Feed MP (Q2Qc 3); @Ask MP tt; @Feed MP (Q2Qc 5)] tt I I); [reflexivity |].
  vm_compute; discriminate.
Qed.
Lemma wpot_not_observation : ~ Observation MW anything anything.
Proof.
  apply (not_observation MW anything anything _ shape
    [@Feed MW (Q2Qc 1, Q2Qc 1); @Feed MW (Q2Qc 3, Q2Qc 1); @Ask MW tt; @Feed MW (Q2Qc 5, Q2Qc 1)] tt I I); [reflexivity |].
  vm_compute; discriminate.
Qed.
Lemma ppot_not_observation : ~ Observation MB anything anything.
Proof.
  apply (not_observation MB anything anything _ shape
    [@Feed MB (Q2Qc 1); @Feed MB (Q2Qc 3); @Feed MB (Q2Qc 4); @Feed MB (Q2Qc 6); @Ask MB tt; @Feed MB (Q2Qc 5)] tt I I); [vm_compute; reflexivity |].
  vm_compute; discriminate.
Qed.

(** The archive of a weighted peaks-over-threshold set lacks the weight above the threshold. *)
Lemma wpot_not_roundtrip :
  ~ RoundTrip MW (enc (wpot_codec QcN (zero QcN))) (fun _ ar => load_all (wpot_codec QcN (zero QcN)) ar) anything.
Proof.
  intros HR.
  destruct (HR [@Feed MW (Q2Qc 1, Q2Qc 1); @Feed MW (Q2Qc 3, Q2Qc 1)]
               _ I eq_refl) as (s' & El & Ea).
  specialize (Ea [] tt); apply (f_equal shape) in Ea.
  injection El as <-; vm_compute in Ea; discriminate Ea.
Qed.
End PotWitness.

(** Densities: the running sum of the median is never reset (C28). *)
Local Notation MD := (DensityMedianMachine QcN Qc (fun x => x) (fun _ => Q2Qc 1) (fun n _ => ofnat QcN n) ex_lo ex_hi 2 2 (Q2Qc 0)).
Definition seen (o : outcome Qc) : option Q := match o with Ok x => Some (this x) | _ => None end.
Lemma dmed_not_observation : ~ Observation MD anything anything.
Proof.
  apply (not_observation MD anything anything _ seen
    [@Feed MD (Q2Qc 0); @Feed MD (Q2Qc 4); @Ask MD tt; @Feed MD (Q2Qc 1)] tt I I); [vm_compute; reflexivity |].
  vm_compute; discriminate.
Qed.

(** Equal samples with different variates: which of them is evicted depends on earlier extractions. *)
Local Notation MT := (TailMachine QcN sorting_heap Qc_ceil Right 2 1).
Definition rows (o : outcome (tail_ans QcN)) : option (list (list Q)) :=
  match o with Ok (ARows _ l) => Some (map (map this) l) | _ => None end.
Lemma tail_ties_not_observation :
  ~ Observation MT (fun xs => Forall (fun e => length (snd e) = 1%nat) xs) (fun q => q = QVariate 0).
Proof.
  apply (not_observation MT _ _ _ rows
    [@Feed MT (Q2Qc 1, [[Q2Qc 10]]); @Feed MT (Q2Qc 1, [[Q2Qc 20]]); @Ask MT QTail; @Feed MT (Q2Qc 2, [[Q2Qc 30]])]
    (@QVariate QcN 0)).
  - repeat constructor.
  - reflexivity.
  - vm_compute; reflexivity.
  - vm_compute; discriminate.
Qed.
