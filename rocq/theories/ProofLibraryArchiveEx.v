(** A concrete set of the whole library, saved and loaded. *)
From Coq Require Import List ZArith Bool Lia Arith QArith Qcanon.
From Verif Require Import Num NumFacts ModelFramework SpecFramework ModelLibrary ModelSets ModelRollingSets ModelWhole.
From Verif Require Import ModelObserve SpecObserve ProofFrameworkEx ProofWholeEx ProofObserveEx.
From Verif Require Import SpecMachine ModelArchive ModelSetArchive ModelLibraryArchive SpecLibraryArchive ProofMachines ProofSetArchive.
Import ListNotations.

Section Ex.
Variable pw : Qc -> Qc -> Qc.
Local Notation EA := (ex_args pw).
Definition ArchM (fs : list (request Library)) : Machine := LibraryMachine QcN EA (fun x => x) in_order false fs.
Definition arch_save := save_set Library (MB pw) Qc (library_serializer QcN EA (Q2Qc 0)).
Definition arch_load := load_set Library (MB pw) Qc (library_serializer QcN EA (Q2Qc 0)).
Definition in_ (fs : list (request Library)) (x : Z) : mcall (ArchM fs) := Feed (M := ArchM fs) (Push Library (MB pw) (sm x)).
Definition out_ (fs : list (request Library)) (f : ltag) : mcall (ArchM fs) := Ask (M := ArchM fs) f.

(** stats<density, with_p_square_cumulative_distribution_median, tail_quantile<right>, rolling_mean, variance,
    peaks_over_threshold<right> >. *)
Definition fs_arch : list (request Library) :=
  [plain t_density; plain t_with_p_square_cumulative_distribution_median; plain (t_tail_quantile on_right);
   plain t_rolling_mean; plain t_variance; plain (t_peaks_over_threshold on_right)].
Definition before : list (mcall (ArchM fs_arch)) :=
  [in_ _ 1; out_ _ t_variance; in_ _ 3; out_ _ t_density; out_ _ t_abstract_tail; in_ _ 5; out_ _ t_median; in_ _ 5].
(** What is seen after the set was saved, loaded into a new one, and went on with one more sample. *)
Definition seen_after (f : ltag) : option (list Q) :=
  match mrun (mstart (ArchM fs_arch)) before with
  | Ok s => match arch_load (mstart (ArchM fs_arch)) (arch_save s) with
            | Some s' => match answer (M := ArchM fs_arch) (mrun (M := ArchM fs_arch) s' [in_ _ 9]) f with
                         | Ok v => show v
                         | _ => None
                         end
            | None => None
            end
  | _ => None
  end.
End Ex.

Lemma arch_keeps : forall t, In t (make_tuple Library in_order false fs_arch) -> keeps (fst t) = true.
Proof.
  intros t Ht.
  assert (E : forallb (fun t => keeps (fst t)) (make_tuple Library in_order false fs_arch) = true) by (vm_compute; reflexivity).
  exact (proj1 (forallb_forall _ _) E t Ht).
Qed.
Lemma arch_no_drops : forall pw, no_drops Library (MB pw) (inputs (before pw)).
Proof.
  intros pw t H.
  assert (E : inputs (before pw) = map (fun x => Push Library (MB pw) (sm x)) [1; 3; 5; 5]%Z) by reflexivity.
  rewrite E in H; apply in_map_iff in H; destruct H as (x & E1 & _); discriminate E1.
Qed.

Lemma arch_answers : forall pw,
  map (seen_after pw) [t_density; t_median; t_abstract_tail; t_variance; t_count]
  = [Some [0; 1 # 5; 0; 4 # 5]; Some [7]; Some [9; 5; 5; 3]; Some [176 # 25]; Some [5]]%Q.
Proof. intros pw; vm_compute; reflexivity. Qed.

(** accumulator_set<T, stats<peaks_over_threshold<right> >, W>. *)
Definition fs_pot : list (request Library) := [plain (t_peaks_over_threshold on_right)].
Definition PotM (pw : Qc -> Qc -> Qc) : Machine := LibraryMachine QcN (ex_args pw) (fun x => x) in_order true fs_pot.
Definition fitted (o : outcome (value QcN (note QcN))) : option bool :=
  match o with Ok (VRest (NFit (Ok _))) => Some true | Ok (VRest (NFit _)) => Some false | _ => None end.
Definition above (pw : Qc -> Qc -> Qc) : list (mcall (PotM pw)) :=
  [@Feed (PotM pw) (Push Library (MB pw) (sm 1)); @Feed (PotM pw) (Push Library (MB pw) (sm 3))].
Definition original (pw : Qc -> Qc -> Qc) := fitted (answer (mrun (mstart (PotM pw)) (above pw)) t_abstract_peaks_over_threshold).
Definition restored (pw : Qc -> Qc -> Qc) :=
  match mrun (mstart (PotM pw)) (above pw) with
  | Ok s => match arch_load pw (mstart (PotM pw)) (arch_save pw s) with
            | Some s' => fitted (answer (M := PotM pw) (Ok s') t_abstract_peaks_over_threshold)
            | None => None
            end
  | _ => None
  end.
Lemma pot_differs : forall pw, original pw <> restored pw.
Proof. intros pw; vm_compute; discriminate. Qed.
Lemma pot_not_roundtrip : forall pw,
  ~ RoundTrip (PotM pw) (arch_save pw) (arch_load pw) (no_drops Library (MB pw)).
Proof.
  intros pw HR; apply (pot_differs pw); unfold original, restored.
  destruct (mrun (mstart (PotM pw)) (above pw)) as [s | |] eqn:E; try reflexivity.
  assert (D : no_drops Library (MB pw) (inputs (above pw))) by (intros t [H | [H | []]]; discriminate H).
  destruct (HR (above pw) s D E) as (s' & El & Ea).
  specialize (Ea [] t_abstract_peaks_over_threshold); change (mrun (M := PotM pw) s' []) with (Ok s') in Ea;
    change (mrun (M := PotM pw) s []) with (Ok s) in Ea.
  rewrite <- Ea, El; reflexivity.
Qed.
