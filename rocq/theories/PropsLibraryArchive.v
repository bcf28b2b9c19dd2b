(** Property theorems C44 for sets of the whole library: saving and loading. *)
From Coq Require Import List Bool Arith ZArith QArith Qcanon.
From Verif Require Import Num NumFacts ModelTail ModelPot ModelFramework SpecFramework ModelLibrary ModelSets ModelWhole ModelObserve.
From Verif Require Import SpecMachine ModelArchive ModelMachines ModelSetArchive ModelLibraryArchive SpecLibraryArchive.
From Verif Require Import ProofFrameworkEx ProofWholeEx ProofObserveEx ProofSetArchive ProofLibraryArchive3 ProofLibraryArchive4 ProofLibraryArchiveEx ProofArchiveKept.
Import ListNotations.

(** After any session of pushes and extractions, a set of accumulators that keep what they need
    (SpecLibraryArchive.keeps) can be saved and loaded into a new set of the same kind, which goes on answering like the
    original; caches and marks of staleness included.  Without drops, and as long as nothing undefined has happened. *)
Theorem C44_library_partial : forall (K : Num) (A : Args K) (sqrt : car K -> car K) (garbage : car K)
  (enum : fmap Library -> fmap Library) (W : bool) (fs : list (request Library)), Enumeration Library enum ->
  (forall t, In t (make_tuple Library enum W fs) -> keeps (fst t) = true) ->
  RoundTrip (LibraryMachine K A sqrt enum W fs)
    (save_set Library (MemoSets K A sqrt) (car K) (library_serializer K A garbage))
    (load_set Library (MemoSets K A sqrt) (car K) (library_serializer K A garbage))
    (no_drops Library (MemoSets K A sqrt)).
Proof. exact whole_roundtrip. Qed.
Print Assumptions C44_library_partial.
Example C44_library_ex : Enumeration Library in_order
  /\ (forall t, In t (make_tuple Library in_order false fs_arch) -> keeps (fst t) = true)
  /\ (forall pw, no_drops Library (MB pw) (inputs (before pw)))
  /\ forall pw, map (seen_after pw) [t_density; t_median; t_abstract_tail; t_variance; t_count]
       = [Some [0; 1 # 5; 0; 4 # 5]; Some [7]; Some [9; 5; 5; 3]; Some [176 # 25]; Some [5]]%Q.
Proof. exact (conj in_order_enum (conj arch_keeps (conj arch_no_drops arch_answers))). Qed.

(** The accumulators that no set can be saved with. *)
Theorem C44_library_unsaved : forall (K : Num) (A : Args K) (garbage : car K) (t : ltag),
  library_serializer K A garbage t = None <-> unsaved t = true.
Proof. exact ser_none. Qed.
Print Assumptions C44_library_unsaved.

(** A weighted fit over a threshold can be saved, but a loaded one answers differently. *)
Theorem C44_library_forgets_refuted : forall pw : Qc -> Qc -> Qc,
  ~ RoundTrip (LibraryMachine QcN (ex_args pw) (fun x => x) in_order true [plain (t_peaks_over_threshold on_right)])
      (save_set Library (MemoSets QcN (ex_args pw) (fun x => x)) Qc (library_serializer QcN (ex_args pw) (Q2Qc 0)))
      (load_set Library (MemoSets QcN (ex_args pw) (fun x => x)) Qc (library_serializer QcN (ex_args pw) (Q2Qc 0)))
      (no_drops Library (MemoSets QcN (ex_args pw) (fun x => x))).
Proof. exact pot_not_roundtrip. Qed.
Print Assumptions C44_library_forgets_refuted.

(** Only the sum of the weights above the threshold is lost: it is that of a new set.  Alone, and in a set of the library. *)
Theorem C44_weighted_pot_kept : forall (K : Num) (w W : car K) (q : wpot K) (rest : list (item (car K))), wo_fit K q <> UB ->
  dec (wpot_codec K w) (enc (wpot_codec K w) (W, q) ++ rest)
  = Some ((W, {| wo_w := w; wo_mu := wo_mu K q; wo_sigma2 := wo_sigma2 K q; wo_threshold := wo_threshold K q;
                 wo_fit := wo_fit K q; wo_dirty := wo_dirty K q |}), rest).
Proof. exact wpot_kept. Qed.
Print Assumptions C44_weighted_pot_kept.
Theorem C44_library_weighted_pot_kept : forall (K : Num) (A : Args K) (garbage : car K) (sd : ModelLibrary.side) (q : wpot K)
  (rest : list (item (car K))), wo_fit K q <> UB ->
  exists c, library_serializer K A garbage (t_weighted_peaks_over_threshold sd) = Some c
    /\ dec c (enc c (CRest (Plain (WWPot q))) ++ rest)
       = Some (CRest (Plain (WWPot {| wo_w := div K (zero K) (one K); wo_mu := wo_mu K q; wo_sigma2 := wo_sigma2 K q;
                 wo_threshold := wo_threshold K q; wo_fit := wo_fit K q; wo_dirty := wo_dirty K q |})), rest).
Proof. exact library_wpot_kept. Qed.
Print Assumptions C44_library_weighted_pot_kept.
Example C44_ex_kept : let q := wpot_init QcN Right (Q2Qc 1) (Q2Qc 2) (Q2Qc 3) in
  wo_fit QcN q <> UB /\ this (wo_w QcN q) = 2%Q /\ option_map this (wo_mu QcN q) = Some 1%Q /\ this (wo_threshold QcN q) = 3%Q.
Proof. split; [discriminate|]. vm_compute. repeat split. Qed.
