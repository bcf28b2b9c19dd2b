(** What survives when a weighted fit over a threshold is saved and loaded. *)
From Coq Require Import List Bool Arith ZArith.
From Verif Require Import Num ModelTail ModelPot ModelFramework ModelLibrary ModelSets ModelWhole ModelObserve.
From Verif Require Import SpecMachine ModelArchive ModelMachines ModelSetArchive ModelLibraryArchive.
Import ListNotations.

Definition with_weight {K : Num} (w : car K) (q : wpot K) : wpot K :=
  {| wo_w := w; wo_mu := wo_mu K q; wo_sigma2 := wo_sigma2 K q; wo_threshold := wo_threshold K q;
     wo_fit := wo_fit K q; wo_dirty := wo_dirty K q |}.

Lemma wpot_kept : forall (K : Num) (w W : car K) (q : wpot K) rest, wo_fit K q <> UB ->
  dec (wpot_codec K w) (enc (wpot_codec K w) (W, q) ++ rest) = Some ((W, with_weight w q), rest).
Proof.
  intros K w W [w0 mu s2 thr fit d] rest H. cbn [wo_fit] in H.
  destruct mu as [m|], s2 as [s|], fit as [[[a b] e]| |]; try reflexivity; congruence.
Qed.
Lemma library_wpot_kept : forall (K : Num) (A : Args K) (garbage : car K) (sd : ModelLibrary.side) (q : wpot K) rest,
  wo_fit K q <> UB ->
  exists c, library_serializer K A garbage (t_weighted_peaks_over_threshold sd) = Some c
    /\ dec c (enc c (CRest (Plain (WWPot q))) ++ rest)
       = Some (CRest (Plain (WWPot (with_weight (div K (zero K) (one K)) q))), rest).
Proof.
  intros K A garbage sd [w0 mu s2 thr fit d] rest H. cbn [wo_fit] in H. eexists. split; [reflexivity|].
  destruct mu as [m|], s2 as [s|], fit as [[[a b] e]| |]; try reflexivity; congruence.
Qed.
