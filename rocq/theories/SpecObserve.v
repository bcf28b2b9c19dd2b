(** What it means that extractions change nothing. *)

From Coq Require Import List Bool.
From Verif Require Import Num ModelFramework SpecFramework SpecFrozen.
From Verif Require Import ModelLibrary ModelSets SpecSets ModelTail ModelWhole ModelObserve.
Import ListNotations.

(** What remains of a session without the extractions. *)
Definition events_of {L : Lib} {B : Behaviour L} (us : list (use L B)) : list (event L B) :=
  flat_map (fun u => match u with Event _ _ e => [e] | Extract _ _ _ => [] end) us.

(** The features that are extracted. *)
Definition extracted_of {L : Lib} {B : Behaviour L} (us : list (use L B)) : list (tag L) :=
  flat_map (fun u => match u with Event _ _ _ => [] | Extract _ _ f => [f] end) us.

(** The same event, for sets without the caches. *)
Definition plain_event {K : Num} {A : Args K} {sqrt : car K -> car K}
    (e : event Library (MemoSets K A sqrt)) : event Library (WholeSets K A sqrt) :=
  match e with
  | Push _ _ x => Push Library (WholeSets K A sqrt) x
  | Drop _ _ t => Drop Library (WholeSets K A sqrt) t
  end.

Section Library.
Variable K : Num.
Local Notation value := (value K (note K)).

(** The accumulators whose extraction is not an observation even alone: C43_density_median_refuted,
    C43_pot_refuted and so on. *)
Definition disturbing (t : ltag) : bool :=
  match t with
  | t_with_density_median | t_with_density_weighted_median
  | t_peaks_over_threshold _ | t_weighted_peaks_over_threshold _
  | t_peaks_over_threshold_prob _ | t_weighted_peaks_over_threshold_prob _ => true
  | _ => false
  end.

(** The accumulators that keep a result computed from others until the next sample. *)
Definition keeps_result (t : ltag) : bool :=
  match t with
  | t_density | t_weighted_density
  | t_p_square_cumulative_distribution | t_weighted_p_square_cumulative_distribution
  | t_with_p_square_cumulative_distribution_median
  | t_with_p_square_cumulative_distribution_weighted_median => true
  | _ => false
  end.

(** The accumulators that report what came with the samples of a tail. *)
Definition companion (t : ltag) : bool :=
  match t with t_tail_variate _ _ | t_tail_weights _ => true | _ => false end.

(** The feature [f] of the set [ts] can be extracted without running code of a disturbing
    accumulator. *)
Definition Undisturbing (ts : list (ftag Library)) (f : ltag) : Prop :=
  forall t u, In t ts -> lfeature (fst t) = f -> ComputedFrom Library lshows ts t u -> disturbing (fst u) = false.

(** The answers of a tail are equal if the samples are: which of two equal samples comes first is
    seen only by those that look at what came with them. *)
Definition SameAnswer (v w : value) : Prop :=
  match v, w with
  | VRest (NTail l _), VRest (NTail l' _) => l = l'
  | _, _ => v = w
  end.
End Library.

(** The set compiles, and no accumulator that keeps its result is droppable: if it is dropped, what it keeps is
    not brought up to date any more (C60_dropped_refuted). *)
Record Watchable (enum : fmap Library -> fmap Library) (W : bool) (fs : list (request Library)) : Prop := {
  wa_enum : Enumeration Library enum;
  wa_compiles : Compiles W (make_tuple Library enum W fs);
  wa_rolling : NoRollingClash (make_tuple Library enum W fs);
  wa_kept : forall t, In t (make_tuple Library enum W fs) -> snd t = true -> keeps_result (fst t) = false
}.

(** What extracting [f] returns after a session with extractions, and what it returns if the set was never
    looked at before. *)
Section Sessions.
Variable K : Num.
Variable A : Args K.
Variable sqrt : car K -> car K.
Definition Watched (enum : fmap Library -> fmap Library) (W : bool) (fs : list (request Library))
    (us : list (use Library (MemoSets K A sqrt))) (f : ltag) : value K (note K) :=
  read Library (MemoSets K A sqrt) (library_uses K A sqrt (construct Library (MemoSets K A sqrt) enum W fs) us) f.
Definition Unwatched (enum : fmap Library -> fmap Library) (W : bool) (fs : list (request Library))
    (us : list (use Library (MemoSets K A sqrt))) (f : ltag) : value K (note K) :=
  read Library (WholeSets K A sqrt)
    (history Library (WholeSets K A sqrt) (construct Library (WholeSets K A sqrt) enum W fs) (map plain_event (events_of us))) f.
End Sessions.
