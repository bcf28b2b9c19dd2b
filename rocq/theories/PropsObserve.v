(** Property theorems C60: extracting a result changes nothing. *)
From Coq Require Import List Bool Arith ZArith QArith Qcanon.
From Verif Require Import Num NumFacts SpecTail ModelFramework SpecFramework ModelLibrary ModelSets SpecSets ModelWhole SpecWhole.
From Verif Require Import ModelObserve SpecObserve ProofFrameworkEx ProofWholeEx ProofObserveTop ProofObserveEx.
Import ListNotations.

(** Whatever was extracted in between, a set answers as if it had never been looked at; a tail reports the same samples. *)
Theorem C60_extractions : forall K, OrderedLaws K -> forall (A : Args K) (sqrt : car K -> car K),
  HeapContract (a_heap K A) -> (0 < a_tail_cache K A)%nat ->
  forall enum W fs, Watchable enum W fs ->
  (forall t, In t (make_tuple Library enum W fs) -> companion (fst t) = false) ->
  forall us : list (use Library (MemoSets K A sqrt)),
  (forall g, In g (extracted_of us) -> Undisturbing (make_tuple Library enum W fs) g) ->
  forall f, SameAnswer K (Watched K A sqrt enum W fs us f) (Unwatched K A sqrt enum W fs us f).
Proof. exact watched. Qed.
Print Assumptions C60_extractions.
Example C60_extractions_ex : Watchable in_order false fs_seen
  /\ (forall t, In t (make_tuple Library in_order false fs_seen) -> companion (fst t) = false)
  /\ (forall f, Undisturbing (make_tuple Library in_order false fs_seen) f)
  /\ forall pw, map (with_looks pw fs_seen (us_seen pw)) [t_density; t_median; t_abstract_tail; t_mean; t_count]
       = [Some [0; 1 # 5; 0; 4 # 5]; Some [7]; Some [9; 5; 5; 3]; Some [9 # 5]; Some [5]]%Q /\
     kept pw (us_seen pw ++ [see pw t_density; see pw t_median]) = 3%nat.
Proof. exact (conj seen_watchable (conj seen_companions (conj seen_undisturbing seen_answers))). Qed.

(** With pairwise different samples, also for what comes with the samples of a tail. *)
Theorem C60_variates : forall K, OrderedLaws K -> forall (A : Args K) (sqrt : car K -> car K),
  HeapContract (a_heap K A) -> (0 < a_tail_cache K A)%nat ->
  forall enum W fs, Watchable enum W fs ->
  forall us : list (use Library (MemoSets K A sqrt)), NoDup (map p_sample (samples Library (MemoSets K A sqrt) (events_of us))) ->
  (forall g, In g (extracted_of us) -> Undisturbing (make_tuple Library enum W fs) g) ->
  forall f, Watched K A sqrt enum W fs us f = Unwatched K A sqrt enum W fs us f.
Proof. exact watched_variates. Qed.
Print Assumptions C60_variates.
Example C60_variates_ex : Watchable in_order false fs_v
  /\ (forall f, Undisturbing (make_tuple Library in_order false fs_v) f)
  /\ (forall pw, NoDup (map p_sample (samples Library (MB pw) (events_of (us_v1 pw)))))
  /\ forall pw, with_looks pw fs_v (us_v1 pw) t_abstract_tail_variate = Some [5; 2; 3; 4]%Q.
Proof. exact (conj variates_watchable (conj variates_undisturbing (conj variates_apart variates_answers))). Qed.

(** So every estimator of the set reports what its code run alone over the same samples reports (C54), however often the
    set is looked at. *)
Theorem C60_reports : forall K, OrderedLaws K -> forall (A : Args K) (sqrt : car K -> car K),
  HeapContract (a_heap K A) -> (0 < a_tail_cache K A)%nat ->
  forall enum W fs (us : list (use Library (MemoSets K A sqrt))) t, let es := map plain_event (events_of us) in
  let ts := make_tuple Library enum W fs in
  Session K A sqrt enum W fs es t -> estimator t = true ->
  (forall u, In u ts -> snd u = true -> keeps_result (fst u) = false) ->
  (forall u, In u ts -> companion (fst u) = false) ->
  (forall g, In g (extracted_of us) -> Undisturbing ts g) ->
  SameAnswer K (Watched K A sqrt enum W fs us (lfeature t)) (VRest (Alone K A (provider ts) (Pushed K A sqrt es) t)).
Proof. exact watched_reports. Qed.
Print Assumptions C60_reports.
Example C60_reports_ex : forall pw,
  Session QcN (ex_args pw) (fun x => x) in_order false fs_seen (map plain_event (events_of (us_seen pw))) t_density.
Proof. exact seen_session. Qed.

(** A dropped density reports one thing if it was extracted before the drop and another one if not. *)
Theorem C60_dropped_refuted : exists fs f, forall pw : Qc -> Qc -> Qc,
  let A := ex_args pw in let ts := make_tuple Library in_order false fs in
  exists us : list (use Library (MemoSets QcN A (fun x => x))),
  Compiles false ts /\ NoRollingClash ts /\ (forall t, In t ts -> companion (fst t) = false) /\
  (forall g, In g (extracted_of us) -> Undisturbing ts g) /\
  SafeDrops fs ts (dropped_tags Library (MemoSets QcN A (fun x => x)) (events_of us)) /\
  ~ SameAnswer QcN (Watched QcN A (fun x => x) in_order false fs us f) (Unwatched QcN A (fun x => x) in_order false fs us f).
Proof. exact dropped_not_watched. Qed.
Print Assumptions C60_dropped_refuted.

(** Extracting the median of a density changes the later ones. *)
Theorem C60_disturbing_refuted : exists fs f, forall pw : Qc -> Qc -> Qc, let A := ex_args pw in
  exists us : list (use Library (MemoSets QcN A (fun x => x))),
  Watchable in_order false fs /\ (forall t, In t (make_tuple Library in_order false fs) -> companion (fst t) = false) /\
  ~ SameAnswer QcN (Watched QcN A (fun x => x) in_order false fs us f) (Unwatched QcN A (fun x => x) in_order false fs us f).
Proof. exact disturbing_not_watched. Qed.
Print Assumptions C60_disturbing_refuted.

(** With equal samples, an extraction decides which of the variates remain. *)
Theorem C60_ties_refuted : exists fs f, forall pw : Qc -> Qc -> Qc, let A := ex_args pw in
  exists us : list (use Library (MemoSets QcN A (fun x => x))),
  Watchable in_order false fs /\ (forall g, In g (extracted_of us) -> Undisturbing (make_tuple Library in_order false fs) g) /\
  Watched QcN A (fun x => x) in_order false fs us f <> Unwatched QcN A (fun x => x) in_order false fs us f.
Proof. exact ties_not_watched. Qed.
Print Assumptions C60_ties_refuted.
