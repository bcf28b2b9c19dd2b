(** Extractions of the sets of the library, and sets in which they are not observations. *)

From Coq Require Import List ZArith Bool Lia Arith QArith Qcanon.
From Verif Require Import Num NumFacts ProofOrder SpecTail ProofTailTop.
From Verif Require Import ModelFramework SpecFramework SpecFrozen ProofFramework ProofFrameworkRef ProofFrameworkRun.
From Verif Require Import ModelLibrary ModelSets SpecSets ProofLibrary ProofSets ProofSetsTop ModelRollingSets ModelWhole SpecWhole ProofWhole1.
From Verif Require Import ProofWholeTop.
From Verif Require Import ModelObserve SpecObserve ProofObserve ProofObserve2 ProofObserve3.
Import ListNotations.

Section Top.
Variable K : Num.
Hypothesis HO : OrderedLaws K.
Variable A : Args K.
Variable sqrt : car K -> car K.
Hypothesis HH : HeapContract (a_heap K A).
Local Notation BM := (MemoSets K A sqrt).
Local Notation BW := (WholeSets K A sqrt).
Variable enum : fmap Library -> fmap Library.
Hypothesis Henum : Enumeration Library enum.
Variable W : bool.
Variable fs : list (request Library).
Local Notation ts := (make_tuple Library enum W fs).
Hypothesis Hc : Compiles W ts.
Hypothesis Hr : NoRollingClash ts.
Hypothesis Hkeep : forall t, In t ts -> snd t = true -> keeps_result (fst t) = false.
Variable D : bool.
Hypothesis Hok : forall t, In t ts -> ok_tag K A D (fst t).

Lemma observed : forall us f, apart K D (samples Library BM (events_of us)) ->
  (forall g, In g (extracted_of us) -> Undisturbing ts g) ->
  rel K D (read Library BM (library_uses K A sqrt (construct Library BM enum W fs) us) f)
          (read Library BW (history Library BW (construct Library BW enum W fs) (map plain_event (events_of us))) f).
Proof.
  intros us f HP HQ.
  refine (extractions_observe Library library_laws (pack K) (value K (note K)) (cell K (mcell K)) (cell K (wcell K)) VNone
    (binit K (MemoRest K A)) (bstep K (MemoRest K A)) (bresult K sqrt (MemoRest K A))
    (binit K (WholeRest K A)) (bstep K (WholeRest K A)) (bresult K sqrt (WholeRest K A))
    lconsults lon_push (sets_read_only K sqrt (MemoRest K A) (memo_reads_only K A))
    (sets_read_only K sqrt (WholeRest K A) (whole_reads_only K A))
    (basks K) (blook K A) (rel K D) (rel_refl K D) (rel_sym K D)
    (ok_tag K A D) (fun t => disturbing t = false) (fun t => keeps_result t = false) (apart K D) (apart_sub K D)
    (sim K A) (valid K A) (sim_init K A) (sim_step K A D) (sim_valid K A D) (sim_result K A sqrt D HO HH) (sim_look K A D) (sim_steady K A D)
    ts _ _ _ Hok Hkeep lshows _ enum W fs eq_refl us f HP HQ).
  - exact (tuple_once Library library_laws enum Henum W fs).
  - now apply library_supplied.
  - now apply library_push_ordered.
  - intros t st d Hd; unfold basks in Hd; destruct (clean K st); [contradiction Hd | exact Hd].
Qed.
End Top.

Theorem watched : forall K, OrderedLaws K -> forall (A : Args K) (sqrt : car K -> car K),
  HeapContract (a_heap K A) -> (0 < a_tail_cache K A)%nat ->
  forall enum W fs, Watchable enum W fs ->
  (forall t, In t (make_tuple Library enum W fs) -> companion (fst t) = false) ->
  forall us : list (use Library (MemoSets K A sqrt)),
  (forall g, In g (extracted_of us) -> Undisturbing (make_tuple Library enum W fs) g) ->
  forall f, SameAnswer K (Watched K A sqrt enum W fs us f) (Unwatched K A sqrt enum W fs us f).
Proof.
  intros K HO A sqrt HH Hk enum W fs [He Hc Hr Hkeep] Hco us Hq f.
  refine (proj1 (observed K HO A sqrt HH enum He W fs Hc Hr Hkeep false _ us f _ Hq)).
  - intros t Ht; specialize (Hco t Ht); destruct t as [t b]; destruct t; cbn in *; try exact Hk; congruence.
  - intros E; discriminate E.
Qed.
Theorem watched_variates : forall K, OrderedLaws K -> forall (A : Args K) (sqrt : car K -> car K),
  HeapContract (a_heap K A) -> (0 < a_tail_cache K A)%nat ->
  forall enum W fs, Watchable enum W fs ->
  forall us : list (use Library (MemoSets K A sqrt)), NoDup (map p_sample (samples Library (MemoSets K A sqrt) (events_of us))) ->
  (forall g, In g (extracted_of us) -> Undisturbing (make_tuple Library enum W fs) g) ->
  forall f, Watched K A sqrt enum W fs us f = Unwatched K A sqrt enum W fs us f.
Proof.
  intros K HO A sqrt HH Hk enum W fs [He Hc Hr Hkeep] us Hn Hq f.
  refine (proj2 (observed K HO A sqrt HH enum He W fs Hc Hr Hkeep true _ us f _ Hq) eq_refl).
  - intros t Ht; destruct t as [t b]; destruct t; cbn in *; try exact Hk; reflexivity.
  - intros _; exact Hn.
Qed.

Lemma undisturbing : forall ts f, (forall t, In t ts -> disturbing (fst t) = false) -> Undisturbing ts f.
Proof.
  intros ts f Hts t u _ _ Hu; apply Hts; induction Hu; assumption.
Qed.

Theorem watched_reports : forall K, OrderedLaws K -> forall (A : Args K) (sqrt : car K -> car K),
  HeapContract (a_heap K A) -> (0 < a_tail_cache K A)%nat ->
  forall enum W fs (us : list (use Library (MemoSets K A sqrt))) t, let es := map plain_event (events_of us) in
  let ts := make_tuple Library enum W fs in
  Session K A sqrt enum W fs es t -> estimator t = true ->
  (forall u, In u ts -> snd u = true -> keeps_result (fst u) = false) ->
  (forall u, In u ts -> companion (fst u) = false) ->
  (forall g, In g (extracted_of us) -> Undisturbing ts g) ->
  SameAnswer K (Watched K A sqrt enum W fs us (lfeature t)) (VRest (Alone K A (provider ts) (Pushed K A sqrt es) t)).
Proof.
  intros K HO A sqrt HH Hk enum W fs us t es ts HS He Hkeep Hco Hq.
  pose proof (ProofWholeTop.extracted K A sqrt (ord_field K HO) enum W fs es t HS He) as E.
  apply (same_trans K _ (Unwatched K A sqrt enum W fs us (lfeature t))).
  - destruct HS as [Hen Hc Hr _ _]; now apply watched.
  - unfold SpecWhole.Extracted in E; unfold Unwatched; fold es; rewrite E; apply same_refl.
Qed.
