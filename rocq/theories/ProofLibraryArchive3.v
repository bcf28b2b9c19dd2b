(** The states of the accumulators of the library, and what saving and loading them gives. *)
From Coq Require Import List ZArith Bool Lia Arith.
From Verif Require Import Num ModelBasic ModelMinMax ModelRolling ModelDensity ModelPSquare ModelTail ModelPot.
From Verif Require Import ModelFramework ModelLibrary ModelSets ModelRollingSets ModelWhole.
From Verif Require Import ModelObserve SpecObserve ProofObserve2.
From Verif Require Import SpecMachine ModelArchive ModelMachines ModelSetArchive ModelLibraryArchive SpecLibraryArchive.
From Verif Require Import ProofMachines ProofMachines2 ProofSetArchive ProofLibraryArchive2.
Import ListNotations.

(** What was written is read back up to [R]. *)
Definition Rounds {T X : Type} (c : codec T X) (P : X -> Prop) (R : X -> X -> Prop) : Prop :=
  forall a r, P a -> exists a', dec c (enc c a ++ r) = Some (a', r) /\ R a a'.
Lemma rounds_lawful : forall T X (c : codec T X) P, Lawful c P -> Rounds c P eq.
Proof. intros T X c P L a r Pa; exists a; split; [now apply L | reflexivity]. Qed.
Lemma rounds_map : forall T X Y (c : codec T X) (f : Y -> X) (g : X -> Y) P R (Q : Y -> Prop) (S : Y -> Y -> Prop),
  Rounds c P R -> (forall b, Q b -> P (f b) /\ forall a', R (f b) a' -> S b (g a')) -> Rounds (c_map c f g) Q S.
Proof.
  intros T X Y c f g P R Q S Hc H b r Qb; destruct (H b Qb) as [Pf Sg]; destruct (Hc (f b) r Pf) as (a' & E & Ra).
  exists (g a'); split; [cbn; now rewrite E | now apply Sg].
Qed.
Lemma lawful_unit : forall T, Lawful (c_unit (T := T)) anything.
Proof. now intros T [] r _. Qed.
Lemma lawful_const : forall K X (c : codec (car K) X) x, Lawful c anything -> Lawful (c_const K c x) anything.
Proof. intros K X c x L [] r _; cbn; now rewrite L. Qed.

Section Saved.
Variable K : Num.
Variable A : Args K.
Variable sqrt : car K -> car K.
Variable garbage : car K.
Local Notation T := (car K).
Local Notation value := (value K (note K)).
Local Notation MR := (MemoRest K A).
Local Notation BM := (MemoSets K A sqrt).
Local Notation ser := (library_serializer K A garbage).

(** ** The states *)
Definition rkind (c0 c : rcell K) : Prop :=
  match c0, c with
  | RNone, RNone => True
  | RBuf _, RBuf _ => True
  | RNum _, RNum _ => True
  | RPair _ _, RPair _ _ => True
  | _, _ => False
  end.
Definition wkind (t : ltag) (c : wcell K) : Prop :=
  match winit K A t, c with
  | WNone, WNone => True
  | WRoll c0, WRoll c => rkind c0 c
  | WNum _, WNum _ => True
  | WDens _, WDens _ => True
  | WWDens _, WWDens _ => True
  | WMarks _, WMarks _ => True
  | WMed _, WMed m => dm_dirty K m = false -> dm_median K m <> None
  | WTail _, WTail _ => True
  | WPot _, WPot q => po_fit K q <> UB
  | WPPot _, WPPot q => pp_fit K q <> UB
  | _, _ => False
  end.
Definition nkind (t : ltag) (v : note K) : Prop :=
  match t with
  | t_p_square_cumulative_distribution | t_weighted_p_square_cumulative_distribution => exists o, v = NHist o
  | _ => exists o, v = NOut o
  end.
Definition mkind (t : ltag) (m : mcell K) : Prop :=
  match minit K A t, m with
  | Plain _, Plain c => wkind t c
  | Memo _ _ _, Memo c v d => wkind t c /\ (d = false -> nkind t v)
  | _, _ => False
  end.
Definition kind (t : ltag) (s : cell K (mcell K)) : Prop :=
  match binit K MR t, s with
  | CNone, CNone => True
  | CNat _, CNat _ => True
  | CNum _, CNum _ => True
  | CPair _ _, CPair _ _ => True
  | CRest _, CRest m => mkind t m
  | _, _ => False
  end.
Definition ok (t : ltag) : Prop := keeps t = true.

Lemma kind_init : forall t, ok t -> kind t (init Library BM t).
Proof.
  intros t H; destruct t; try discriminate H; unfold kind, mkind, wkind; cbn;
    first [exact I | discriminate | split; [exact I | discriminate]].
Qed.
Lemma ser_none : forall t, ser t = None <-> unsaved t = true.
Proof.
  intros t; destruct t; try (match goal with n : nat |- _ => destruct n end); cbn;
    split; intros E; try reflexivity; discriminate E.
Qed.
Lemma ok_saved : forall t, ok t -> unsaved t = false /\ forgets t = false /\ companion t = false.
Proof. intros t; unfold ok, keeps; destruct t; cbn; auto; destruct n; cbn; auto; discriminate. Qed.

Lemma rkind_step : forall t r p c, ok t -> rolling t = true -> rkind (rinit K t) c ->
  rkind (rinit K t) (rstep K (a_window K A) t r p c).
Proof.
  intros t r p c H Hr Hc; destruct t; try discriminate Hr; cbn in Hc |- *; destruct c; try contradiction; try exact I;
    unfold rolling_sum_op, rolling_moment_op, immediate_rolling_mean_op, rolling_variance_op; cbn;
    try match goal with |- context [npow K _ ?n] => is_var n; destruct n as [| n]; [discriminate H |] end;
    repeat match goal with
           | |- context [npow K ?y (S ?n)] => let p := fresh "p" in let E := fresh "E" in
               destruct (npow_some K y n) as (p & E); rewrite E
           | |- context [rwp1_full ?N ?b] => let E := fresh "E" in destruct (rwp1_full N b) eqn:E;
               [let f := fresh "f" in let q := fresh "q" in destruct (full_front K N b E) as (f & q & ->) |]
           end; cbn; exact I.
Qed.
Lemma wkind_step : forall t r p c, ok t -> basic t = false -> wkind t c -> wkind t (wstep K A t r p c).
Proof.
  intros t r p c H Hb Hc; destruct (rolling t) eqn:Er.
  - unfold wkind, winit in *; rewrite Er in *; destruct c; try contradiction.
    assert (E : wstep K A t r p (WRoll c) = WRoll (rstep K (a_window K A) t (fun f => roll_view K (r f)) p c))
      by (destruct t; reflexivity).
    rewrite E; now apply rkind_step.
  - destruct t; try discriminate H; try discriminate Hb; try discriminate Er; cbn in Hc |- *; destruct c; try contradiction;
      try exact I; cbn; try discriminate; try assumption.
    unfold pot_op; destruct (ltb _ _ _); assumption.
Qed.
Lemma mkind_step : forall t r p m, ok t -> basic t = false -> mkind t m -> mkind t (ModelObserve.mstep K A t r p m).
Proof.
  intros t r p m H Hb Hm; unfold mkind in *; destruct (minit K A t), m; try contradiction; cbn.
  - now apply wkind_step.
  - destruct Hm as [Hc _]; split; [now apply wkind_step | discriminate].
Qed.
Lemma kind_step : forall t r x s, ok t -> kind t s -> kind t (step Library BM t r x s).
Proof.
  intros t r x s H Hs; destruct (basic t) eqn:Eb.
  - destruct t; try discriminate Eb; try discriminate H; unfold kind in *; cbn in Hs |- *;
      destruct s as [| n0 | a0 | a0 b0 | m0]; try contradiction; try exact I;
      unfold moment_op, weighted_moment_op; cbn;
      try match goal with |- context [npow K _ ?n] => is_var n; destruct n as [| n]; [discriminate H |] end;
      repeat match goal with
           | |- context [npow K ?y (S ?n)] => let p := fresh "p" in let E := fresh "E" in
               destruct (npow_some K y n) as (p & E); rewrite E
           end; cbn; exact I.
  - assert (E : forall m, bstep K MR t r x (CRest m) = CRest (ModelObserve.mstep K A t r x m)) by (destruct t; try discriminate Eb; reflexivity).
    assert (E0 : binit K MR t = CRest (minit K A t)) by (destruct t; try discriminate Eb; reflexivity).
    unfold kind in *; rewrite E0 in *; destruct s as [| n0 | a0 | a0 b0 | m0]; try contradiction.
    cbn [step MemoSets BasicSets]; rewrite E; now apply mkind_step.
Qed.

Lemma wkind_look : forall t r c, ok t -> wkind t c -> wkind t (wlook K A t r c).
Proof.
  intros t r c H Hc; destruct t; try discriminate H; try exact Hc; unfold wkind in *; cbn [winit rolling] in *;
    destruct c; try contradiction; try exact Hc; try exact I; cbn [wlook].
  1, 2: destruct (obnd _ _) as [[q y] | |] eqn:E; try exact Hc; destruct (whist K (r t_density)) as [h | |]; try discriminate E;
    cbn [obnd] in E; unfold dmed_result in E; destruct (dm_dirty K m) eqn:Ed;
    [destruct (dmed_loop K _ _ h (dm_sum K m)) as [[[| i] sm] | |]; try discriminate E;
     destruct (nth_error h i) as [[? ?] |]; try discriminate E; destruct (nth_error h (S i)) as [[? ?] |]; try discriminate E;
     injection E as <- _; discriminate
    |destruct (dm_median K m) eqn:Em; try discriminate E; injection E as <- _; cbn; rewrite Em; discriminate].
  - unfold pot_extract; destruct (po_dirty K s0); [| exact Hc].
    destruct (po_n K s0), (po_mu K s0), (po_sigma2 K s0); cbn; try discriminate; apply fit_not_ub.
  - destruct (obnd _ _) as [[q y] | |] eqn:E; try exact Hc; destruct (wtail K (r t_abstract_tail)) as [tl | |]; try discriminate E.
    cbn [obnd] in E; unfold ppot_extract in E; destruct (pp_dirty K s0); [| injection E as <- _; exact Hc].
    destruct (Nat.leb _ _); [injection E as <- _; exact Hc |].
    destruct (a_ceil K A _) as [| k]; [discriminate E |]; destruct (nth_error tl k); [| discriminate E].
    injection E as <- _; cbn; apply fit_not_ub.
Qed.
Lemma nkind_result : forall t r c, ok t -> memo t = true -> wkind t c -> nkind t (wresult K A t r c).
Proof.
  intros t r c H Hm Hc; destruct t; try discriminate Hm; unfold wkind in Hc; cbn [winit rolling] in Hc; destruct c; try contradiction;
    cbn; eauto.
Qed.
Lemma mkind_look : forall t r m, ok t -> mkind t m -> mkind t (mlook K A t r m).
Proof.
  intros t r m H Hm; unfold mkind, minit in *; destruct (memo t) eqn:Em; destruct m as [c | c v d]; try contradiction; cbn.
  - destruct Hm as [Hc Hv]; split; [assumption |]; intros _; destruct d; [now apply nkind_result | now apply Hv].
  - now apply wkind_look.
Qed.
Lemma kind_look : forall t r s, ok t -> kind t s -> kind t (blook K A t r s).
Proof.
  intros t r s H Hs; destruct s as [| n0 | a0 | a0 b0 | m]; try exact Hs; unfold blook; destruct (basic t) eqn:Eb; [exact Hs |].
  unfold kind in *; destruct (binit K MR t); try contradiction; now apply mkind_look.
Qed.

(** ** The codecs *)
Definition whole (s : cell K (mcell K)) : Prop := broken K s = false.

Lemma lawful_marks : Lawful (marks_codec K) anything.
Proof.
  eapply lawful_map; [codec |]; intros [h p d] _; split; [exact I | reflexivity].
Qed.
Lemma lawful_wmarks : forall before after, Lawful before anything -> Lawful after anything ->
  Lawful (c_wmarks K before after) (fun s => exists m, s = WMarks (Ok m)).
Proof.
  intros before after Lb La; eapply lawful_map.
  - apply lawful_pair; [exact Lb |]; apply lawful_pair; [apply lawful_marks | exact La].
  - intros b [m ->]; split; [exact I | reflexivity].
Qed.
Lemma rounds_dens : forall E (ce : codec T E) e0, Lawful ce anything -> Rounds (c_dens K A E ce e0) anything (dsame K).
Proof.
  intros E ce e0 L; eapply rounds_map; [apply rounds_lawful; codec; exact L |].
  intros d _; split; [exact I |]; intros a' <-; unfold dsame; cbn; auto.
Qed.
Lemma plain_rounds : forall t (c : codec T (wcell K)) (P : wcell K -> Prop), memo t = false -> basic t = false ->
  Rounds c P (wsame K) -> (forall w, wkind t w -> wbroken K w = false -> P w) ->
  Rounds (c_map (c_plain K c) (fun s => match s with CRest m => m | _ => Plain WNone end) CRest)
    (fun s => kind t s /\ whole s) (csame K).
Proof.
  intros t c P Hm Hb Hc HP.
  assert (Hk : forall s, kind t s /\ whole s -> exists w, s = CRest (Plain w) /\ P w).
  { intros s [Hs Hw].
    assert (E0 : binit K MR t = CRest (minit K A t)) by (destruct t; try discriminate Hb; reflexivity).
    unfold kind in Hs; rewrite E0 in Hs; destruct s as [| | | | m]; try contradiction.
    unfold mkind, minit in Hs; rewrite Hm in Hs; destruct m as [w | ? ? ?]; try contradiction.
    exists w; split; [reflexivity |]; now apply HP. }
  eapply rounds_map with (P := fun m => exists w, m = Plain w /\ P w) (R := msame K).
  - eapply rounds_map; [exact Hc |]; intros m (w & -> & Pw); split; [assumption |]; intros a' E; exact E.
  - intros s Hs; destruct (Hk s Hs) as (w & -> & Pw); split; [now exists w |]; intros [w' | ? ? ?] E; exact E.
Qed.

Lemma kind_rolling : forall t s, ok t -> basic t || rolling t = true -> kind t s ->
  lshape K (a_window K A) t (to_rolling K s) /\ of_rolling K (to_rolling K s) = s.
Proof.
  intros t s H Ht Hs; destruct (basic t) eqn:Eb.
  - destruct t; try discriminate Eb; try discriminate H; unfold kind in Hs; cbn in Hs;
      destruct s; try contradiction; split; reflexivity.
  - cbn in Ht; destruct t; try discriminate Ht; try discriminate H; unfold kind, mkind, wkind in Hs; cbn in Hs;
      destruct s as [| | | | [[] |]]; try contradiction; destruct c; try contradiction; split; reflexivity.
Qed.
Lemma rounds_wsame : forall (c : codec T (wcell K)) P, Lawful c P -> Rounds c P (wsame K).
Proof. intros c P L a r Pa; exists a; split; [now apply L | apply wsame_refl]. Qed.
Lemma lawful_wnone : forall c, Lawful c anything -> Lawful (c_wnone K c) (fun s => s = WNone).
Proof. intros c L; eapply lawful_map; [exact L |]; intros b ->; split; [exact I | reflexivity]. Qed.
Lemma lawful_wnum : Lawful (c_wnum K) (fun s => exists a, s = WNum a).
Proof. eapply lawful_map; [codec |]; intros b [a ->]; split; [exact I | reflexivity]. Qed.
Lemma rounds_wdens : Rounds (c_wdens K A) (fun s => exists d, s = WDens (Ok d)) (wsame K).
Proof.
  eapply rounds_map; [apply rounds_dens; codec |]; intros b [d ->]; split; [exact I |]; intros a' E; exact E.
Qed.
Lemma rounds_wwdens : Rounds (c_wwdens K A) (fun s => exists d, s = WWDens (Ok d)) (wsame K).
Proof.
  eapply rounds_map; [apply rounds_dens; codec |]; intros b [d ->]; split; [exact I |]; intros a' E; exact E.
Qed.
Lemma rounds_wmed : Rounds (c_wmed K garbage) (fun s => exists m, s = WMed m /\ (dm_dirty K m = false -> dm_median K m <> None)) (wsame K).
Proof.
  eapply rounds_map with (P := anything)
    (R := fun a a' : T * (bool * option T) => fst a = fst a' /\ fst (snd a) = fst (snd a') /\ (snd (snd a) <> None -> snd (snd a) = snd (snd a'))).
  - intros [x [d o]] r _; destruct o as [y |]; eexists; (split; [reflexivity |]); cbn; auto.
    split; [reflexivity |]; split; [reflexivity |]; intros N; now contradiction N.
  - intros b (m & -> & Hm); split; [exact I |]; intros [x [d o]] (E1 & E2 & E3); cbn in *; auto.
Qed.
Lemma rounds_wtail : Rounds (c_wtail K A) (fun s => exists q, s = WTail (Ok q)) (wsame K).
Proof.
  eapply rounds_map; [apply rounds_lawful; codec |].
  intros b [q ->]; split; [exact I |]; intros a' <-; cbn; auto.
Qed.
Lemma lawful_wpot : Lawful (c_wpot K) (fun s => exists q, s = WPot q /\ po_fit K q <> UB).
Proof.
  eapply lawful_map.
  - apply lawful_pair_at; [apply lawful_nat |]; apply lawful_pair_at; [codec |]; apply lawful_pair_at; [apply lawful_num |].
    apply lawful_pair_at; [apply lawful_fit | apply lawful_bool].
  - intros b ([n m q t f d] & -> & N); cbn in *; repeat split; auto.
Qed.
Lemma lawful_wppot : Lawful (c_wppot K) (fun s => exists q, s = WPPot q /\ pp_fit K q <> UB).
Proof.
  eapply lawful_map.
  - apply lawful_pair_at; [codec |]; apply lawful_pair_at; [apply lawful_num |].
    apply lawful_pair_at; [apply lawful_fit | apply lawful_bool].
  - intros b ([m q t f d] & -> & N); cbn in *; repeat split; auto.
Qed.
Lemma dist_rounds : forall t after, memo t = true -> basic t = false ->
  (forall s, wkind t s -> wbroken K s = false -> exists m, s = WMarks (Ok m)) ->
  (forall v, nkind t v -> exists o, v = NHist o) -> Lawful after anything ->
  Rounds (c_map (c_dist K A after) (fun s => match s with CRest m => m | _ => Plain WNone end) CRest)
    (fun s => kind t s /\ whole s) (csame K).
Proof.
  intros t after Hm Hb Hk Hn La.
  assert (E0 : binit K MR t = CRest (minit K A t)) by (destruct t; try discriminate Hb; reflexivity).
  eapply rounds_map with (P := fun m => mkind t m /\ whole (CRest m)) (R := msame K).
  - eapply rounds_map with (P := fun p => exists m, fst p = WMarks (Ok m)) (R := eq).
    + apply rounds_lawful; intros [w p] r [m Ew]; cbn in Ew; subst w.
      refine (lawful_pair_at T _ _ _ _ _ _ (lawful_wmarks _ _ (lawful_const _ _ _ _ (lawful_nat _)) La) _ _ _ _).
      * codec.
      * split; [now exists m | exact I].
    + intros [w | w v d] [Hs Hw]; unfold mkind, minit in Hs; rewrite Hm in Hs; [contradiction |]; destruct Hs as [H1 H2].
      unfold whole in Hw; cbn in Hw; apply orb_false_iff in Hw; destruct Hw as [Hw1 Hw2].
      split; [cbn; now apply Hk |]; intros a' <-; cbn; split; [reflexivity |]; split; [reflexivity |]; intros ->.
      destruct (Hn v (H2 eq_refl)) as [o ->]; cbn in Hw2; destruct o; try discriminate Hw2; reflexivity.
  - intros s [Hs Hw]; unfold kind in Hs; rewrite E0 in Hs; destruct s as [| | | | m]; try contradiction.
    split; [split; assumption |]; intros a' E; exact E.
Qed.
Lemma cdmed_rounds : forall t, memo t = true -> basic t = false ->
  (forall s, wkind t s -> s = WNone) -> (forall v, nkind t v -> exists o, v = NOut o) ->
  Rounds (c_map (c_cdmed K garbage) (fun s => match s with CRest m => m | _ => Plain WNone end) CRest)
    (fun s => kind t s /\ whole s) (csame K).
Proof.
  intros t Hm Hb Hk Hn.
  assert (E0 : binit K MR t = CRest (minit K A t)) by (destruct t; try discriminate Hb; reflexivity).
  eapply rounds_map with (P := fun m => mkind t m /\ whole (CRest m)) (R := msame K).
  - eapply rounds_map; [apply rounds_lawful; codec |].
    intros [w | w v d] [Hs Hw]; unfold mkind, minit in Hs; rewrite Hm in Hs; [contradiction |]; destruct Hs as [H1 H2].
    unfold whole in Hw; cbn in Hw; apply orb_false_iff in Hw; destruct Hw as [Hw1 Hw2].
    split; [exact I |]; intros a' <-; cbn; rewrite (Hk w H1); split; [reflexivity |]; split; [reflexivity |]; intros ->.
    destruct (Hn v (H2 eq_refl)) as [o ->]; cbn in Hw2; destruct o; try discriminate Hw2; reflexivity.
  - intros s [Hs Hw]; unfold kind in Hs; rewrite E0 in Hs; destruct s as [| | | | m]; try contradiction.
    split; [split; assumption |]; intros a' E; exact E.
Qed.

Definition SavedState (t : ltag) (s : cell K (mcell K)) : Prop := kind t s /\ whole s.
Lemma saved : forall t, ok t -> exists c, ser t = Some c /\
  forall s rest, SavedState t s -> exists s', dec c (enc c s ++ rest) = Some (s', rest) /\ csame K s s'.
Proof.
  intros t H; destruct (basic t || rolling t) eqn:Eb.
  - destruct (ser t) as [c |] eqn:Es.
    2: { apply ser_none in Es; destruct (ok_saved t H) as [E _]; rewrite Es in E; discriminate E. }
    exists c; split; [reflexivity |]; unfold library_serializer in Es; rewrite Eb in Es.
    destruct (serializer K (a_window K A) t) as [c0 |] eqn:E0; [| discriminate Es]; injection Es as <-.
    intros s rest [Hs _]; destruct (kind_rolling t s H Eb Hs) as [L E].
    exists s; split; [cbn; rewrite (serializer_lawful K (a_window K A) t c0 E0) by exact L; now rewrite E | apply csame_refl].
  - unfold library_serializer; rewrite Eb.
    destruct t; try discriminate H; try discriminate Eb; eexists; (split; [reflexivity |]).
    all: intros q rest Hq; refine (_ q rest Hq); clear q rest Hq.
    all: match goal with |- forall q rest, SavedState ?t q -> exists s', dec ?c _ = _ /\ _ =>
           change (Rounds c (fun s => kind t s /\ whole s) (csame K)) end.
    all: lazymatch goal with
         | |- Rounds (c_map (c_cdmed _ _) _ _) _ _ => apply cdmed_rounds; [reflexivity | reflexivity | now intros [] | now intros v Hv]
         | |- Rounds (c_map (c_dist _ _ _) _ _) _ _ =>
             apply dist_rounds; [reflexivity | reflexivity | | now intros v Hv |];
             [intros [| | | | | [] | | | | |]; try contradiction; try discriminate; eauto |]
         | |- Rounds (c_map (c_plain _ (c_wnone _ _)) _ _) _ _ =>
             eapply plain_rounds; [reflexivity | reflexivity | apply rounds_wsame, lawful_wnone | now intros []]
         | |- Rounds (c_map (c_plain _ (c_wmarks _ _ _)) _ _) _ _ =>
             eapply plain_rounds; [reflexivity | reflexivity | apply rounds_wsame, lawful_wmarks |
                                   intros [| | | | | [] | | | | |]; try contradiction; try discriminate; eauto]
         | |- _ => eapply plain_rounds; [reflexivity | reflexivity |
                 first [ apply rounds_wsame, lawful_wnum | apply rounds_wdens | apply rounds_wwdens | apply rounds_wmed
                       | apply rounds_wtail | apply rounds_wsame, lawful_wpot | apply rounds_wsame, lawful_wppot ] |
                 intros [| | | [] | [] | | | [] | | |]; try contradiction; try discriminate; eauto]
         end.
    all: try (apply lawful_const || apply lawful_unit); codec.
    all: apply lawful_const; codec.
Qed.
End Saved.
