(** The accumulators of the library satisfy the laws of ProofObserve. *)

From Coq Require Import List ZArith Bool Lia Arith.
From Verif Require Import Num NumFacts ModelBasic ModelMinMax ModelRolling ModelDensity ModelPSquare ModelTail ModelPot.
From Verif Require Import SpecTail ProofTailTop ProofTailStats ProofMachines2.
From Verif Require Import ModelFramework SpecFramework SpecFrozen ProofFramework ProofFrameworkRef ProofFrameworkRun.
From Verif Require Import ModelLibrary ModelSets SpecSets ProofLibrary ProofSets ProofSetsTop ModelRollingSets ModelWhole SpecWhole ProofWhole1.
From Verif Require Import ModelObserve SpecObserve ProofObserve ProofObserve2.
Import ListNotations.

Section Laws.
Variable K : Num.
Variable A : Args K.
Variable sqrt : car K -> car K.
Local Notation T := (car K).
Local Notation value := (value K (note K)).
Local Notation Same := (SameAnswer K).

(** ** What the two libraries have in common *)
Local Notation MR := (MemoRest K A).
Local Notation WR := (WholeRest K A).
Local Notation H := (a_heap K A).

Definition tail_ops (h : list (pack K)) : list (tail_op T (pack K)) := map (fun p => TPush (p_sample p) [p]) h.
Local Notation start := (tail_init (a_tail_cache K A) 1 (zero K) (no_pack K)).

Definition dens_alike {E : Type} (o o' : outcome (dens K E)) : Prop :=
  match o, o' with
  | Ok d, Ok d' => de_cache K E d = de_cache K E d' /\ de_bins K E d = de_bins K E d' /\
      de_pos K E d = de_pos K E d' /\ de_dirty K E d' = true
  | NotANumber, NotANumber | UB, UB => True
  | _, _ => False
  end.

(** The state of an accumulator that is not basic. *)
Definition sim_rest (t : ltag) (h : list (pack K)) (m : mcell K) (c' : wcell K) : Prop :=
  match m with
  | Memo c _ _ => memo t = true /\ c = c'
  | Plain c =>
      memo t = false /\
      match t with
      | t_density => exists o o', c = WDens o /\ c' = WDens o' /\ dens_alike o o'
      | t_weighted_density => exists o o', c = WWDens o /\ c' = WWDens o' /\ dens_alike o o'
      | t_tail sd => exists ops, SpecTail.pushes ops = SpecTail.pushes (tail_ops h) /\
          c = WTail (tail_run H (tail_pred K (lr_of sd)) start ops) /\
          c' = WTail (tail_run H (tail_pred K (lr_of sd)) start (tail_ops h))
      | _ => c = c'
      end
  end.
Definition sim (t : ltag) (h : list (pack K)) (s : cell K (mcell K)) (s' : cell K (wcell K)) : Prop :=
  match s, s' with
  | CNone, CNone => True
  | CNat n, CNat n' => n = n'
  | CNum a, CNum a' => a = a'
  | CPair a b, CPair a' b' => a = a' /\ b = b'
  | CRest m, CRest c => basic t = false /\ sim_rest t h m c
  | _, _ => False
  end.

Definition shares {E : Type} (den : T) (d : dens K E) : list (T * T) :=
  map (fun pc => (fst pc, div K (snd pc) den)) (combine (de_pos K E d) (de_bins K E d)).
Definition valid (t : ltag) (r : ltag -> value) (s : cell K (mcell K)) : Prop :=
  match s with
  | CRest (Memo c v false) => memo t = true -> v = wresult K A t r c
  | CRest (Plain (WDens (Ok d))) => t = t_density -> de_dirty K T d = false ->
      de_hist K T d = shares (ofnat K (wcount K (r t_count))) d
  | CRest (Plain (WWDens (Ok d))) => t = t_weighted_density -> de_dirty K (T * T) d = false ->
      de_hist K (T * T) d = shares (wsum K (r t_sum_of_weights)) d
  | _ => True
  end.

Lemma memo_companion : forall t, memo t = true -> companion t = false.
Proof. destruct t; cbn; congruence. Qed.

(** ** The laws *)
Variable D : bool.
Hypothesis HO : OrderedLaws K.
Hypothesis HH : HeapContract H.
Definition ok_tag (t : ltag) : Prop :=
  match t with
  | t_tail _ => (0 < a_tail_cache K A)%nat
  | _ => companion t = true -> D = true
  end.
Definition apart (h : list (pack K)) : Prop := D = true -> NoDup (map p_sample h).
Definition rel (v w : value) : Prop := Same v w /\ (D = true -> v = w).

Lemma sim_init : forall t, sim t [] (binit K MR t) (binit K WR t) /\ forall r, valid t r (binit K MR t).
Proof.
  intros t; unfold binit; destruct (basic t) eqn:Eb.
  - split; [destruct t; cbn; try reflexivity; auto | intros r; destruct t; exact I].
  - split.
    + cbn [sim]; split; [assumption |]; cbn [xinit MemoRest WholeRest]; unfold minit.
      destruct (memo t) eqn:Em; cbn [sim_rest]; (split; [assumption |]); [reflexivity |].
      destruct t; try reflexivity; cbn.
      * eexists _, _; repeat split.
      * eexists _, _; repeat split.
      * exists []; repeat split.
    + intros r; cbn [xinit MemoRest]; unfold minit; destruct (memo t); [exact I |].
      destruct t; cbn; try exact I; intros; discriminate.
Qed.

Lemma pushes_snoc : forall (ops : list (tail_op T (pack K))) o,
  SpecTail.pushes (ops ++ [o]) = SpecTail.pushes ops ++ SpecTail.pushes [o].
Proof. intros; unfold pushes; apply flat_map_app. Qed.

Lemma dens_step_alike : forall (E : Type) (val amt : E -> T) c b cnt mn mx ws ws' (d d' : dens K E) e,
  dens_alike (Ok d) (Ok d') ->
  dens_alike (dens_operate K E val amt c b cnt mn mx ws d e) (dens_operate K E val amt c b cnt mn mx ws' d' e).
Proof.
  intros E val amt c b cnt mn mx ws ws' d d' e (E1 & E2 & E3 & _); unfold dens_operate; rewrite E1, E2, E3.
  match goal with |- dens_alike (match ?X with _ => _ end) _ => destruct X end; cbn; auto.
Qed.
Lemma dens_step_dirty : forall (E : Type) (val amt : E -> T) c b cnt mn mx ws (d d' : dens K E) e,
  dens_operate K E val amt c b cnt mn mx ws d e = Ok d' -> de_dirty K E d' = true.
Proof.
  intros E val amt c b cnt mn mx ws d d' e; unfold dens_operate.
  match goal with |- (match ?X with _ => _ end) = _ -> _ => destruct X end; intros Q; try discriminate Q; injection Q as <-; reflexivity.
Qed.

Lemma bstep_rest : forall (R : Rest K) t r p y, basic t = false -> bstep K R t r p (CRest y) = CRest (xstep K R t r p y).
Proof. intros R t r p y Hb; destruct t; cbn in Hb; try discriminate Hb; reflexivity. Qed.
Lemma bresult_rest : forall (R : Rest K) t r y, basic t = false -> bresult K sqrt R t r (CRest y) = VRest (xresult K R t r y).
Proof. intros R t r y Hb; destruct t; cbn in Hb; try discriminate Hb; reflexivity. Qed.

Ltac numbers Hs := repeat first [ rewrite (v_vnat K A _ _ Hs) | rewrite (v_vnum K A _ _ Hs) ].

Lemma bstep_shape : forall (R : Rest K) t r p s, (forall y, s <> CRest y) -> forall y, bstep K R t r p s <> CRest y.
Proof.
  intros R t r p s Hs y; destruct s; try (now specialize (Hs _ eq_refl)); destruct t; cbn; try discriminate;
    unfold of_option; match goal with |- context [match ?X with _ => _ end] => destruct X end; discriminate.
Qed.

Lemma simple_step : forall t h x s s' r r', (forall y, s <> CRest y) -> (forall f, Same (r f) (r' f)) -> sim t h s s' ->
  sim t (h ++ [x]) (bstep K MR t r x s) (bstep K WR t r' x s').
Proof.
  intros t h x s s' r r' Hs Hr HS.
  destruct s as [| n | a | a b | m], s' as [| n' | a' | a' b' | m']; try contradiction HS; try (now specialize (Hs _ eq_refl));
    cbn in HS; try (destruct HS); subst; destruct t; cbn;
    try reflexivity; try exact I; try (split; reflexivity); numbers Hr; try reflexivity;
    unfold of_option; match goal with |- context [match ?X with _ => _ end] => destruct X end; reflexivity.
Qed.

Lemma valid_simple : forall t q s, (forall y, s <> CRest y) -> valid t q s.
Proof. intros t q s Hs; destruct s; try exact I; now specialize (Hs _ eq_refl). Qed.

Lemma rest_step : forall t h x m c r r', basic t = false -> (forall f, Same (r f) (r' f)) -> sim_rest t h m c ->
  sim_rest t (h ++ [x]) (mstep K A t r x m) (wstep K A t r' x c).
Proof.
  intros t h x m c r r' Hb Hr HS; destruct m as [c0 | c0 v d]; cbn [mstep sim_rest] in *.
  2: { destruct HS as [Hm ->]; split; [assumption | now apply wstep_view]. }
  destruct HS as [Hm HS]; split; [assumption |].
  destruct t; cbn in Hb; try discriminate Hb; cbn in Hm; try discriminate Hm;
    try (subst c0; now apply wstep_view).
  - destruct HS as (o & o' & -> & -> & HD); cbn [wstep].
    eexists _, _; split; [reflexivity |]; split; [reflexivity |].
    destruct o as [d | |], o' as [d' | |]; try contradiction HD; cbn [obnd]; try exact I.
    rewrite (v_count K r r' Hr), !(v_num K r r' Hr); now apply dens_step_alike.
  - destruct HS as (o & o' & -> & -> & HD); cbn [wstep].
    eexists _, _; split; [reflexivity |]; split; [reflexivity |].
    destruct o as [d | |], o' as [d' | |]; try contradiction HD; cbn [obnd]; try exact I.
    rewrite (v_count K r r' Hr), !(v_num K r r' Hr); now apply dens_step_alike.
  - destruct HS as (ops & Hp & -> & ->); cbn [wstep].
    exists (ops ++ [TPush (p_sample x) [x]]).
    unfold tail_ops in *; rewrite map_app; cbn [map]; rewrite !pushes_snoc, Hp.
    split; [reflexivity |]; unfold tail_run; rewrite !fold_left_app; cbn [fold_left]; split; reflexivity.
Qed.

Lemma rest_valid : forall t r x m q, valid t q (CRest (mstep K A t r x m)).
Proof.
  intros t r x m q; destruct m as [c | c v d]; cbn [mstep valid]; [| exact I].
  destruct (wstep K A t r x c) as [| | | o | o | | | | | |] eqn:Ec; try exact I; destruct o as [d | |]; try exact I;
    intros -> Hd; destruct c; cbn in Ec; try discriminate Ec; injection Ec as Ec; destruct d0; cbn in Ec; try discriminate Ec;
    apply dens_step_dirty in Ec; congruence.
Qed.

Lemma sim_step : forall t h x s s' r r', ok_tag t -> apart (h ++ [x]) -> sim t h s s' -> (forall f, rel (r f) (r' f)) ->
  sim t (h ++ [x]) (bstep K MR t r x s) (bstep K WR t r' x s') /\ forall q, valid t q (bstep K MR t r x s).
Proof.
  intros t h x s s' r r' _ _ HS Hr; assert (Hr' : forall f, Same (r f) (r' f)) by (intros f; apply Hr).
  destruct s as [| n | a | a b | m].
  5: { destruct s' as [| | | | c]; try contradiction HS; destruct HS as [Hb HS].
       rewrite !bstep_rest by assumption; split; [split; [assumption | now apply rest_step] | intros q; apply rest_valid]. }
  all: split; [apply simple_step; [discriminate | assumption | assumption] | intros q; apply valid_simple; apply (bstep_shape MR); discriminate].
Qed.

Lemma sim_valid : forall t (r r' : ltag -> value) s,
  (forall d, In d (lconsults t) -> rel (r (lfeature d)) (r' (lfeature d))) -> valid t r s -> valid t r' s.
Proof.
  intros t r r' s Hr HV; destruct s as [| | | | m]; try exact I.
  assert (E : forall f, In f (map lfeature (lconsults t)) -> Same (r f) (r' f)).
  { intros f Hf; apply in_map_iff in Hf; destruct Hf as [d [<- Hd]]; now apply Hr. }
  destruct m as [[| | | o | o | | | | | |] | c v [|]]; cbn [valid] in *; try exact I.
  - destruct o as [d | |]; try exact I; intros -> Hd; rewrite (HV eq_refl Hd); f_equal; f_equal.
    apply (view K nat (wcount K)); [reflexivity |]; apply E; cbn; tauto.
  - destruct o as [d | |]; try exact I; intros -> Hd; rewrite (HV eq_refl Hd); f_equal.
    apply (view K T (wsum K)); [reflexivity |]; apply E; cbn; tauto.
  - intros Hm; rewrite (HV Hm); clear HV.
    set (mask := fun (q : ltag -> value) f => if existsb (ltag_eqb f) (map lfeature (lconsults t)) then q f else VNone).
    assert (M : forall q, wresult K A t q c = wresult K A t (mask q) c).
    { intros q; apply (proj2 (whole_reads_only K A)); intros d Hd; unfold mask.
      replace (existsb _ _) with true; [reflexivity |]; symmetry; apply existsb_exists; exists (lfeature d).
      split; [now apply in_map | now apply ltag_eqb_eq]. }
    rewrite (M r), (M r'); apply wresult_view; [| now apply memo_companion].
    intros f; unfold mask; destruct (existsb _ _) eqn:Ef; [| apply same_refl].
    apply existsb_exists in Ef; destruct Ef as (g & Hg & Eg); apply ltag_eqb_eq in Eg; subst g; now apply E.
Qed.

Lemma result_tail : forall sd h ops, (0 < a_tail_cache K A)%nat -> apart h -> SpecTail.pushes ops = SpecTail.pushes (tail_ops h) ->
  let pred := tail_pred K (lr_of sd) in
  rel (VRest (NTail (obnd (tail_run H pred start ops) (tail_result H pred))
                    (obnd (tail_run H pred start ops) (fun st => tail_variate_result H pred st 0))))
      (VRest (NTail (obnd (tail_run H pred start (tail_ops h)) (tail_result H pred))
                    (obnd (tail_run H pred start (tail_ops h)) (fun st => tail_variate_result H pred st 0)))).
Proof.
  intros sd h ops Hk Hh Hp pred.
  assert (E : SpecTail.pushes (tail_ops h) = map (fun p => (p_sample p, [p])) h).
  { clear; induction h as [| p h IH]; cbn; [reflexivity | now rewrite <- IH]. }
  assert (WF : WellFormed 1 ops).
  { unfold WellFormed; rewrite Hp, E; apply Forall_map, Forall_forall; reflexivity. }
  destruct (interleaving H HH T (pack K) pred (pred_sw K HO (lr_of sd)) (antisym K HO (lr_of sd)) (a_tail_cache K A) 1
              (zero K) (no_pack K) ops (tail_ops h) Hk WF (eq_sym Hp)) as (s1 & s2 & tl & E1 & E2 & R1 & R2).
  rewrite E1, E2; cbn [obnd]; rewrite R1, R2; split; [reflexivity |]; intros HD.
  destruct (interleaving_variates H HH T (pack K) pred (pred_sw K HO (lr_of sd)) (antisym K HO (lr_of sd)) (a_tail_cache K A) 1
              (zero K) (no_pack K) ops (tail_ops h) Hk WF (eq_sym Hp)) as (s3 & s4 & E3 & E4 & R3).
  - rewrite Hp, E, map_map; cbn; exact (Hh HD).
  - rewrite E1 in E3; injection E3 as <-; rewrite E2 in E4; injection E4 as <-.
    destruct (R3 0%nat Nat.lt_0_1) as (vals & V1 & V2); now rewrite V1, V2.
Qed.

Lemma dens_result_shares : forall (E : Type) den (d : dens K E), 
  (de_dirty K E d = false -> de_hist K E d = shares (den (de_count K E d) (de_wsum K E d)) d) ->
  dens_result K E den d = shares (den (de_count K E d) (de_wsum K E d)) d.
Proof.
  intros E den d HV; unfold dens_result, dens_extract; destruct (de_dirty K E d); [reflexivity | now apply HV].
Qed.

Lemma simple_result : forall t h s s' r r', (forall y, s <> CRest y) -> (forall f, Same (r f) (r' f)) -> sim t h s s' ->
  bresult K sqrt MR t r s = bresult K sqrt WR t r' s'.
Proof.
  intros t h s s' r r' Hs Hr HS.
  destruct s as [| n | a | a b | m], s' as [| n' | a' | a' b' | m']; try contradiction HS; try (now specialize (Hs _ eq_refl));
    cbn in HS; try (destruct HS); subst; destruct t; cbn; try reflexivity; numbers Hr; reflexivity.
Qed.

Lemma rel_refl : forall v, rel v v.
Proof. intros v; split; [apply same_refl | reflexivity]. Qed.
Lemma rel_sym : forall v w, rel v w -> rel w v.
Proof. intros v w [H1 H2]; split; [now apply same_sym | intros E; symmetry; now apply H2]. Qed.
Lemma rel_trans : forall u v w, rel u v -> rel v w -> rel u w.
Proof. intros u v w [H1 H2] [H3 H4]; split; [now apply (same_trans K u v w) | intros E; transitivity v; auto]. Qed.

(** With the companions in the set, all answers are equal. *)
Lemma answer_view : forall t (r r' : ltag -> value) c, ok_tag t -> (forall f, rel (r f) (r' f)) ->
  wresult K A t r c = wresult K A t r' c.
Proof.
  intros t r r' c Hok Hr; destruct (companion t) eqn:Ec.
  - assert (HD : D = true) by (destruct t; cbn in Ec; try discriminate Ec; now apply Hok).
    apply (proj2 (whole_reads_only K A)); intros d _; now apply Hr.
  - apply wresult_view; [intros f; apply Hr | assumption].
Qed.

Lemma rest_result : forall t h m c r r', basic t = false -> ok_tag t -> apart h -> (forall f, rel (r f) (r' f)) -> sim_rest t h m c ->
  valid t r (CRest m) -> rel (VRest (mresult K A t r m)) (VRest (wresult K A t r' c)).
Proof.
  intros t h m c r r' Hb Hok Hh Hr HS HV; assert (Hr' : forall f, Same (r f) (r' f)) by (intros f; apply Hr).
  destruct m as [c0 | c0 v d]; cbn [mresult sim_rest] in *.
  2: { destruct HS as [Hm ->]; cbn [valid] in HV.
       replace (if d then _ else v) with (wresult K A t r c) by (destruct d; [reflexivity | symmetry; now apply HV]).
       rewrite (answer_view t r r' c Hok Hr); apply rel_refl. }
  destruct HS as [Hm HS].
  destruct t; cbn in Hb; try discriminate Hb; cbn in Hm; try discriminate Hm;
    try (subst c0; rewrite (answer_view _ r r' c Hok Hr); apply rel_refl).
  - destruct HS as (o & o' & -> & -> & HD); cbn [wresult]; rewrite <- (v_count K r r' Hr').
    destruct o as [d | |], o' as [d' | |]; try contradiction HD; cbn [obnd]; try apply rel_refl.
    destruct HD as (E1 & E2 & E3 & E4); unfold density_result; rewrite !dens_result_shares.
    + unfold shares; cbn; rewrite E2, E3; apply rel_refl.
    + cbn; congruence.
    + cbn; intros Hd; now rewrite (HV eq_refl Hd).
  - destruct HS as (o & o' & -> & -> & HD); cbn [wresult]; rewrite <- (v_sum K r r' Hr').
    destruct o as [d | |], o' as [d' | |]; try contradiction HD; cbn [obnd]; try apply rel_refl.
    destruct HD as (E1 & E2 & E3 & E4); unfold weighted_density_result; rewrite !dens_result_shares.
    + unfold shares; cbn; rewrite E2, E3; apply rel_refl.
    + cbn; congruence.
    + cbn; intros Hd; now rewrite (HV eq_refl Hd).
  - destruct HS as (ops & Hp & -> & ->); cbn [wresult]; now apply result_tail.
Qed.

Lemma sim_result : forall t h s s' r r', ok_tag t -> apart h -> sim t h s s' -> valid t r s -> (forall f, rel (r f) (r' f)) ->
  rel (bresult K sqrt MR t r s) (bresult K sqrt WR t r' s').
Proof.
  intros t h s s' r r' Hok Hh HS HV Hr; assert (Hr' : forall f, Same (r f) (r' f)) by (intros f; apply Hr).
  destruct s as [| n | a | a b | m].
  5: { destruct s' as [| | | | c]; try contradiction HS; destruct HS as [Hb HS].
       rewrite !bresult_rest by assumption; now apply (rest_result t h). }
  all: rewrite (simple_result t h _ s' r r'); [apply rel_refl | discriminate | assumption | assumption].
Qed.

Lemma rest_look : forall t h m c r, basic t = false -> disturbing t = false -> sim_rest t h m c -> valid t r (CRest m) ->
  sim_rest t h (mlook K A t r m) c /\ valid t r (CRest (mlook K A t r m)).
Proof.
  intros t h m c r Hb Hd HS HV; destruct m as [c0 | c0 v d]; cbn [mlook sim_rest] in *.
  2: { destruct HS as [Hm ->]; split; [now split |]; intros _; destruct d; [reflexivity | now apply HV]. }
  destruct HS as [Hm HS].
  destruct t; cbn in Hb; try discriminate Hb; cbn in Hm; try discriminate Hm; cbn in Hd; try discriminate Hd;
    try (split; [split; assumption | exact HV]).
  - destruct HS as (o & o' & -> & -> & HD); cbn [wlook].
    destruct o as [d | |], o' as [d' | |]; try contradiction HD; cbn [obnd].
    + destruct HD as (E1 & E2 & E3 & E4); unfold dens_extract; cbn; destruct (de_dirty K T d) eqn:Ed; cbn.
      * split; [split; [reflexivity |]; eexists _, _; repeat split; cbn; assumption | reflexivity].
      * split; [split; [reflexivity |]; eexists _, _; repeat split; cbn; assumption |].
        cbn in HV; intros E _; now apply HV.
    + split; [split; [reflexivity |]; now exists NotANumber, NotANumber | exact I].
    + split; [split; [reflexivity |]; now exists UB, UB | exact I].
  - destruct HS as (o & o' & -> & -> & HD); cbn [wlook].
    destruct o as [d | |], o' as [d' | |]; try contradiction HD; cbn [obnd].
    + destruct HD as (E1 & E2 & E3 & E4); unfold dens_extract; cbn; destruct (de_dirty K (T * T) d) eqn:Ed; cbn.
      * split; [split; [reflexivity |]; eexists _, _; repeat split; cbn; assumption | reflexivity].
      * split; [split; [reflexivity |]; eexists _, _; repeat split; cbn; assumption |].
        cbn in HV; intros E _; now apply HV.
    + split; [split; [reflexivity |]; now exists NotANumber, NotANumber | exact I].
    + split; [split; [reflexivity |]; now exists UB, UB | exact I].
  - destruct HS as (ops & Hp & -> & ->); cbn [wlook]; split; [split; [reflexivity |] | exact I].
    exists (ops ++ [TExtract]); rewrite pushes_snoc, Hp, app_nil_r; split; [reflexivity |].
    unfold tail_run; rewrite !fold_left_app; cbn [fold_left]; split; reflexivity.
Qed.

Lemma sim_look : forall t h s s' r, ok_tag t -> disturbing t = false -> apart h -> sim t h s s' -> valid t r s ->
  sim t h (blook K A t r s) s' /\ valid t r (blook K A t r s).
Proof.
  intros t h s s' r _ Hd _ HS HV; destruct s as [| n | a | a b | m]; try (split; assumption).
  destruct s' as [| | | | c]; try contradiction HS; destruct HS as [Hb HS].
  unfold blook; rewrite Hb; destruct (rest_look t h m c r Hb Hd HS HV) as [H1 H2].
  split; [split; assumption | assumption].
Qed.

Lemma sim_steady : forall t h s s' r, ok_tag t -> keeps_result t = false -> apart h -> sim t h s s' -> valid t r s.
Proof.
  intros t h s s' r _ Hk _ HS; destruct s as [| n | a | a b | m]; try exact I.
  destruct s' as [| | | | c]; try contradiction HS; destruct HS as [Hb HS].
  destruct m as [[| | | o | o | | | | | |] | c0 v [|]]; cbn [valid]; try exact I.
  - destruct o; try exact I; intros ->; discriminate Hk.
  - destruct o; try exact I; intros ->; discriminate Hk.
  - intros Hm; destruct t; cbn in Hm, Hk; congruence.
Qed.

Lemma apart_sub : forall l l', Subseq l l' -> apart l' -> apart l.
Proof. intros l l' Hs Hl HD; apply (subseq_nodup _ _ _ l l' Hs), Hl, HD. Qed.

Lemma memo_reads_only : RestReadsOnly MR.
Proof.
  destruct (whole_reads_only K A) as [H1 H2]; split; cbn [xstep xresult MemoRest].
  - intros t r1 r2 x s Hr; destruct s; cbn [mstep]; f_equal; now apply H1.
  - intros t r1 r2 s Hr; destruct s as [c | c v []]; cbn [mresult]; try reflexivity; now apply H2.
Qed.
End Laws.
