(** The accumulators of the library, saved and loaded. *)
From Coq Require Import List ZArith Bool Lia Arith.
From Verif Require Import Num ModelBasic ModelMinMax ModelRolling ModelDensity ModelPSquare ModelTail ModelPot.
From Verif Require Import ModelFramework ModelLibrary ModelSets ModelRollingSets ModelWhole.
From Verif Require Import ModelObserve SpecObserve ProofObserve2.
From Verif Require Import SpecMachine ModelArchive ModelMachines ModelSetArchive ModelLibraryArchive.
From Verif Require Import ProofMachines ProofMachines2 ProofSetArchive.
Import ListNotations.

Section Laws.
Variable K : Num.
Variable A : Args K.
Variable sqrt : car K -> car K.
Local Notation T := (car K).
Local Notation value := (value K (note K)).
Local Notation Same := (SameAnswer K).
Local Notation MR := (MemoRest K A).
Local Notation H := (a_heap K A).

(** ** Equal but for what is never used *)
Definition dsame {E : Type} (d d' : dens K E) : Prop :=
  de_cache K E d = de_cache K E d' /\ de_bins K E d = de_bins K E d' /\ de_pos K E d = de_pos K E d' /\
  de_hist K E d = de_hist K E d' /\ de_dirty K E d = de_dirty K E d'.
Definition wsame (c c' : wcell K) : Prop :=
  match c, c' with
  | WDens (Ok d), WDens (Ok d') => dsame d d'
  | WWDens (Ok d), WWDens (Ok d') => dsame d d'
  | WMed m, WMed m' => dm_sum K m = dm_sum K m' /\ dm_dirty K m = dm_dirty K m' /\
      (dm_dirty K m = false -> dm_median K m = dm_median K m')
  | WTail (Ok s), WTail (Ok s') => tl_sorted s = tl_sorted s' /\ tl_indices s = tl_indices s' /\ tl_samples s = tl_samples s'
  | _, _ => c = c'
  end.
Definition msame (m m' : mcell K) : Prop :=
  match m, m' with
  | Plain c, Plain c' => wsame c c'
  | Memo c v d, Memo c' v' d' => c = c' /\ d = d' /\ (d = false -> v = v')
  | _, _ => False
  end.
Definition csame (s s' : cell K (mcell K)) : Prop :=
  match s, s' with
  | CRest m, CRest m' => msame m m'
  | _, _ => s = s'
  end.
Lemma wsame_refl : forall c, wsame c c.
Proof. intros [| | | [] | [] | | | [] | | |]; cbn; unfold dsame; auto. Qed.

(** The pairs that are not simply equal. *)
Inductive wcase : wcell K -> wcell K -> Prop :=
| wc_eq : forall c, wcase c c
| wc_dens : forall d d', dsame d d' -> wcase (WDens (Ok d)) (WDens (Ok d'))
| wc_wdens : forall d d', dsame d d' -> wcase (WWDens (Ok d)) (WWDens (Ok d'))
| wc_med : forall m m', dm_sum K m = dm_sum K m' -> dm_dirty K m = dm_dirty K m' ->
    (dm_dirty K m = false -> dm_median K m = dm_median K m') -> wcase (WMed m) (WMed m')
| wc_tail : forall s s', tl_sorted s = tl_sorted s' -> tl_indices s = tl_indices s' -> tl_samples s = tl_samples s' ->
    wcase (WTail (Ok s)) (WTail (Ok s')).
Lemma wsame_case : forall c c', wsame c c' -> wcase c c'.
Proof.
  intros c c' E; destruct c as [| | | o | o | | m | o | | |]; try (cbn in E; subst; constructor);
    try (destruct o as [d | |]); destruct c' as [| | | o' | o' | | m' | o' | | |]; try (cbn in E; discriminate E);
    try (destruct o' as [d' | |]); try (cbn in E; discriminate E); try (constructor; exact E); try (destruct E as (E1 & E2 & E3));
    now constructor.
Qed.

Lemma dsame_operate : forall (E : Type) (val amt : E -> T) c b cnt mn mx ws ws' (d d' : dens K E) e, dsame d d' ->
  match dens_operate K E val amt c b cnt mn mx ws d e, dens_operate K E val amt c b cnt mn mx ws' d' e with
  | Ok q, Ok q' => dsame q q'
  | NotANumber, NotANumber | UB, UB => True
  | _, _ => False
  end.
Proof.
  intros E val amt c b cnt mn mx ws ws' d d' e (E1 & E2 & E3 & E4 & E5); unfold dens_operate; rewrite <- E1, <- E2, <- E3.
  match goal with |- match (match ?X with _ => _ end) with _ => _ end => destruct X end; try exact I.
  unfold dsame; cbn; auto.
Qed.
Lemma wstep_same : forall t r x c c', wsame c c' -> wsame (wstep K A t r x c) (wstep K A t r x c').
Proof.
  intros t r x c c' E; apply wsame_case in E.
  destruct E as [c | d d' E | d d' E | m m' E1 E2 E3 | s s' E1 E2 E3]; [apply wsame_refl | | | |].
  - destruct t; try exact E; cbn [wstep obnd].
    pose proof (dsame_operate T (fun y => y) (fun _ => one K) (a_density_cache K A) (a_density_bins K A)
      (wcount K (r t_count)) (wnum K (r t_min)) (wnum K (r t_max)) (add K (de_wsum K T d) (one K)) (add K (de_wsum K T d') (one K))
      d d' (p_sample x) E) as P.
    destruct (dens_operate K T _ _ _ _ _ _ _ _ d _), (dens_operate K T _ _ _ _ _ _ _ _ d' _); try contradiction; try exact P; reflexivity.
  - destruct t; try exact E; cbn [wstep obnd].
    pose proof (dsame_operate (T * T) fst snd (a_density_cache K A) (a_density_bins K A)
      (wcount K (r t_count)) (wnum K (r t_min)) (wnum K (r t_max)) (ModelWhole.wsum K (r t_sum_of_weights)) (ModelWhole.wsum K (r t_sum_of_weights))
      d d' (p_sample x, p_weight x) E) as P.
    destruct (dens_operate K (T * T) _ _ _ _ _ _ _ _ d _), (dens_operate K (T * T) _ _ _ _ _ _ _ _ d' _); try contradiction; try exact P; reflexivity.
  - destruct t; cbn; auto; repeat split; auto; discriminate.
  - destruct t; try (cbn; auto; fail); cbn [wstep obnd].
    unfold tail_push; rewrite <- E2, <- E3; destruct (Nat.ltb _ _); [cbn; auto |].
    destruct (tl_indices s) as [| top l] eqn:Ei; [reflexivity |]; destruct (nth_error _ top); [| reflexivity].
    destruct (tail_pred K _ _ _); [| cbn; rewrite Ei; auto].
    destruct (rev _); [reflexivity | cbn; auto].
Qed.

Lemma dmed_same : forall m m' cnt h, dm_sum K m = dm_sum K m' -> dm_dirty K m = dm_dirty K m' ->
  (dm_dirty K m = false -> dm_median K m = dm_median K m') ->
  match dmed_result K m cnt h, dmed_result K m' cnt h with
  | Ok (q, x), Ok (q', x') => wsame (WMed q) (WMed q') /\ x = x'
  | NotANumber, NotANumber | UB, UB => True
  | _, _ => False
  end.
Proof.
  intros m m' cnt h E1 E2 E3; unfold dmed_result; rewrite <- E1, <- E2.
  destruct (dm_dirty K m) eqn:Ed.
  - destruct (dmed_loop K _ _ h (dm_sum K m)) as [[[| i] sm] | |]; try exact I.
    destruct (nth_error h i) as [[p y] |]; [| exact I]; destruct (nth_error h (S i)) as [[q z] |]; [| exact I].
    split; [apply wsame_refl | reflexivity].
  - specialize (E3 eq_refl); rewrite <- E3; destruct (dm_median K m) eqn:Em; [| exact I]; cbn; rewrite Ed, Em; auto.
Qed.
Lemma wresult_same : forall t r c c', companion t = false -> wsame c c' ->
  Same (VRest (wresult K A t r c)) (VRest (wresult K A t r c')).
Proof.
  intros t r c c' Ht E; apply wsame_case in E.
  destruct E as [c | d d' E | d d' E | m m' E1 E2 E3 | s s' E1 E2 E3]; [apply same_refl | | | |].
  - destruct t; try apply same_refl; cbn [wresult obnd]; destruct E as (E1 & E2 & E3 & E4 & E5).
    unfold density_result, dens_result, dens_extract; cbn; rewrite E2, E3, E5.
    destruct (de_dirty K T d'); cbn; rewrite ?E4; reflexivity.
  - destruct t; try apply same_refl; cbn [wresult obnd]; destruct E as (E1 & E2 & E3 & E4 & E5).
    unfold weighted_density_result, dens_result, dens_extract; cbn; rewrite E2, E3, E5.
    destruct (de_dirty K (T * T) d'); cbn; rewrite ?E4; reflexivity.
  - destruct t; try apply same_refl; cbn [wresult]; destruct (whist K (r t_density)) as [h | |]; try apply same_refl; cbn [obnd];
      pose proof (dmed_same m m' (wcount K (r t_count)) h E1 E2 E3) as P;
      destruct (dmed_result K m _ h) as [[q y] | |], (dmed_result K m' _ h) as [[q' y'] | |]; try contradiction; try apply same_refl;
      destruct P as [_ <-]; apply same_refl.
  - destruct t; try apply same_refl; cbn [wresult obnd SameAnswer].
    unfold tail_result, tail_sort; rewrite <- E1, <- E2, <- E3; destruct (tl_sorted s); cbn; rewrite <- ?E2; reflexivity.
Qed.

Lemma wlook_view : forall t r r' c, (forall f, Same (r f) (r' f)) -> wlook K A t r c = wlook K A t r' c.
Proof.
  intros t r r' c Hr; unfold wlook.
  rewrite (v_count K r r' Hr), (v_sum K r r' Hr), (v_tail K r r' Hr), (v_list K r r' Hr), (v_hist K r r' Hr); reflexivity.
Qed.
Lemma wlook_same : forall t r c c', wsame c c' -> wsame (wlook K A t r c) (wlook K A t r c').
Proof.
  intros t r c c' E; apply wsame_case in E.
  destruct E as [c | d d' E | d d' E | m m' E1 E2 E3 | s s' E1 E2 E3]; [apply wsame_refl | | | |].
  - destruct t; try exact E; cbn [wlook obnd wsame]; destruct E as (E1 & E2 & E3 & E4 & E5).
    unfold dens_extract, dsame; cbn; rewrite E2, E3, E5; destruct (de_dirty K T d') eqn:Ed; cbn; rewrite ?E5, ?Ed; auto.
  - destruct t; try exact E; cbn [wlook obnd wsame]; destruct E as (E1 & E2 & E3 & E4 & E5).
    unfold dens_extract, dsame; cbn; rewrite E2, E3, E5; destruct (de_dirty K (T * T) d') eqn:Ed; cbn; rewrite ?E5, ?Ed; auto.
  - destruct t; try (cbn; auto; fail); cbn [wlook]; destruct (whist K (r t_density)) as [h | |]; cbn [obnd]; try (cbn; auto; fail);
      pose proof (dmed_same m m' (wcount K (r t_count)) h E1 E2 E3) as P;
      destruct (dmed_result K m _ h) as [[q y] | |], (dmed_result K m' _ h) as [[q' y'] | |]; try contradiction; try (cbn; auto; fail);
      now destruct P as [P _].
  - destruct t; try (cbn; auto; fail); cbn [wlook obnd wsame]; unfold tail_sort; rewrite <- E1, <- E2, <- E3.
    destruct (tl_sorted s) eqn:Es; cbn; rewrite ?Es, ?E2, ?E3; auto.
Qed.

(** ** The laws *)
Lemma v_nat : forall r r' : ltag -> value, (forall f, Same (r f) (r' f)) -> forall f, vnat K MR (r f) = vnat K MR (r' f).
Proof. intros r r' Hr f; now apply (view K nat (vnat K MR)). Qed.
Lemma v_vnum' : forall r r' : ltag -> value, (forall f, Same (r f) (r' f)) -> forall f, vnum K MR (r f) = vnum K MR (r' f).
Proof. intros r r' Hr f; now apply (view K T (vnum K MR)). Qed.

Lemma csame_refl : forall s, csame s s.
Proof. intros [| | | | [c | c v d]]; cbn; auto using wsame_refl. Qed.

Lemma mstep_same : forall t r r' x m m', (forall f, Same (r f) (r' f)) -> msame m m' ->
  msame (ModelObserve.mstep K A t r x m) (ModelObserve.mstep K A t r' x m').
Proof.
  intros t r r' x [c | c v d] [c' | c' v' d'] Hr E; try contradiction; cbn in *.
  - rewrite (wstep_view K A r r' Hr); now apply wstep_same.
  - destruct E as (<- & <- & _); split; [| split; [reflexivity | discriminate]].
    now rewrite (wstep_view K A r r' Hr).
Qed.
Lemma step_same : forall t r r' x s s', companion t = false -> csame s s' -> (forall f, Same (r f) (r' f)) ->
  csame (bstep K MR t r x s) (bstep K MR t r' x s').
Proof.
  intros t r r' x s s' _ E Hr; destruct s as [| n | a | a b | m].
  5: { destruct s' as [| | | | m']; try discriminate E; cbn in E.
       destruct t; exact (mstep_same _ r r' x m m' Hr E). }
  all: cbn in E; subst s'; destruct t; cbn; try reflexivity; rewrite ?(v_nat r r' Hr), ?(v_vnum' r r' Hr); try reflexivity;
    unfold of_option; match goal with |- context [match ?X with _ => _ end] => destruct X end; reflexivity.
Qed.
Lemma mresult_same : forall t r r' m m', companion t = false -> (forall f, Same (r f) (r' f)) -> msame m m' ->
  Same (VRest (mresult K A t r m)) (VRest (mresult K A t r' m')).
Proof.
  intros t r r' [c | c v d] [c' | c' v' d'] Ht Hr E; try contradiction; cbn [msame mresult] in *.
  - rewrite (wresult_view K A r r' Hr t c Ht); now apply wresult_same.
  - destruct E as (<- & <- & E'); destruct d; [| rewrite (E' eq_refl); apply same_refl].
    rewrite (wresult_view K A r r' Hr t c Ht); apply same_refl.
Qed.
Lemma result_same : forall t r r' s s', companion t = false -> csame s s' -> (forall f, Same (r f) (r' f)) ->
  Same (bresult K sqrt MR t r s) (bresult K sqrt MR t r' s').
Proof.
  intros t r r' s s' Ht E Hr; destruct s as [| n | a | a b | m].
  5: { destruct s' as [| | | | m']; try discriminate E; cbn in E.
       pose proof (mresult_same t r r' m m' Ht Hr E) as P.
       destruct t; first [exact P | cbn; rewrite ?(v_nat r r' Hr), ?(v_vnum' r r' Hr); reflexivity]. }
  all: cbn in E; subst s'; destruct t; cbn; rewrite ?(v_nat r r' Hr), ?(v_vnum' r r' Hr); reflexivity.
Qed.
Lemma clean_same : forall s s', csame s s' -> clean K s = clean K s'.
Proof.
  intros s s' E; destruct s as [| | | | m]; try (cbn in E; now subst s').
  destruct s' as [| | | | m']; try discriminate E; cbn in E.
  destruct m as [c | c v d], m' as [c' | c' v' d']; try contradiction; cbn in E; [| destruct E as (_ & <- & _); reflexivity].
  apply wsame_case in E; destruct E as [c | d d' E | d d' E | m m' E1 E2 E3 | s s' E1 E2 E3]; cbn; try reflexivity.
  - now destruct E as (_ & _ & _ & _ & ->).
  - now destruct E as (_ & _ & _ & _ & ->).
  - now rewrite E2.
Qed.
Lemma asks_same : forall t s s', csame s s' -> basks K t s = basks K t s'.
Proof. intros t s s' E; unfold basks; now rewrite (clean_same s s' E). Qed.
Lemma look_same : forall t r r' s s', companion t = false -> csame s s' -> (forall f, Same (r f) (r' f)) ->
  csame (blook K A t r s) (blook K A t r' s').
Proof.
  intros t r r' s s' Ht E Hr; destruct s as [| | | | m]; try (cbn in E; subst s'; apply csame_refl).
  destruct s' as [| | | | m']; try discriminate E; cbn in E; unfold blook.
  destruct (basic t); [exact E |].
  destruct m as [c | c v d], m' as [c' | c' v' d']; try contradiction; cbn in *.
  - rewrite (wlook_view t r r' c Hr); now apply wlook_same.
  - destruct E as (<- & <- & E'); split; [reflexivity |]; split; [reflexivity |]; intros _.
    destruct d; [| now apply E'].
    now rewrite (wresult_view K A r r' Hr t c Ht).
Qed.
Lemma broken_same : forall s s', csame s s' -> broken K s = broken K s'.
Proof.
  intros s s' E; destruct s as [| | | | m]; try (cbn in E; now subst s').
  destruct s' as [| | | | m']; try discriminate E; cbn in E.
  assert (W : forall c c', wsame c c' -> wbroken K c = wbroken K c').
  { intros c c' E'; apply wsame_case in E'; destruct E'; reflexivity. }
  destruct m as [c | c v d], m' as [c' | c' v' d']; try contradiction; cbn in *; [now apply W |].
  destruct E as (<- & <- & E'); destruct d; [reflexivity | now rewrite (E' eq_refl)].
Qed.
End Laws.
