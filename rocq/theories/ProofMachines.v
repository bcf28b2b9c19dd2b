(** Proofs about sessions: extraction as an observation, serialization round trips. *)
From Coq Require Import List Arith Bool.
From Verif Require Import Num NumFacts ModelRolling ModelTail SpecTail ModelDensity ModelPSquare ModelPot
  SpecMachine ModelArchive ModelMachines ProofTailTop.
Import ListNotations.

(** ** Sessions *)
Section Sessions.
Variable M : Machine.

Lemma mrun_app : forall s (a b : list (mcall M)),
  mrun s (a ++ b) = match mrun s a with Ok s' => mrun s' b | o => o end.
Proof.
  intros s a b; unfold mrun; rewrite fold_left_app.
  destruct (fold_left mstep a (Ok s)) as [s' | |]; [reflexivity | |]; induction b; auto.
Qed.
Lemma mrun_cons : forall s c (cs : list (mcall M)),
  mrun s (c :: cs) = match mstep (Ok s) c with Ok s' => mrun s' cs | o => o end.
Proof. intros s c cs; apply (mrun_app s [c] cs). Qed.
Lemma mrun_snoc : forall s (a : list (mcall M)) c, mrun s (a ++ [c]) = mstep (mrun s a) c.
Proof. intros s a c; rewrite mrun_app; destruct (mrun s a); reflexivity. Qed.
Lemma inputs_snoc : forall (a : list (mcall M)) c,
  inputs (a ++ [c]) = inputs a ++ (match c with Feed x => [x] | Ask _ => [] end).
Proof. intros a c; unfold inputs; rewrite flat_map_app; cbn; now rewrite app_nil_r. Qed.
Lemma inputs_feeds : forall xs : list (MIn M), inputs (M := M) (map Feed xs) = xs.
Proof. induction xs as [| x xs IH]; [reflexivity |]; change (x :: inputs (M := M) (map Feed xs) = x :: xs); now rewrite IH. Qed.

(** The extraction-free session stays in step with the session. *)
Lemma observation_by : forall (R : MState M -> MState M -> Prop) (Q : MAsk M -> Prop),
  R (mstart M) (mstart M) ->
  (forall s t x s', R s t -> mfeed M s x = Ok s' -> exists t', mfeed M t x = Ok t' /\ R s' t') ->
  (forall s t q s' r, R s t -> mask M s q = Ok (s', r) -> R s' t) ->
  (forall s t q, Q q -> R s t -> answer (M := M) (Ok s) q = answer (Ok t) q) ->
  Observation M anything Q.
Proof.
  intros R Q H0 Hf Ha Hq cs s q _ Q1 E.
  assert (I : forall cs s, mrun (mstart M) cs = Ok s ->
             exists t, mrun (mstart M) (map Feed (inputs cs)) = Ok t /\ R s t).
  { clear cs s q E Q1; intros cs; induction cs as [| c cs IH] using rev_ind; intros s E.
    - injection E as <-; now exists (mstart M).
    - rewrite mrun_snoc in E; destruct (mrun (mstart M) cs) as [s1 | |]; try discriminate E.
      destruct (IH s1 eq_refl) as (t1 & Et & R1).
      rewrite inputs_snoc, map_app, mrun_app, Et; destruct c as [x | q]; cbn in E |- *.
      + destruct (Hf s1 t1 x s R1 E) as (t' & Ef & R'); exists t'; cbn; now rewrite Ef.
      + exists t1; split; [reflexivity |].
        destruct (mask M s1 q) as [[s2 r] | |] eqn:Em; try discriminate E; injection E as <-.
        now apply (Ha s1 t1 q s2 r). }
  destruct (I cs s E) as (t & Et & Rt); rewrite Et; now apply Hq.
Qed.

Lemma mask_pure_observation : (forall s q s' r, mask M s q = Ok (s', r) -> s' = s) ->
  Observation M anything anything.
Proof.
  intros Hp; apply (observation_by eq); auto.
  - intros s t x s' <- E; eauto.
  - intros s t q s' r <- E; now apply Hp in E.
  - now intros s t q _ ->.
Qed.

(** States that cannot be told apart. *)
Lemma answers_agree : forall (R : MState M -> MState M -> Prop),
  (forall s t x, R s t -> match mfeed M s x, mfeed M t x with Ok s', Ok t' => R s' t' | Ok _, _ | _, Ok _ => False | a, b => a = b end) ->
  (forall s t q, R s t -> match mask M s q, mask M t q with
      | Ok (s', r), Ok (t', r') => R s' t' /\ r = r' | Ok _, _ | _, Ok _ => False
      | NotANumber, NotANumber | UB, UB => True | _, _ => False end) ->
  forall cs s t q, R s t -> answer (M := M) (mrun s cs) q = answer (mrun t cs) q.
Proof.
  intros R Hf Ha; induction cs as [| c cs IH]; intros s t q R0.
  - cbn; specialize (Ha s t q R0); destruct (mask M s q) as [[s' r] | |], (mask M t q) as [[t' r'] | |];
      try contradiction; try reflexivity; now destruct Ha as [_ ->].
  - rewrite !mrun_cons; destruct c as [x | q']; cbn.
    + specialize (Hf s t x R0); destruct (mfeed M s x), (mfeed M t x); try contradiction; try discriminate Hf;
        try reflexivity; now apply IH.
    + specialize (Ha s t q' R0); destruct (mask M s q') as [[s' r] | |], (mask M t q') as [[t' r'] | |];
        try contradiction; try reflexivity; now apply IH.
Qed.
End Sessions.

(** ** Codecs *)
(** What was written is read back, whatever follows. *)
Definition Lawful {T A : Type} (c : codec T A) (P : A -> Prop) : Prop :=
  forall a r, P a -> dec c (enc c a ++ r) = Some (a, r).

Section Codecs.
Variable T : Type.
Lemma lawful_nat : Lawful (c_nat (T := T)) anything. Proof. now intros a r _. Qed.
Lemma lawful_bool : Lawful (c_bool (T := T)) anything. Proof. now intros a r _. Qed.
Lemma lawful_num : Lawful (c_num (T := T)) anything. Proof. now intros a r _. Qed.
Lemma lawful_float : Lawful (c_float (T := T)) anything. Proof. now intros [a |] r _. Qed.
Lemma lawful_pair : forall A B (ca : codec T A) (cb : codec T B), Lawful ca anything -> Lawful cb anything ->
  Lawful (c_pair ca cb) anything.
Proof.
  intros A B ca cb La Lb [a b] r _; cbn; rewrite <- app_assoc, La, Lb by exact I; reflexivity.
Qed.
Lemma lawful_pair_at : forall A B (ca : codec T A) (cb : codec T B) P Q, Lawful ca P -> Lawful cb Q ->
  Lawful (c_pair ca cb) (fun x => P (fst x) /\ Q (snd x)).
Proof.
  intros A B ca cb P Q La Lb [a b] r [HP HQ]; cbn in *; now rewrite <- app_assoc, La, Lb.
Qed.
Lemma lawful_list : forall A (ca : codec T A), Lawful ca anything -> Lawful (c_list ca) anything.
Proof.
  intros A ca La l r _; cbn; induction l as [| a l IH]; cbn; [reflexivity |].
  rewrite <- app_assoc, La by exact I; cbn in IH; now rewrite IH.
Qed.
Lemma lawful_map : forall A B (ca : codec T A) (f : B -> A) (g : A -> B) (P : A -> Prop) (Q : B -> Prop),
  Lawful ca P -> (forall b, Q b -> P (f b) /\ g (f b) = b) -> Lawful (c_map ca f g) Q.
Proof.
  intros A B ca f g P Q La HQ b r Hb; destruct (HQ b Hb) as [HP Hg]; cbn; now rewrite La, Hg.
Qed.
Lemma lawful_load : forall A (c : codec T A) P a, Lawful c P -> P a -> load_all c (enc c a) = Some a.
Proof.
  intros A c P a L Pa; unfold load_all; specialize (L a [] Pa); rewrite app_nil_r in L; now rewrite L.
Qed.
(** ... up to the value of an uninitialised member. *)
Lemma load_map : forall A B (ca : codec T A) (f : B -> A) (g : A -> B) b,
  Lawful ca anything -> load_all (c_map ca f g) (enc (c_map ca f g) b) = Some (g (f b)).
Proof.
  intros A B ca f g b La; unfold load_all; cbn; specialize (La (f b) [] I); rewrite app_nil_r in La.
  now rewrite La.
Qed.
End Codecs.

Ltac codec :=
  repeat first [ apply lawful_nat | apply lawful_bool | apply lawful_num | apply lawful_float
               | apply lawful_pair | apply lawful_list ].

(** A lawful codec on the reachable states is a round trip. *)
Lemma roundtrip_lawful : forall (M : Machine) (T : Type) (c : codec T (MState M)) (P : list (MIn M) -> Prop) (I : MState M -> Prop),
  Lawful c I -> (forall cs s, P (inputs cs) -> mrun (mstart M) cs = Ok s -> I s) ->
  RoundTrip M (enc c) (fun _ ar => load_all c ar) P.
Proof.
  intros M T c P I L HI cs s HP E; exists s; split; [| reflexivity].
  apply (lawful_load T _ c I); [exact L | now apply (HI cs)].
Qed.

Lemma always : forall (M : Machine) (P : list (MIn M) -> Prop) (J : MState M -> Prop),
  J (mstart M) -> (forall s x s', J s -> mfeed M s x = Ok s' -> J s') ->
  (forall s q s' r, J s -> mask M s q = Ok (s', r) -> J s') ->
  forall cs s, P (inputs cs) -> mrun (mstart M) cs = Ok s -> J s.
Proof.
  intros M P J H0 Hf Ha cs s _; revert s; induction cs as [| c cs IH] using rev_ind; intros s E.
  - now injection E as <-.
  - rewrite mrun_snoc in E; destruct (mrun (mstart M) cs) as [s1 | |]; try discriminate E.
    specialize (IH s1 eq_refl); destruct c as [x | q]; cbn in E.
    + now apply (Hf s1 x).
    + destruct (mask M s1 q) as [[s2 r] | |] eqn:Em; try discriminate E; injection E as <-; now apply (Ha s1 q s2 r).
Qed.

(** ** Densities *)
Section Density.
Variable K : Num.
Variable E : Type.
Variable ce : codec (car K) E.
Variables val amt : E -> car K.
Variable den : nat -> car K -> car K.
Variables lo hi : car K.
Variables c b : nat.
Variable e0 : E.
Local Notation M := (DensityMachine K E val amt den lo hi c b e0).

(** A clean histogram is the one that would be computed. *)
Definition dens_valid (s : dens K E) : Prop :=
  de_dirty K E s = false ->
  de_hist K E s = map (fun pc => (fst pc, div K (snd pc) (den (de_count K E s) (de_wsum K E s))))
                      (combine (de_pos K E s) (de_bins K E s)).
Definition dens_same (s t : dens K E) : Prop :=
  de_count K E s = de_count K E t /\ de_min K E s = de_min K E t /\ de_max K E s = de_max K E t /\
  de_wsum K E s = de_wsum K E t /\ de_cache K E s = de_cache K E t /\ de_bins K E s = de_bins K E t /\
  de_pos K E s = de_pos K E t /\ dens_valid s /\ dens_valid t.

Lemma dens_same_feed : forall s t x s', dens_same s t -> dens_push K E val amt lo hi c b s x = Ok s' ->
  exists t', dens_push K E val amt lo hi c b t x = Ok t' /\ dens_same s' t'.
Proof.
  intros s t x s' (R1 & R2 & R3 & R4 & R5 & R6 & R7 & _ & _) H; unfold dens_push, dens_operate in *.
  rewrite R1, R2, R3, R4, R5, R6, R7 in H.
  match type of H with match ?o with _ => _ end = _ => destruct o as [bins | |] end; try discriminate H.
  injection H as <-; eexists; split; [reflexivity |].
  unfold dens_same, dens_valid; cbn; repeat split; discriminate.
Qed.
Lemma dens_same_extract : forall s t, dens_same s t -> dens_same (dens_extract K E den s) t.
Proof.
  intros s t (R1 & R2 & R3 & R4 & R5 & R6 & R7 & R8 & R9); unfold dens_extract.
  destruct (de_dirty K E s) eqn:D; unfold dens_same, dens_valid in *; cbn; repeat split; auto.
Qed.
Lemma dens_same_result : forall s t, dens_same s t -> dens_result K E den s = dens_result K E den t.
Proof.
  intros s t (R1 & R2 & R3 & R4 & R5 & R6 & R7 & R8 & R9); unfold dens_result, dens_extract, dens_valid in *.
  destruct (de_dirty K E s), (de_dirty K E t); cbn;
    rewrite ?R1, ?R4, ?R6, ?R7, ?R8, ?R9 by reflexivity; rewrite ?R1, ?R4, ?R6, ?R7; reflexivity.
Qed.

Theorem density_observation : Observation M anything anything.
Proof.
  apply (observation_by M dens_same).
  - unfold dens_same, dens_valid; cbn; repeat split; discriminate.
  - exact dens_same_feed.
  - intros s t q s' r R H; cbn in H; injection H as <- _; now apply dens_same_extract.
  - intros s t q _ R; cbn; now rewrite (dens_same_result s t R).
Qed.

Lemma lawful_dens : Lawful ce anything -> Lawful (dens_codec K E ce c b) anything.
Proof.
  intros Hce; eapply lawful_map.
  - codec; exact Hce.
  - intros s _; split; [exact I |]; destruct s; reflexivity.
Qed.
Theorem density_roundtrip : Lawful ce anything ->
  RoundTrip M (enc (dens_codec K E ce c b)) (fun _ ar => load_all (dens_codec K E ce c b) ar) anything.
Proof.
  intros Hce; apply (roundtrip_lawful M _ _ anything anything); [now apply lawful_dens | intros; exact I].
Qed.

(** The median. *)
Local Notation MM := (DensityMedianMachine K E val amt den lo hi c b e0).
Definition dmed_ready (st : dens K E * dmed K) : Prop := dm_dirty K (snd st) = false -> dm_median K (snd st) <> None.
Definition dmed_alike (st st' : dens K E * dmed K) : Prop :=
  fst st = fst st' /\ dm_sum K (snd st) = dm_sum K (snd st') /\ dm_dirty K (snd st) = dm_dirty K (snd st') /\
  (dm_dirty K (snd st) = false -> dm_median K (snd st) = dm_median K (snd st')).

Theorem dmed_roundtrip : forall garbage, Lawful ce anything ->
  RoundTrip MM (enc (dmed_codec K E ce c b garbage)) (fun _ ar => load_all (dmed_codec K E ce c b garbage) ar) anything.
Proof.
  intros garbage Hce cs s _ Hrun.
  assert (J : dmed_ready s).
  { revert Hrun; apply (always MM anything dmed_ready); [| | | exact I]; unfold dmed_ready; cbn.
    - discriminate.
    - intros s1 x s' _ H; destruct (dens_push K E val amt lo hi c b (fst s1) x); try discriminate H.
      injection H as <-; cbn; discriminate.
    - intros s1 _ s' r Hs H; unfold dmed_result in H; destruct (dm_dirty K (snd s1)) eqn:D.
      + match type of H with context [dmed_loop ?a ?b ?c ?d ?e] => destruct (dmed_loop a b c d e) as [[[| i] sum] | |] end;
          try discriminate H.
        repeat match type of H with context [nth_error ?l ?n] => destruct (nth_error l n) as [[? ?] |]; try discriminate H end.
        cbn in H; injection H as <- _; cbn; discriminate.
      + destruct (dm_median K (snd s1)) as [m |] eqn:Em; try discriminate H; cbn in H; injection H as <- _; cbn.
        intros _; congruence. }
  assert (LC : forall x y z, load_all (dmed_codec K E ce c b garbage) (enc (dmed_codec K E ce c b garbage) (x, {| dm_sum := y; dm_dirty := fst z; dm_median := snd z |}))
    = Some (x, {| dm_sum := y; dm_dirty := fst z; dm_median := Some (match snd z with Some m => m | None => garbage end) |})).
  { intros x y [d m]; unfold load_all, dmed_codec, garbage_num; cbn -[dens_codec].
    pose proof (lawful_dens Hce) as L; unfold Lawful in L; rewrite <- ?app_assoc, L by exact I; reflexivity. }
  destruct s as [d [sum dirty med]]; pose proof (LC d sum (dirty, med)) as E1; cbn [fst snd] in E1.
  eexists; split; [exact E1 |]; intros cs' q.
  apply (answers_agree MM dmed_alike).
  - intros s t x (R1 & R2 & R3 & R4); cbn; rewrite R1; destruct (dens_push K E val amt lo hi c b (fst t) x); cbn; auto.
    unfold dmed_alike; cbn; repeat split; auto; discriminate.
  - intros s t [] (R1 & R2 & R3 & R4); cbn; rewrite R1, R3.
    unfold dmed_result; rewrite R3, R2; destruct (dm_dirty K (snd t)) eqn:D.
    + match goal with |- context [dmed_loop ?a ?b ?c ?d ?e] => destruct (dmed_loop a b c d e) as [[[| i] su] | |] end; try exact I.
      repeat match goal with |- context [nth_error ?l ?n] => destruct (nth_error l n) as [[? ?] |]; try exact I end.
      unfold dmed_alike; cbn; repeat split; auto.
    + rewrite (R4 R3); destruct (dm_median K (snd t)) as [m |] eqn:Em; cbn; auto.
      unfold dmed_alike; cbn; rewrite R3 in R4; rewrite R4 by reflexivity; repeat split; auto; congruence.
  - unfold dmed_alike, dmed_ready in *; cbn in *; repeat split; auto; intros Hd; specialize (J Hd).
    destruct med; [reflexivity | now contradiction J].
Qed.
End Density.
