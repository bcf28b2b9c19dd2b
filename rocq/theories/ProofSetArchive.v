(** Saving and loading whole accumulator sets. *)
From Coq Require Import List Bool Arith ZArith Lia.
From Verif Require Import Num ModelBasic ModelRolling ModelFramework SpecFramework ModelLibrary ModelSets ModelRollingSets
  SpecMachine ModelArchive ModelSetArchive ProofFrameworkRef ProofFrameworkRun ProofLibrary ProofMachines.
Import ListNotations.

Section SetArchive.
Variable L : Lib.
Variable B : Behaviour L.
Variable T : Type.
Variable codec_of : tag L -> option (codec T (State L B)).
(** The states an accumulator can be in. *)
Variable shape : tag L -> State L B -> Prop.
Variable Hinit : forall t, codec_of t <> None -> shape t (init L B t).
Variable Hstep : forall t r x s, codec_of t <> None -> shape t s -> shape t (step L B t r x s).
Variable Hlaw : forall t c, codec_of t = Some c -> Lawful c (shape t).

Local Notation acc := (acc L B).
Local Notation accset := (accset L B).
Local Notation who := (who L B).
Local Notation refs := (refs L B).
Local Notation tripped := (tripped L B).
Local Notation state := (state L B).

Definition sound (s : accset) : Prop :=
  Forall (fun a => codec_of (fst (who a)) <> None /\ shape (fst (who a)) (state a)) s.

Lemma load_save : forall s s0 r, counts L B s0 = counts L B s -> sound s -> r = [] ->
  load_set L B T codec_of s0 (save_set L B T codec_of s ++ r) = Some s.
Proof.
  induction s as [| a s IH]; intros [| a0 s0] r E Hs ->; cbn in E; try discriminate E; [reflexivity |].
  inversion Hs as [| ? ? [Hc Hsh] Hs']; subst; injection E as Ew Er Et Es.
  cbn -[who]; rewrite Ew; destruct (codec_of (fst (who a))) as [c |] eqn:Ec; [| now contradiction Hc].
  rewrite <- app_assoc, (Hlaw _ c Ec) by exact Hsh; rewrite IH by auto.
  rewrite Er, Et; now destruct a.
Qed.

Lemma sound_visit : forall x todo done, sound done -> sound todo -> sound (visit L B x done todo).
Proof.
  induction todo as [| a todo IH]; intros done Hd Ht; [exact Hd |].
  inversion Ht as [| ? ? [Hc Hsh] Ht']; subst; cbn; apply IH; [| exact Ht'].
  apply Forall_app; split; [exact Hd |]; constructor; [| constructor].
  unfold operate; destruct (is_dropped L B a); cbn; split; auto.
Qed.
Lemma sound_push : forall s x, sound s -> sound (push L B s x).
Proof. intros s x H; apply sound_visit; [constructor | exact H]. Qed.

Lemma sound_construct : forall enum W fs,
  (forall t, In t (make_tuple L enum W fs) -> codec_of (fst t) <> None) ->
  sound (construct L B enum W fs).
Proof.
  intros enum W fs Hc; apply Forall_forall; intros a Ha.
  rewrite (built_state L B enum W fs a Ha).
  assert (Hw : In (who a) (make_tuple L enum W fs)).
  { rewrite <- (construct_who L B enum W fs); now apply in_map. }
  split; [| apply Hinit]; now apply Hc.
Qed.

Local Notation M enum W fs := (SetMachine L B enum W fs).

Definition no_drops (es : list (event L B)) : Prop := forall t, ~ In (Drop L B t) es.

Theorem set_roundtrip : forall enum W fs,
  (forall t, In t (make_tuple L enum W fs) -> codec_of (fst t) <> None) ->
  RoundTrip (M enum W fs) (save_set L B T codec_of) (load_set L B T codec_of) no_drops.
Proof.
  intros enum W fs Hc.
  assert (I : forall (cs : list (mcall (M enum W fs))) s, no_drops (inputs cs) -> mrun (mstart (M enum W fs)) cs = Ok s ->
              sound s /\ counts L B s = counts L B (construct L B enum W fs)).
  { intros cs; induction cs as [| c cs IH] using rev_ind; intros s Hn E.
    - injection E as <-; split; [now apply sound_construct | reflexivity].
    - rewrite mrun_snoc in E; destruct (mrun (mstart (M enum W fs)) cs) as [s1 | |]; try discriminate E.
      rewrite inputs_snoc in Hn.
      destruct (IH s1) as [S1 C1]; [intros t Ht; apply (Hn t); apply in_or_app; now left | reflexivity |].
      destruct c as [[x | t] | q]; cbn in E; injection E as <-.
      + split; [now apply sound_push | now rewrite counts_push].
      + exfalso; apply (Hn t); apply in_or_app; right; now left.
      + now split. }
  intros cs s Hn E; destruct (I cs s Hn E) as [S1 C1]; exists s; split; [| reflexivity].
  cbn; rewrite <- (app_nil_r (save_set L B T codec_of s)); apply load_save; auto.
Qed.

Theorem set_observation : forall enum W fs, Observation (M enum W fs) anything anything.
Proof.
  intros enum W fs; apply mask_pure_observation; intros s q s' r E; cbn in E; now injection E as <- _.
Qed.
End SetArchive.

(** ** The library *)
Section Library.
Variable K : Num.
Variable sqrt : car K -> car K.
Variable N : nat.
Local Notation T := (car K).
Local Notation B := (BasicSets K sqrt (RollingRest K N)).
Local Notation cell := (cell K (rcell K)).

Definition lshape (t : ltag) (c : cell) : Prop :=
  match binit K (RollingRest K N) t, c with
  | CNone, CNone => True
  | CNat _, CNat _ => True
  | CNum _, CNum _ => True
  | CPair _ _, CPair _ _ => True
  | CRest RNone, CRest RNone => True
  | CRest (RBuf _), CRest (RBuf _) => True
  | CRest (RNum _), CRest (RNum _) => True
  | CRest (RPair _ _), CRest (RPair _ _) => True
  | _, _ => False
  end.

Lemma npow_some : forall (x : T) n, exists p, npow K x (S n) = Some p.
Proof.
  assert (F : forall fuel x n, (1 <= n)%nat -> (n <= fuel)%nat -> exists p, npow_fuel K fuel x n = Some p).
  { induction fuel as [| fuel IH]; intros x n H1 H2; [lia |]; cbn [npow_fuel].
    destruct (Nat.eqb_spec n 1) as [-> | Hn]; [eauto |].
    assert (H3 : (1 <= n / 2)%nat) by (apply Nat.div_le_lower_bound; lia).
    assert (H4 : (n / 2 < n)%nat) by (apply Nat.div_lt; lia).
    destruct (IH x (n / 2)%nat H3 ltac:(lia)) as (p & ->); eauto. }
  intros x n; apply F; lia.
Qed.
Lemma full_front : forall b : list T, rwp1_full N b = true -> exists f r, b = f :: r.
Proof.
  intros [| f r] H; [| eauto]; unfold rwp1_full, cb_full in H; apply Nat.eqb_eq in H; cbn in H; lia.
Qed.

Lemma lshape_init : forall t, serializer K N t <> None -> lshape t (init Library B t).
Proof.
  intros t H; destruct t; try (now contradiction H); cbn; try exact I;
    unfold lshape; cbn; try exact I.
Qed.
Lemma lshape_step : forall t r x s, serializer K N t <> None -> lshape t s -> lshape t (step Library B t r x s).
Proof.
  intros t r x s H Hs; destruct t; try (now contradiction H); unfold lshape in *; cbn in Hs |- *;
    destruct s as [| n0 | a0 | a0 b0 | [| b0 | n0 | a0 | a0 b0 |]]; try contradiction; try exact I;
    unfold moment_op, weighted_moment_op, rolling_sum_op, rolling_moment_op, immediate_rolling_mean_op, rolling_variance_op; cbn;
    try match goal with |- context [npow K _ ?n] => is_var n; destruct n as [| n]; [now contradiction H |] end;
    repeat match goal with
           | |- context [npow K ?y (S ?n)] => let p := fresh "p" in let E := fresh "E" in
               destruct (npow_some y n) as (p & E); rewrite E
           | |- context [rwp1_full N ?b] => let E := fresh "E" in destruct (rwp1_full N b) eqn:E;
               [let f := fresh "f" in let q := fresh "q" in destruct (full_front b E) as (f & q & ->) |]
           end; cbn; exact I.
Qed.
Lemma serializer_lawful : forall t c, serializer K N t = Some c -> Lawful c (lshape t).
Proof.
  intros t c H.
  assert (X : forall t A (ca : codec T A) (f : cell -> A) g, Lawful ca anything ->
              (forall s, lshape t s -> g (f s) = s) -> Lawful (c_map ca f g) (lshape t)).
  { intros t0 A ca f g L E; eapply lawful_map; [exact L |]; intros s Hs; split; [exact I | now apply E]. }
  destruct t; try discriminate H; cbn [serializer] in H;
    try (match type of H with context [match ?n with O => _ | S _ => _ end] => destruct n; try discriminate H end);
    injection H as <-; (apply X; [first [solve [codec] | intros [] r _; reflexivity] |]);
    intros s Hs; unfold lshape in Hs; cbn in Hs;
    destruct s as [| n0 | a0 | a0 b0 | [| b0 | n0 | a0 | a0 b0 |]]; try contradiction; reflexivity.
Qed.

Theorem library_roundtrip : forall enum W fs,
  (forall t, In t (make_tuple Library enum W fs) -> serializer K N (fst t) <> None) ->
  RoundTrip (SetMachine Library B enum W fs) (save_set Library B T (serializer K N))
    (load_set Library B T (serializer K N)) (no_drops Library B).
Proof.
  intros enum W fs Hc.
  exact (set_roundtrip Library B T (serializer K N) lshape lshape_init lshape_step serializer_lawful enum W fs Hc).
Qed.
End Library.
