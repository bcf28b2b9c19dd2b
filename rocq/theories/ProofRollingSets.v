(** Every set answers the rolling-window features correctly. *)

From Coq Require Import List Bool Arith Lia Field.
From Verif Require Import Num NumFacts ModelBasic SpecStats ProofBasic ModelRolling SpecRolling ProofRolling.
From Verif Require Import ModelFramework SpecFramework ProofFramework ProofFrameworkRef ProofFrameworkRun.
From Verif Require Import ModelLibrary ModelSets SpecSets ProofLibrary ProofSets ProofSetsTop.
From Verif Require Import ModelRollingSets SpecRollingSets.
Import ListNotations.

Lemma rolling_closed : forall a u d, rolling a = true ->
  In d (ldeps a) -> lfeature u = lfeature d -> rolling u = true.
Proof.
  intros a u d Ha Hd E; destruct a; try discriminate Ha; cbn in Hd;
  repeat (destruct Hd as [<- | Hd]; [cbn in E |]); try (destruct Hd; fail);
  destruct u; try discriminate E; reflexivity.
Qed.

Lemma rolling_needs : forall ts t u, Needs Library ts t u -> rolling (fst t) = true -> rolling (fst u) = true.
Proof.
  intros ts t u H; induction H as [a Ha | a c b Ha Hc Hr H IH]; intros Hb; [exact Hb |].
  apply IH; unfold Reads in Hr; apply in_map_iff in Hr; destruct Hr as [d [E Hd]].
  apply (rolling_closed (fst a) (fst c) d); try assumption; now symmetry.
Qed.

Lemma rolling_reads_only : forall K N, RestReadsOnly (RollingRest K N).
Proof.
  intros K N; split.
  - intros t r1 r2 x s H.
    assert (E : lon_push t = true -> forall f, In f (map lfeature (lconsults t)) -> r1 f = r2 f).
    { intros Hp f Hf; apply in_map_iff in Hf; destruct Hf as [d [<- Hd]]; now apply H. }
    destruct t, s; cbn; try reflexivity;
      specialize (E eq_refl); cbn in E;
      repeat match goal with |- context [r1 ?f] => rewrite (E f) by tauto end; reflexivity.
  - intros t r1 r2 s H.
    assert (E : forall f, In f (map lfeature (lconsults t)) -> r1 f = r2 f).
    { intros f Hf; apply in_map_iff in Hf; destruct Hf as [d [<- Hd]]; now apply H. }
    destruct t, s; cbn; try reflexivity; cbn in E;
      repeat match goal with |- context [r1 ?f] => rewrite (E f) by tauto end; reflexivity.
Qed.

Section Sets.
Variable K : Num.
Variable HO : OrderedLaws K.
Let HK := ord_field K HO.
Variable sqrt : car K -> car K.
Variable N : nat.
Local Notation T := (car K).
Local Notation R := (RollingRest K N).
Local Notation B := (BasicSets K sqrt R).
Local Notation "0" := (zero K).
Local Notation "x + y" := (add K x y).
Local Notation "x - y" := (sub K x y).
Local Notation "x * y" := (mul K x y).
Local Notation "x / y" := (div K x y).
Add Field Kf : (fl_field K HK).
Local Notation win xs := (LastN N (samples_of K xs)).

Definition rcls (t : ltag) : Prop := rolling t = true /\ rolling_order_ok t.

Definition rgood (t : ltag) (xs : list (pack K)) (s : cell K (rcell K)) : Prop :=
  match t with
  | t_rolling_window_plus1 => s = CRest (RBuf (LastN (N + 1) (samples_of K xs)))
  | t_rolling_sum => s = CRest (RNum (total K (fun x => x) (win xs)))
  | t_rolling_moment n => s = CRest (RNum (total K (fun x => power K x n) (win xs)))
  | t_rolling_mean | t_immediate_rolling_mean =>
      exists m, s = CRest (RNum m) /\ (win xs <> [] -> m = Mean K (win xs))
  | t_rolling_variance | t_immediate_rolling_variance =>
      exists m, s = CRest (RPair m (SS K (win xs))) /\ (win xs <> [] -> m = Mean K (win xs))
  | _ => s = CRest RNone
  end.

Lemma rgood_init : forall t, rcls t -> rgood t [] (init Library B t).
Proof.
  intros t [Hb _]; destruct t; try discriminate Hb; cbn; try reflexivity.
  - eexists; split; [reflexivity | congruence].
  - eexists; split; [reflexivity | congruence].
  - eexists; split; [| congruence].
    f_equal; f_equal; unfold SS; cbn; rewrite (Fdiv_def (fl_field K HK)); ring.
  - eexists; split; [| congruence].
    f_equal; f_equal; unfold SS; cbn; rewrite (Fdiv_def (fl_field K HK)); ring.
Qed.

Lemma rolling_variance_step : forall xs x prev mean',
  let w := LastN N xs in let w' := LastN N (xs ++ [x]) in
  (w <> [] -> prev = Mean K w) -> (w' <> [] -> mean' = Mean K w') ->
  rolling_variance_op K N (LastN (N + 1) (xs ++ [x])) (prev, SS K w) mean' x
  = Some (mean', SS K w').
Proof.
  cbv zeta; intros xs x prev mean' Hp Hm; unfold rolling_variance_op.
  destruct (window_step N xs x) as (EB & HC); cbv zeta in EB, HC.
  revert Hp Hm EB HC; generalize (LastN N xs) as w, (LastN N (xs ++ [x])) as w'.
  intros w w' Hp Hm EB HC.
  destruct HC as [(HF & Hl & Hl' & y & Ey) | (HF & Ew & Hl)].
  - rewrite HF, Ey; f_equal; f_equal.
    destruct w as [| z w0].
    + assert (E0 : w' = []) by (destruct w'; [reflexivity | cbn in *; lia]).
      rewrite EB, E0 in Ey; cbn in Ey; injection Ey as <-; rewrite E0.
      match goal with |- prevent_underflow K ?e = ?f => replace e with f by ring end.
      apply (nonneg_clamp K), (SS_nonneg K HO).
    + assert (Hw' : w' <> []) by (intros C; rewrite C in Hl'; cbn in *; lia).
      rewrite <- (SS_slide K HO (z :: w0) w' x y prev mean'); try (apply Hp || apply Hm); try discriminate.
      * apply (nonneg_clamp K), (SS_nonneg K HO).
      * congruence.
      * congruence.
      * exact Hw'.
  - rewrite HF; f_equal; f_equal; rewrite Ew; symmetry; apply (SS_snoc K HO); [exact Hp |].
    rewrite <- Ew; apply Hm; rewrite Ew; destruct w; discriminate.
Qed.

Local Notation Answer := (RollingAnswer K N).
Local Notation valid := (fun _ : list (pack K) => True).

Lemma rgood_step : forall t xs x s r, rcls t -> True -> rgood t xs s ->
  (lon_push t = true -> forall d, In d (lconsults t) ->
     Answer (lfeature d) (xs ++ [x]) (r (lfeature d))) ->
  rgood t (xs ++ [x]) (step Library B t r x s).
Proof.
  intros t xs x s r [Hb Ho] _ G Hr.
  assert (E : lon_push t = true -> forall f, In f (map lfeature (lconsults t)) -> Answer f (xs ++ [x]) (r f)).
  { intros Hp f Hf; apply in_map_iff in Hf; destruct Hf as [d [<- Hd]]; now apply Hr. }
  clear Hr.
  assert (ES : samples_of K (xs ++ [x]) = samples_of K xs ++ [p_sample x])
    by (unfold samples_of; now rewrite map_app).
  destruct t; try discriminate Hb; cbn [rgood] in *; try (subst s; reflexivity);
    try (specialize (E eq_refl); pose proof (E t_rolling_window_plus1 ltac:(cbn; tauto)) as Eb; cbn in Eb).
  - subst s; cbn; rewrite ES, buf_push; reflexivity.
  - subst s; cbn; rewrite Eb; cbn [rbuf]; rewrite ES.
    rewrite (rolling_sum_step K HO N (samples_of K xs) (p_sample x) _ 0); [| ring].
    cbn; f_equal; f_equal; ring.
  - subst s; cbn; rewrite Eb; cbn [rbuf]; rewrite ES.
    rewrite (rolling_moment_step K HO n N (samples_of K xs) (p_sample x) _ 0 Ho); [| ring].
    cbn; f_equal; f_equal; ring.
  - destruct G as [m [-> Hm]]; cbn; rewrite Eb; cbn [rbuf]; rewrite ES.
    destruct (rolling_mean_step K HO N (samples_of K xs) (p_sample x) m Hm) as [m' [-> Hm']].
    now exists m'.
  - destruct G as [m [-> Hm]]; cbn; rewrite Eb; cbn [rbuf]; rewrite ES.
    destruct (rolling_mean_step K HO N (samples_of K xs) (p_sample x) m Hm) as [m' [-> Hm']].
    now exists m'.
  - pose proof (E t_rolling_mean ltac:(cbn; tauto)) as Em; cbn in Em.
    destruct G as [m [-> Hm]]; cbn -[rolling_variance_op]; rewrite Eb; cbn [rbuf]; rewrite ES in *.
    rewrite (rolling_variance_step (samples_of K xs) (p_sample x) m (rnum K (r t_rolling_mean)) Hm).
    + eexists; split; [reflexivity |]; intros H; rewrite (Em H); reflexivity.
    + intros H; rewrite (Em H); reflexivity.
  - pose proof (E t_rolling_mean ltac:(cbn; tauto)) as Em; cbn in Em.
    destruct G as [m [-> Hm]]; cbn -[rolling_variance_op]; rewrite Eb; cbn [rbuf]; rewrite ES in *.
    rewrite (rolling_variance_step (samples_of K xs) (p_sample x) m (rnum K (r t_rolling_mean)) Hm).
    + eexists; split; [reflexivity |]; intros H; rewrite (Em H); reflexivity.
    + intros H; rewrite (Em H); reflexivity.
Qed.

Lemma rgood_result : forall t xs s r, rcls t -> True -> rgood t xs s ->
  (forall d, In d (lconsults t) -> Answer (lfeature d) xs (r (lfeature d))) ->
  Answer (lfeature t) xs (result Library B t r s).
Proof.
  intros t xs s r [Hb Ho] _ G Hr.
  assert (E : forall f, In f (map lfeature (lconsults t)) -> Answer f xs (r f)).
  { intros f Hf; apply in_map_iff in Hf; destruct Hf as [d [<- Hd]]; now apply Hr. }
  clear Hr.
  assert (EL : length (win xs) = Nat.min (length xs) N).
  { rewrite LastN_length; unfold samples_of; now rewrite map_length. }
  assert (NE : (2 <= Nat.min (length xs) N)%nat -> win xs <> []).
  { intros H C; rewrite C in EL; cbn in EL; lia. }
  destruct t; try discriminate Hb; cbn [rgood] in G; cbn -[Nat.ltb].
  - subst s; reflexivity.
  - pose proof (E t_rolling_window_plus1 ltac:(cbn; tauto)) as Eb; cbn in Eb.
    subst s; cbn; rewrite Eb; cbn [rbuf]; now rewrite window_of_buf.
  - pose proof (E t_rolling_window_plus1 ltac:(cbn; tauto)) as Eb; cbn in Eb.
    subst s; cbn; rewrite Eb; cbn [rbuf]; rewrite count_of_buf; unfold samples_of; now rewrite map_length.
  - subst s; reflexivity.
  - pose proof (E t_rolling_count ltac:(cbn; tauto)) as Ec; cbn in Ec.
    intros H; subst s; cbn; rewrite Ec; cbn [rnat]; unfold rolling_moment_result, Moment, average.
    now rewrite EL.
  - destruct G as [m [-> Hm]]; intros H; cbn; now rewrite Hm.
  - destruct G as [m [-> Hm]]; intros H; cbn; now rewrite Hm.
  - pose proof (E t_rolling_count ltac:(cbn; tauto)) as Ec; cbn in Ec.
    pose proof (E t_rolling_sum ltac:(cbn; tauto)) as Es; cbn in Es.
    intros H; subst s; cbn; rewrite Ec, Es; cbn [rnat rnum].
    unfold lazy_rolling_mean_result, Mean, average; now rewrite EL.
  - pose proof (E t_rolling_count ltac:(cbn; tauto)) as Ec; cbn in Ec.
    destruct G as [m [-> Hm]]; cbn -[rolling_variance_result Nat.ltb]; rewrite Ec; cbn [rnat].
    unfold rolling_variance_result, SampleVariance, SS; rewrite EL; reflexivity.
  - pose proof (E t_rolling_count ltac:(cbn; tauto)) as Ec; cbn in Ec.
    destruct G as [m [-> Hm]]; cbn -[rolling_variance_result Nat.ltb]; rewrite Ec; cbn [rnat].
    unfold rolling_variance_result, SampleVariance, SS; rewrite EL; reflexivity.
  - pose proof (E t_rolling_count ltac:(cbn; tauto)) as Ec; cbn in Ec.
    pose proof (E t_rolling_mean ltac:(cbn; tauto)) as Em; cbn in Em.
    pose proof (E (t_rolling_moment 2) ltac:(cbn; tauto)) as E2; cbn in E2.
    subst s; cbn -[lazy_rolling_variance_result Nat.ltb]; rewrite Ec; cbn [rnat].
    unfold lazy_rolling_variance_result; rewrite EL; destruct (Nat.ltb_spec (Nat.min (length xs) N) 2) as [Hk | Hk]; [reflexivity |].
    rewrite (Em (NE Hk)), (E2 (NE Hk)); cbn [rnum]; f_equal; f_equal.
    rewrite <- EL; apply (lazy_form K HO); [now apply NE | reflexivity | lia].
Qed.

Theorem rolling_answers : forall enum, Enumeration Library enum -> forall W fs,
  let ts := make_tuple Library enum W fs in
  Compiles W ts -> NoRollingClash ts -> (forall t, In t ts -> rolling_order_ok (fst t)) ->
  forall es, SafeDrops fs ts (dropped_tags Library B es) ->
  forall r t, Live Library fs ts (dropped_tags Library B es) r -> Needs Library ts r t ->
  rolling (fst t) = true ->
  Answer (lfeature (fst t)) (samples Library B es)
    (read Library B (history Library B (construct Library B enum W fs) es) (lfeature (fst t))).
Proof.
  intros enum He W fs ts Hc Hr Ho es HS r t HL HN Hb.
  apply (correct_history Library B library_laws lconsults lon_push
           (sets_read_only K sqrt R (rolling_reads_only K N))
           valid rgood Answer rcls) with (t := t); try assumption; try exact I.
  - intros xs x _; exact I.
  - apply rgood_init.
  - apply rgood_step.
  - apply rgood_result.
  - now apply library_supplied.
  - now apply library_push_ordered.
  - now apply needs_member in HN.
  - intros u Hu; split; [now apply (rolling_needs ts t) | apply Ho; now apply needs_member in Hu].
  - now apply (safe_never B enum He W fs es HS r).
Qed.
End Sets.
