(** Sessions with the tail family, the P-square family and peaks over threshold. *)
From Coq Require Import List Arith Bool ZArith QArith Qcanon.
From Verif Require Import Num NumFacts ModelRolling ModelTail SpecTail ModelDensity ModelPSquare ModelPot
  SpecMachine ModelArchive ModelMachines ProofTail ProofTailStats ProofTailTop ProofMachines.
Import ListNotations.
Local Close Scope Q_scope.
Local Close Scope Qc_scope.

(** ** The tail *)

Lemma pushes_map : forall (A V : Type) (xs : list (A * list V)),
  pushes (map (fun e => TPush (fst e) (snd e)) xs) = xs.
Proof. induction xs as [| [a v] xs IH]; cbn; [reflexivity | now f_equal]. Qed.

Lemma returning_out : forall (S A B : Type) (s s' : S) (f : outcome A -> B) (o : outcome A),
  match returning s f o with Ok (_, r) => Ok r | NotANumber => NotANumber | UB => UB end
  = match returning s' f o with Ok (_, r) => Ok r | NotANumber => NotANumber | UB => UB end.
Proof. now intros S A B s s' f [a | |]. Qed.

Section TailRun.
Variable K : Num.
Variable HO : OrderedLaws K.
Variable H : HeapOps.
Variable HC : HeapContract H.
Variable ceil : car K -> nat.
Variable lr : side.
Variables k nv : nat.
Variable Hk : (0 < k)%nat.
Local Notation T := (car K).
Local Notation M := (TailMachine K H ceil lr k nv).
Local Notation pred := (tail_pred K lr).

Definition ops_of (cs : list (mcall M)) : list (tail_op T (list T)) :=
  map (fun c : mcall M => match c with Feed e => TPush (fst e) (snd e) | Ask _ => TExtract end) cs.

Lemma pushes_of : forall cs, pushes (ops_of cs) = inputs cs.
Proof.
  induction cs as [| [[x vs] | q] cs IH]; cbn in *; unfold pushes, inputs in *; cbn; [reflexivity | | exact IH].
  now f_equal.
Qed.

Lemma tail_ask_state : forall st q st' r, tail_ask_op K H ceil lr st q = Ok (st', r) ->
  st' = (fst st, tail_sort H pred (snd st)).
Proof.
  intros [cnt s] q st' r E; unfold tail_ask_op in E.
  destruct (tail_result H pred s) as [tl | |]; try discriminate E; cbn [obnd] in E.
  destruct q; unfold returning in E;
    repeat match type of E with
           | context [match ?o with UB => _ | _ => _ end] => destruct o; cbn [obnd] in E; try discriminate E
           | obnd ?o _ = _ => destruct o; cbn [obnd] in E; try discriminate E
           end; injection E as <- _; reflexivity.
Qed.

Lemma tail_mrun : forall cs st, mrun (mstart M) cs = Ok st ->
  fst st = length (inputs cs) /\ tail_run H pred (tail_init k nv (zero K) []) (ops_of cs) = Ok (snd st).
Proof.
  induction cs as [| c cs IH] using rev_ind; intros st E.
  - injection E as <-; split; reflexivity.
  - rewrite mrun_snoc in E; destruct (mrun (mstart M) cs) as [st1 | |]; try discriminate E.
    destruct (IH st1 eq_refl) as [I1 I2]; rewrite inputs_snoc, app_length; unfold ops_of, tail_run in *;
      rewrite map_app, fold_left_app, I2; destruct c as [e | q]; cbn in E |- *.
    + unfold tail_feed in E; destruct (tail_push H pred (snd st1) (fst e) (snd e)) as [s2 | |]; try discriminate E.
      injection E as <-; cbn; rewrite I1; split; [now rewrite Nat.add_1_r | reflexivity].
    + destruct (tail_ask_op K H ceil lr st1 q) as [[st2 r] | |] eqn:Eq; try discriminate E; injection E as <-.
      apply tail_ask_state in Eq; subst st2; cbn; rewrite I1, Nat.add_0_r; now split.
Qed.
Lemma feeds_mrun : forall (xs : list (MIn M)) s, tail_run H pred (tail_init k nv (zero K) []) (map (fun e => TPush (fst e) (snd e)) xs) = Ok s ->
  mrun (mstart M) (map Feed xs) = Ok (length xs, s).
Proof.
  induction xs as [| e xs IH] using rev_ind; intros s E.
  - injection E as <-; reflexivity.
  - rewrite map_app; unfold tail_run in *; rewrite map_app, fold_left_app in E.
    destruct (fold_left _ (map _ xs) _) as [s1 | |]; try discriminate E; cbn in E.
    cbn [map]; rewrite mrun_snoc, (IH s1 eq_refl); cbn; unfold tail_feed; cbn.
    destruct (tail_push H pred s1 (fst e) (snd e)); try discriminate E; injection E as <-; cbn.
    rewrite app_length, Nat.add_comm; reflexivity.
Qed.

Definition no_variates (q : tail_ask K) : Prop :=
  match q with QVariate _ | QVariateMeans _ _ _ _ => False | _ => True end.

Lemma antisym : forall a b, pred a b = false -> pred b a = false -> a = b.
Proof.
  intros a b; destruct lr; cbn; intros H1 H2; [| apply eq_sym]; now apply (ord_total K HO).
Qed.

Theorem tail_observation :
  Observation M (fun xs => Forall (fun e => length (snd e) = nv) xs) no_variates.
Proof.
  intros cs [cnt s] q HP Hq E; destruct (tail_mrun cs _ E) as [Ec Es]; cbn [fst snd] in *.
  destruct (interleaving H HC T (list T) pred (pred_sw K HO lr) antisym k nv (zero K) []
              (ops_of cs) (map (fun e => TPush (fst e) (snd e)) (inputs cs)) Hk) as (s1 & s2 & tl & E1 & E2 & R1 & R2).
  - unfold WellFormed; now rewrite pushes_of.
  - now rewrite pushes_map, pushes_of.
  - rewrite Es in E1; injection E1 as <-; rewrite (feeds_mrun _ _ E2), Ec.
    unfold answer, mask; cbn; rewrite R1, R2; cbn; destruct q; try contradiction Hq; try apply returning_out; reflexivity.
Qed.

(** With pairwise different samples also the variates. *)
Theorem tail_variates_observation :
  Observation M (fun xs => Forall (fun e => length (snd e) = nv) xs /\ NoDup (map fst xs))
    (fun q => match q with QVariate j | QVariateMeans _ _ j _ => (j < nv)%nat | _ => True end).
Proof.
  intros cs [cnt s] q [HP HN] Hq E; destruct (tail_mrun cs _ E) as [Ec Es]; cbn [fst snd] in *.
  assert (WF : WellFormed nv (ops_of cs)) by (unfold WellFormed; now rewrite pushes_of).
  assert (EP : pushes (map (fun e => TPush (fst e) (snd e)) (inputs cs)) = pushes (ops_of cs))
    by now rewrite pushes_map, pushes_of.
  destruct (interleaving H HC T (list T) pred (pred_sw K HO lr) antisym k nv (zero K) []
              (ops_of cs) (map (fun e => TPush (fst e) (snd e)) (inputs cs)) Hk WF EP) as (s1 & s2 & tl & E1 & E2 & R1 & R2).
  destruct (interleaving_variates H HC T (list T) pred (pred_sw K HO lr) antisym k nv (zero K) []
              (ops_of cs) (map (fun e => TPush (fst e) (snd e)) (inputs cs)) Hk WF EP) as (s3 & s4 & E3 & E4 & R3).
  - now rewrite pushes_of.
  - rewrite Es in E1, E3; injection E1 as <-; injection E3 as <-.
    rewrite E2 in E4; injection E4 as <-; rewrite (feeds_mrun _ _ E2), Ec.
    unfold answer, mask; cbn; rewrite R1, R2; cbn; destruct q; try (destruct (R3 j Hq) as (vals & V1 & V2); rewrite V1, V2; cbn);
      try apply returning_out; reflexivity.
Qed.
End TailRun.

(** Serialization of the tail. *)
Lemma lawful_tail : forall K, Lawful (tail_codec K) (fun st => tl_variates (snd st) = []).
Proof.
  intros K; eapply lawful_map; [codec |].
  intros [cnt [so is ss vs]] E; cbn in *; subst vs; split; [exact I | reflexivity].
Qed.
Lemma no_variates_push : forall K H lr (s s' : tail_state (car K) (list (car K))) x vs,
  tl_variates s = [] -> tail_push H (tail_pred K lr) s x vs = Ok s' -> tl_variates s' = [].
Proof.
  intros K H lr s s' x vs E P; unfold tail_push, tail_assign in P; rewrite E in P.
  repeat match type of P with
         | (if ?c then _ else _) = _ => destruct c
         | match ?c with _ => _ end = _ => destruct c
         end; try discriminate P; injection P as <-; auto.
Qed.
Lemma no_variates_sort : forall K H lr (s : tail_state (car K) (list (car K))),
  tl_variates s = [] -> tl_variates (tail_sort H (tail_pred K lr) s) = [].
Proof. intros K H lr s E; unfold tail_sort; destruct (tl_sorted s); auto. Qed.

Theorem tail_roundtrip : forall K H ceil lr k,
  RoundTrip (TailMachine K H ceil lr k 0) (enc (tail_codec K)) (fun _ ar => load_all (tail_codec K) ar) anything.
Proof.
  intros K H ceil lr k; eapply roundtrip_lawful; [apply lawful_tail |].
  apply always; [reflexivity | |].
  - intros [cnt s] [x vs] st E P; cbn in *; unfold tail_feed in P; cbn in P.
    destruct (tail_push H (tail_pred K lr) s x vs) as [s' | |] eqn:Ep; try discriminate P; injection P as <-.
    now apply (no_variates_push K H lr s s' x vs).
  - intros [cnt s] q st r E P; apply (tail_ask_state K H ceil lr (cnt, s) q st r) in P; subst st; cbn in *; now apply no_variates_sort.
Qed.

(** ** The weighted tail *)
Section WeightedTailRun.
Variable K : Num.
Variable HO : OrderedLaws K.
Variable H : HeapOps.
Variable HC : HeapContract H.
Variable lr : side.
Variable k : nat.
Variable Hk : (0 < k)%nat.
Local Notation T := (car K).
Local Notation M := (WeightedTailMachine K H lr k).
Local Notation pred := (tail_pred K lr).

Definition wops_of (cs : list (mcall M)) : list (tail_op T T) :=
  map (fun c : mcall M => match c with Feed e => TPush (fst e) [snd e] | Ask _ => TExtract end) cs.
Definition winputs (xs : list (T * T)) : list (T * list T) := map (fun e => (fst e, [snd e])) xs.
Definition wsum (xs : list (T * T)) : T := fold_left (fun w e => add K w (snd e)) xs (zero K).

Lemma wpushes_of : forall cs, pushes (wops_of cs) = winputs (inputs cs).
Proof.
  induction cs as [| [[x w] | q] cs IH]; cbn in *; unfold pushes, inputs, winputs in *; cbn; [reflexivity | | exact IH].
  now f_equal.
Qed.

Lemma wtail_ask_state : forall st q st' r, wtail_ask_op K H lr st q = Ok (st', r) ->
  st' = (fst st, tail_sort H pred (snd st)).
Proof.
  intros [w s] q st' r E; unfold wtail_ask_op in E.
  destruct (tail_result H pred s) as [tl | |]; try discriminate E; cbn [obnd] in E.
  destruct (tail_variate_result H pred s 0) as [ws | |]; try discriminate E; cbn [obnd] in E.
  destruct q; unfold returning in E;
    match type of E with context [match ?o with UB => _ | _ => _ end] => destruct o end;
    try discriminate E; now injection E as <- _.
Qed.

Lemma wtail_mrun : forall cs st, mrun (mstart M) cs = Ok st ->
  fst st = wsum (inputs cs) /\ tail_run H pred (tail_init k 1 (zero K) (zero K)) (wops_of cs) = Ok (snd st).
Proof.
  induction cs as [| c cs IH] using rev_ind; intros st E.
  - injection E as <-; split; reflexivity.
  - rewrite mrun_snoc in E; destruct (mrun (mstart M) cs) as [st1 | |]; try discriminate E.
    destruct (IH st1 eq_refl) as [I1 I2]; rewrite inputs_snoc; unfold wsum in *; rewrite fold_left_app;
      unfold wops_of, tail_run in *; rewrite map_app, fold_left_app, I2; destruct c as [e | q]; cbn in E |- *.
    + unfold wtail_feed in E; destruct (tail_push H pred (snd st1) (fst e) [snd e]) as [s2 | |]; try discriminate E.
      injection E as <-; cbn; rewrite I1; now split.
    + destruct (wtail_ask_op K H lr st1 q) as [[st2 r] | |] eqn:Eq; try discriminate E; injection E as <-.
      apply wtail_ask_state in Eq; subst st2; cbn; now rewrite I1.
Qed.
Lemma wfeeds_mrun : forall (xs : list (MIn M)) s,
  tail_run H pred (tail_init k 1 (zero K) (zero K)) (map (fun e => TPush (fst e) [snd e]) xs) = Ok s ->
  mrun (mstart M) (map Feed xs) = Ok (wsum xs, s).
Proof.
  induction xs as [| e xs IH] using rev_ind; intros s E.
  - injection E as <-; reflexivity.
  - rewrite map_app; unfold tail_run, wsum in *; rewrite map_app, fold_left_app in E; rewrite fold_left_app.
    destruct (fold_left _ (map _ xs) _) as [s1 | |]; try discriminate E; cbn in E.
    cbn [map]; rewrite mrun_snoc, (IH s1 eq_refl); cbn; unfold wtail_feed; cbn.
    destruct (tail_push H pred s1 (fst e) [snd e]); try discriminate E; now injection E as <-.
Qed.

Theorem wtail_observation : Observation M (fun xs => NoDup (map fst xs)) anything.
Proof.
  intros cs [w s] q HN _ E; destruct (wtail_mrun cs _ E) as [Ec Es]; cbn [fst snd] in *.
  assert (Epush : forall xs : list (T * T), pushes (map (fun e => TPush (fst e) [snd e]) xs) = winputs xs).
  { induction xs as [| [a v] xs IH]; cbn; [reflexivity | now f_equal]. }
  assert (WF : WellFormed 1 (wops_of cs)).
  { unfold WellFormed; rewrite wpushes_of; unfold winputs; apply Forall_forall; intros e He.
    apply in_map_iff in He; destruct He as (e' & <- & _); reflexivity. }
  assert (EP : pushes (map (fun e => TPush (fst e) [snd e]) (inputs cs)) = pushes (wops_of cs))
    by now rewrite Epush, wpushes_of.
  destruct (interleaving H HC T T pred (pred_sw K HO lr) (antisym K HO lr) k 1 (zero K) (zero K)
              (wops_of cs) (map (fun e => TPush (fst e) [snd e]) (inputs cs)) Hk WF EP) as (s1 & s2 & tl & E1 & E2 & R1 & R2).
  destruct (interleaving_variates H HC T T pred (pred_sw K HO lr) (antisym K HO lr) k 1 (zero K) (zero K)
              (wops_of cs) (map (fun e => TPush (fst e) [snd e]) (inputs cs)) Hk WF EP) as (s3 & s4 & E3 & E4 & R3).
  - rewrite wpushes_of; unfold winputs; rewrite map_map; exact HN.
  - rewrite Es in E1, E3; injection E1 as <-; injection E3 as <-.
    rewrite E2 in E4; injection E4 as <-; rewrite (wfeeds_mrun _ _ E2), Ec.
    unfold answer, mask; cbn; rewrite R1, R2; destruct (R3 0%nat (Nat.lt_0_1)) as (vals & V1 & V2); rewrite V1, V2; cbn.
    destruct q; apply returning_out.
Qed.
End WeightedTailRun.

(** ** Cumulative distributions *)
Section Distribution.
Variable K : Num.
Local Notation T := (car K).
Variable pairs : psq K -> list (T * T).
Variable push : psq K -> T -> T -> outcome (psq K).
Variable q0 : psq K.
Variable h0 : list (T * T).
Local Notation M := (DistributionMachine K pairs push q0 h0).

Definition dist_valid (st : cdist K * cdmed K) : Prop :=
  (cs_dirty K (fst st) = false -> cs_hist K (fst st) = pairs (cs_psq K (fst st))) /\
  (cm_dirty K (snd st) = false ->
     exists r, cm_median K (snd st) = Some r /\ cdmed_value K (pairs (cs_psq K (fst st))) = Ok r).
Definition dist_same (s t : cdist K * cdmed K) : Prop :=
  cs_psq K (fst s) = cs_psq K (fst t) /\ dist_valid s /\ dist_valid t.

Lemma extract_hist : forall c, (cs_dirty K c = false -> cs_hist K c = pairs (cs_psq K c)) ->
  cs_hist K (cdist_extract K pairs c) = pairs (cs_psq K c) /\
  cs_psq K (cdist_extract K pairs c) = cs_psq K c /\ cs_dirty K (cdist_extract K pairs c) = false.
Proof. intros [p h [|]] V; cbn in *; auto. Qed.

Lemma dist_valid_ask : forall s q s' r, dist_valid s -> dist_ask_op K pairs s q = Ok (s', r) ->
  dist_valid s' /\ cs_psq K (fst s') = cs_psq K (fst s).
Proof.
  intros [c m] q s' r [V1 V2] E; cbn in *; destruct (extract_hist c V1) as (X1 & X2 & X3).
  destruct q; cbn in E.
  - injection E as <- _; split; [split |]; cbn; [congruence | now rewrite X2 | exact X2].
  - destruct (cm_dirty K m) eqn:D.
    + rewrite X1 in E; destruct (cdmed_value K (pairs (cs_psq K c))) as [v | |] eqn:Ev; try discriminate E.
      cbn in E; injection E as <- _; cbn; split; [split |]; cbn; [congruence | | exact X2].
      intros _; exists v; split; [reflexivity | now rewrite X2].
    + destruct (cm_median K m) eqn:Em; try discriminate E; injection E as <- _; split; [split |]; cbn; auto.
      intros _; rewrite Em; now apply V2.
Qed.

Lemma dist_answer : forall s q, dist_valid s ->
  answer (M := M) (Ok s) q = match q with
                             | QDistribution => Ok (inl (pairs (cs_psq K (fst s))))
                             | QMedian => obnd (cdmed_value K (pairs (cs_psq K (fst s)))) (fun r => Ok (inr r))
                             end.
Proof.
  intros [c m] q [V1 V2]; cbn in *; destruct (extract_hist c V1) as (X1 & X2 & X3); destruct q; cbn.
  - now rewrite X1.
  - destruct (cm_dirty K m).
    + rewrite X1; now destruct (cdmed_value K (pairs (cs_psq K c))).
    + destruct (V2 eq_refl) as (r & -> & ->); reflexivity.
Qed.

Theorem distribution_observation : Observation M anything anything.
Proof.
  apply (observation_by M dist_same).
  - repeat split; cbn; discriminate.
  - intros [c m] [c' m'] e s' (R & V & V') E; cbn in *; unfold dist_feed, cdist_push in *; cbn in *.
    rewrite <- R; destruct (push (cs_psq K c) (fst e) (snd e)); try discriminate E; cbn in *.
    injection E as <-; eexists; split; [reflexivity |]; repeat split; cbn; discriminate.
  - intros s t q s' r (R & V & V') E; destruct (dist_valid_ask s q s' r V E) as [W P].
    split; [congruence | now split].
  - intros s t q _ (R & V & V'); now rewrite !dist_answer, R by assumption.
Qed.

Lemma lawful_marks : Lawful (marks_codec K) anything.
Proof. eapply lawful_map; [codec |]; intros [h p d] _; split; [exact I | reflexivity]. Qed.
Lemma lawful_psq : forall before after, Lawful (psq_codec K before after) anything.
Proof.
  intros before after; eapply lawful_map; [codec; apply lawful_marks |]; intros [c w m] _; split; [exact I | reflexivity].
Qed.

Theorem distribution_roundtrip : forall before after garbage,
  RoundTrip M (enc (dist_codec K before after garbage)) (fun _ ar => load_all (dist_codec K before after garbage) ar) anything.
Proof.
  intros before after garbage cs s _ Hrun.
  assert (J : dist_valid s).
  { revert Hrun; apply (always M anything dist_valid); [| | | exact I].
    - split; cbn; discriminate.
    - intros s1 x s' _ E; cbn in E; unfold dist_feed, cdist_push in E.
      destruct (push _ _ _); try discriminate E; cbn in E; injection E as <-; split; cbn; discriminate.
    - intros s1 q s' r V E; now apply (dist_valid_ask s1 q s' r). }
  assert (LC : forall p h d cm me, load_all (dist_codec K before after garbage)
      (enc (dist_codec K before after garbage) ({| cs_psq := p; cs_hist := h; cs_dirty := d |}, {| cm_dirty := cm; cm_median := me |}))
    = Some ({| cs_psq := p; cs_hist := h; cs_dirty := d |},
            {| cm_dirty := cm; cm_median := Some (match me with Some m => m | None => garbage end) |})).
  { intros p h d cm me; unfold load_all, dist_codec, garbage_num; cbn -[psq_codec c_list].
    pose proof (lawful_psq before after) as L; unfold Lawful in L.
    assert (L2 : Lawful (c_list (c_pair (T := T) c_num c_num)) anything) by codec.
    rewrite <- ?app_assoc, L by exact I; cbn -[psq_codec c_list]; rewrite <- ?app_assoc, L2 by exact I; reflexivity. }
  destruct s as [[p h d] [cm me]]; eexists; split; [apply LC |]; intros cs' q.
  apply (answers_agree M (fun s t => fst s = fst t /\ cm_dirty K (snd s) = cm_dirty K (snd t) /\
           (cm_dirty K (snd s) = false -> cm_median K (snd s) = cm_median K (snd t)))).
  - intros [c1 m1] [c2 m2] e (R1 & R2 & R3); cbn in *; subst c2; unfold dist_feed, cdist_push; cbn.
    destruct (push (cs_psq K c1) (fst e) (snd e)); cbn; auto; repeat split; discriminate.
  - intros [c1 m1] [c2 m2] a (R1 & R2 & R3); cbn in *; subst c2; destruct a; cbn.
    + repeat split; auto.
    + rewrite <- R2; destruct (cm_dirty K m1) eqn:D.
      * destruct (cdmed_value K _); cbn; auto.
      * rewrite <- R3 by reflexivity; destruct (cm_median K m1) eqn:E1; auto; repeat split; cbn; auto; try congruence.
        intros _; rewrite E1; apply R3; reflexivity.
  - cbn; repeat split; auto; intros E; destruct J as [_ J]; cbn in J; destruct (J E) as (r & -> & _); reflexivity.
Qed.
End Distribution.

(** ** P-square estimators *)
Theorem psquare_observation : forall K Q O push m0 res,
  Observation (PSquareMachine K Q O push m0 res) anything anything.
Proof.
  intros; apply mask_pure_observation; intros s q s' r E; cbn in E; unfold returning in E.
  destruct (res s q); try discriminate E; now injection E as <- _.
Qed.
Theorem psquare_roundtrip : forall K Q O push m0 res before after,
  RoundTrip (PSquareMachine K Q O push m0 res) (enc (psq_codec K before after))
    (fun _ ar => load_all (psq_codec K before after) ar) anything.
Proof.
  intros; eapply roundtrip_lawful; [apply lawful_psq | intros; exact I].
Qed.

(** ** Peaks over threshold *)
Lemma fit_not_ub : forall K pw a b c d, pot_fit K pw a b c d <> UB.
Proof.
  intros K pw a b c d; unfold pot_fit; destruct (keqb K b (zero K)); [discriminate |].
  destruct (keqb K _ _); discriminate.
Qed.
Lemma lawful_fit : forall K, Lawful (c_fit K) (fun o => o <> UB).
Proof. intros K [[[x y] z] | |] r N; cbn; [reflexivity | reflexivity | now contradiction N]. Qed.

Lemma lawful_any : forall T A (c : codec T A), Lawful c anything -> Lawful c (fun _ => True).
Proof. intros T A c L; exact L. Qed.

Lemma lawful_pot : forall K, Lawful (pot_codec K) (fun st => po_fit K (snd st) <> UB).
Proof.
  intros K; eapply lawful_map.
  - apply lawful_pair_at; [apply lawful_nat |]; apply lawful_pair_at; [apply lawful_nat |].
    apply lawful_pair_at; [codec |]; apply lawful_pair_at; [apply lawful_num |].
    apply lawful_pair_at; [apply lawful_fit | apply lawful_bool].
  - intros [cnt [n m q t f d]] N; cbn in *; repeat split; auto.
Qed.
Theorem pot_roundtrip : forall K pw lr thr,
  RoundTrip (PotMachine K pw lr thr) (enc (pot_codec K)) (fun _ ar => load_all (pot_codec K) ar) anything.
Proof.
  intros K pw lr thr; eapply roundtrip_lawful; [apply lawful_pot |].
  apply always; cbn.
  - discriminate.
  - intros [cnt s] x s' N E; injection E as <-; cbn in *; unfold pot_op; destruct (ltb K _ _); exact N.
  - intros [cnt s] q s' r N E; injection E as <- _; cbn in *; unfold pot_extract.
    destruct (po_dirty K s); [| exact N].
    destruct (po_n K s), (po_mu K s), (po_sigma2 K s); cbn; try discriminate; now apply fit_not_ub.
Qed.

Lemma lawful_ppot : forall K, Lawful (ppot_codec K) (fun st => tl_variates (snd (fst st)) = [] /\ pp_fit K (snd st) <> UB).
Proof.
  intros K; eapply lawful_map.
  - apply lawful_pair_at; [apply lawful_tail |]; apply lawful_pair_at; [codec |].
    apply lawful_pair_at; [apply lawful_num |]; apply lawful_pair_at; [apply lawful_fit | apply lawful_bool].
  - intros [t [m q p f d]] [N1 N2]; cbn in *; repeat split; auto.
Qed.
Theorem ppot_roundtrip : forall K pw lr H ceil k prob,
  RoundTrip (PotProbMachine K pw lr H ceil k prob) (enc (ppot_codec K)) (fun _ ar => load_all (ppot_codec K) ar) anything.
Proof.
  intros K pw lr H ceil k prob; eapply roundtrip_lawful; [apply lawful_ppot |].
  apply always; cbn.
  - split; [reflexivity | discriminate].
  - intros [[cnt s] p] x st [N1 N2] E; cbn in *; unfold tail_feed in E; cbn in E.
    destruct (tail_push H (tail_pred K lr) s x []) as [s' | |] eqn:Ep; try discriminate E; cbn in E; injection E as <-; cbn.
    split; [now apply (no_variates_push K H lr s s' x []) | exact N2].
  - intros [[cnt s] p] q st r [N1 N2] E; cbn in *.
    assert (X : forall tl pr, ppot_extract K pw lr ceil p cnt tl = Ok pr -> pp_fit K (fst pr) <> UB).
    { intros tl pr; unfold ppot_extract; destruct (pp_dirty K p); [| now intros F; injection F as <-].
      destruct (Nat.leb _ _); [now intros F; injection F as <- |].
      destruct (ceil _); try discriminate; destruct (nth_error tl n); try discriminate.
      intros F; injection F as <-; cbn; now apply fit_not_ub. }
    destruct (pp_dirty K p).
    + destruct (tail_result H (tail_pred K lr) s) as [tl | |]; try discriminate E; cbn in E.
      destruct (ppot_extract K pw lr ceil p cnt tl) as [pr | |] eqn:Ep; try discriminate E; cbn in E; injection E as <- _.
      cbn; split; [now apply no_variates_sort | now apply (X tl)].
    + destruct (ppot_extract K pw lr ceil p cnt []) as [pr | |] eqn:Ep; try discriminate E; cbn in E; injection E as <- _.
      cbn; split; [exact N1 | now apply (X [])].
Qed.
