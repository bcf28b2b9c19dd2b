(** External weights in the statistics library. *)

From Coq Require Import List Bool Arith ZArith QArith Qcanon Lia.
From Verif Require Import Num NumFacts SpecStats.
From Verif Require Import ModelFramework SpecFramework ProofFramework ProofFrameworkRef ProofFrameworkRun.
From Verif Require Import ModelLibrary ModelSets SpecSets ProofLibrary ProofSets ProofSetsTop ProofFrameworkEx.
From Verif Require Import ModelExternal SpecExternal ProofExternal.
Import ListNotations.
Open Scope nat_scope.

Definition pushed {B : Behaviour Library} (xs : list (Sample Library B)) : list (event Library B) :=
  map (Push Library B) xs.

Lemma pushed_history : forall B (s : accset Library B) xs, history Library B s (pushed xs) = pushes Library B s xs.
Proof.
  intros B s xs; revert s; induction xs as [| x xs IH]; intros s; [reflexivity |].
  unfold history, pushes in *; cbn [pushed map fold_left handle]; apply IH.
Qed.

Lemma pushed_samples : forall B (xs : list (Sample Library B)), samples Library B (pushed xs) = xs.
Proof.
  intros B; induction xs as [| x xs IH]; [reflexivity |].
  unfold samples, pushed in *; cbn [map flat_map app]; now rewrite IH.
Qed.

Lemma pushed_drops : forall B (xs : list (Sample Library B)), dropped_tags Library B (pushed xs) = [].
Proof.
  intros B; induction xs as [| x xs IH]; [reflexivity |].
  unfold dropped_tags, pushed in *; cbn [map flat_map app]; exact IH.
Qed.

Lemma no_drops_safe : forall fs ts, SafeDrops fs ts [].
Proof. intros fs ts; split; [split; [constructor | intros t []] | intros r t []]. Qed.

Section Lib.
Variable B : Behaviour Library.
Hypothesis HB : ReadsOnly Library B lconsults lon_push.
Variable enum enum2 : fmap Library -> fmap Library.
Hypothesis He : Enumeration Library enum.
Hypothesis He2 : Enumeration Library enum2.
Variable fs ffs : list (request Library).
Let ts := make_tuple Library enum true fs.
Let ts2 := make_tuple Library enum2 true ffs.
Hypothesis C1 : Compiles true ts.
Hypothesis C2 : Compiles true ts2.
Hypothesis R1 : NoRollingClash ts.
Hypothesis R2 : NoRollingClash ts2.
Hypothesis HP : Provides Library weight_accumulator fs ffs ts ts2.

Lemma weights_agree : forall t xs, In t ts -> weight_accumulator (fst t) = true ->
  read Library B (pushes Library B (construct Library B enum2 true ffs) xs) (lfeature (fst t))
  = read Library B (pushes Library B (construct Library B enum true fs) xs) (lfeature (fst t)).
Proof.
  intros t xs Ht Xt; destruct (HP t Ht Xt) as [[r [Lr Nr]] [t2 [[r2 [Lr2 Nr2]] [Ef Hn]]]].
  rewrite <- !pushed_history; symmetry.
  apply (library_noninterference B HB enum enum2 He He2 true true fs ffs C1 C2 R1 R2 (pushed xs) (pushed xs) eq_refl)
    with (r1 := r) (r2 := r2) (t2 := t2); rewrite ?pushed_drops; try assumption; try apply no_drops_safe.
  symmetry; exact Ef.
Qed.

Theorem library_external : forall cs,
  let other xs := pushes Library B (construct Library B enum2 true ffs) xs in
  (forall ys x env zs, cs = ys ++ (x, env) :: zs -> forall b, UsedOnPush Library weight_accumulator lon_push ts b ->
     env (lfeature (fst b)) = read Library B (other (map fst ys ++ [x])) (lfeature (fst b))) ->
  forall t, In t ts ->
  read_with Library B weight_accumulator (read Library B (other (map fst cs)))
    (pushes_with Library B weight_accumulator
       (construct Library (ExtB Library B weight_accumulator) enum true fs) cs) (lfeature (fst t))
  = read Library B (pushes Library B (construct Library B enum true fs) (map fst cs)) (lfeature (fst t)).
Proof.
  intros cs other H t Ht.
  apply (external_answers Library B library_laws lconsults lon_push HB weight_accumulator enum He true fs); try assumption.
  - now apply library_supplied.
  - now apply library_push_ordered.
  - intros ys x env zs E b Hb; fold ts in Hb.
    refine (eq_trans (H ys x env zs E b Hb) _); unfold other.
    apply weights_agree; [| exact (proj1 Hb)].
    destruct Hb as [_ [a [_ [_ [Hn _]]]]]; now apply needs_member in Hn.
  - intros b Ib Xb; now apply weights_agree.
Qed.
End Lib.

(** With the accumulators of ModelBasic: the textbook values. *)
Theorem external_textbook : forall (K : Num), FieldLaws K -> forall (sqrt : car K -> car K) (R : Rest K),
  RestReadsOnly R -> forall enum enum2, Enumeration Library enum -> Enumeration Library enum2 -> forall fs ffs v,
  let B := BasicSets K sqrt R in
  let ts := make_tuple Library enum true fs in
  let ts2 := make_tuple Library enum2 true ffs in
  Compiles true ts -> Compiles true ts2 -> NoRollingClash ts -> NoRollingClash ts2 ->
  Provides Library weight_accumulator fs ffs ts ts2 ->
  OneVariate v ts -> (forall t, In t ts -> order_ok (fst t)) ->
  forall cs, WeightsOk K true (map fst cs) ->
  let other xs := pushes Library B (construct Library B enum2 true ffs) xs in
  (forall ys x env zs, cs = ys ++ (x, env) :: zs -> forall b, UsedOnPush Library weight_accumulator lon_push ts b ->
     env (lfeature (fst b)) = read Library B (other (map fst ys ++ [x])) (lfeature (fst b))) ->
  forall t, Kept Library fs ts t -> basic (fst t) = true ->
  Answer K sqrt (XResult K R) true v (lfeature (fst t)) (map fst cs)
    (read_with Library B weight_accumulator (read Library B (other (map fst cs)))
       (pushes_with Library B weight_accumulator
          (construct Library (ExtB Library B weight_accumulator) enum true fs) cs) (lfeature (fst t))).
Proof.
  intros K HK sqrt R HR enum enum2 He He2 fs ffs v B ts ts2 C1 C2 R1 R2 HP HV HO cs HW other H t [r [Lr Nr]] Hb.
  unfold other; rewrite (library_external B (sets_read_only K sqrt R HR) enum enum2 He He2 fs ffs C1 C2 R1 R2 HP cs H);
    [| now apply needs_member in Nr].
  rewrite <- (pushed_history B).
  pose proof (library_answers K HK sqrt R HR enum He true fs v C1 R1 HV HO (@pushed B (map fst cs))) as A.
  fold B in A; rewrite pushed_drops, pushed_samples in A.
  exact (A (no_drops_safe _ _) HW r t Lr Nr Hb).
Qed.

(** The set that collects the weights need not be given the samples. *)
Theorem weights_only : forall (K : Num) (sqrt : car K -> car K) (R : Rest K) enum ffs,
  let B := BasicSets K sqrt R in
  (forall t, In t (make_tuple Library enum true ffs) -> fst t = t_count \/ weight_accumulator (fst t) = true) ->
  forall xs ys, map p_weight xs = map p_weight ys ->
  pushes Library B (construct Library B enum true ffs) xs = pushes Library B (construct Library B enum true ffs) ys.
Proof.
  intros K sqrt R enum ffs B Ht.
  set (ok := fun s : accset Library B => map (who Library B) s = make_tuple Library enum true ffs /\
     forall a, In a s -> forall y, state Library B a <> CRest y).
  assert (Tt : forall s a, ok s -> In a s ->
     fst (who Library B a) = t_count \/ weight_accumulator (fst (who Library B a)) = true).
  { intros s a [Hw _] Ia; apply Ht; rewrite <- Hw; now apply in_map. }
  assert (Op : forall s a, ok s -> In a s -> forall r x y, p_weight x = p_weight y ->
     bstep K R (fst (who Library B a)) r x (state Library B a) = bstep K R (fst (who Library B a)) r y (state Library B a) /\
     forall z, bstep K R (fst (who Library B a)) r x (state Library B a) <> CRest z).
  { intros s a Hs Ia r x y Hxy; pose proof (proj2 Hs a Ia) as Nr.
    destruct (state Library B a) as [| n | c | c d | z]; [| | | | exfalso; now apply (Nr z)];
    (destruct (Tt s a Hs Ia) as [E | E];
     [rewrite E; cbn; split; [reflexivity | discriminate] |
      destruct (fst (who Library B a)); try discriminate E; cbn; rewrite ?Hxy; (split; [reflexivity | discriminate])]). }
  assert (S1 : forall s x y, ok s -> p_weight x = p_weight y ->
    push Library B s x = push Library B s y /\ ok (push Library B s x)).
  { intros s x y Hs Hxy; split.
    - unfold push.
      assert (V : forall todo done, (forall a, In a todo -> In a s) -> visit Library B x done todo = visit Library B y done todo).
      { induction todo as [| a todo IH]; intros done Hin; [reflexivity |].
        cbn [visit]; rewrite IH by (intros b Hb; apply Hin; now right).
        do 3 f_equal; unfold operate; destruct (is_dropped Library B a); [reflexivity |]; f_equal.
        apply (Op s a Hs (Hin a (or_introl eq_refl))); exact Hxy. }
      apply V; auto.
    - destruct (push_shape Library B s x) as [W _]; split; [rewrite W; exact (proj1 Hs) |].
      intros a Ha z; apply In_nth_error in Ha; destruct Ha as [i Hi].
      destruct (nth_error s i) as [b |] eqn:Eb.
      + destruct (push_nth Library B s x i b Eb) as [c Hc]; rewrite Hi in Hc; injection Hc as ->.
        assert (Ib : In b s) by (eapply nth_error_In; exact Eb).
        unfold operate; destruct (is_dropped Library B b); [now apply (proj2 Hs) |].
        apply (Op s b Hs Ib _ x x eq_refl).
      + apply nth_error_None in Eb.
        assert (Hl : (i < length (push Library B s x))%nat) by (apply nth_error_Some; congruence).
        assert (length (push Library B s x) = length s) by (rewrite <- (map_length (who Library B)), W; apply map_length).
        lia. }
  assert (S0 : ok (construct Library B enum true ffs)).
  { split; [apply construct_who |]; intros a Ha z.
    rewrite (built_state Library B enum true ffs a Ha).
    assert (It : In (who Library B a) (make_tuple Library enum true ffs))
      by (rewrite <- (construct_who Library B enum true ffs); now apply in_map).
    destruct (Ht _ It) as [E | E]; [rewrite E; discriminate |].
    destruct (fst (who Library B a)); try discriminate E; discriminate. }
  assert (P : forall xs ys s, ok s -> map p_weight xs = map p_weight ys -> pushes Library B s xs = pushes Library B s ys).
  { induction xs as [| x xs IH]; intros [| y ys] s Hs H; try discriminate; [reflexivity |].
    injection H as H1 H2; unfold pushes in *; cbn [fold_left].
    destruct (S1 s x y Hs H1) as [E O]; rewrite <- E; now apply IH. }
  intros xs ys H; now apply P.
Qed.

(** ** Concrete sets: test/external_weights.cpp *)
Definition WE := ExtB Library ExB weight_accumulator.
Definition wp (x w : Z) : pack QcN := pk (Q2Qc (x # 1)) (Q2Qc (w # 1)) (fun _ => 0%Qc).
Definition four : list (pack QcN) := [wp 10 2; wp 6 3; wp 4 4; wp 6 5].
Definition nothing (f : ltag) : Result Library ExB := VNone.
Definition wfs : list (request Library) := [plain t_sum_of_weights].
Definition lazy_fs : list (request Library) := [plain t_mean].
Definition imm_fs : list (request Library) := [plain t_variance].
Definition others (xs : list (pack QcN)) : accset Library ExB := pushes Library ExB (built true wfs) xs.
Fixpoint in_step (before : list (pack QcN)) (xs : list (pack QcN)) : list (pack QcN * (ltag -> Result Library ExB)) :=
  match xs with
  | [] => []
  | x :: r => (x, read Library ExB (others (before ++ [x]))) :: in_step (before ++ [x]) r
  end.
Fixpoint behind (before : list (pack QcN)) (xs : list (pack QcN)) : list (pack QcN * (ltag -> Result Library ExB)) :=
  match xs with
  | [] => []
  | x :: r => (x, read Library ExB (others before)) :: behind (before ++ [x]) r
  end.
Definition ext_reading (fs : list (request Library)) (cs : list (pack QcN * (ltag -> Result Library ExB))) (f : ltag) :=
  shown (read_with Library ExB weight_accumulator (read Library ExB (others (map fst cs)))
    (pushes_with Library ExB weight_accumulator (construct Library WE in_order true fs) cs) f).

Lemma w_tuple : make_tuple Library in_order true wfs = [(t_sum_of_weights, false)].
Proof. vm_compute; reflexivity. Qed.
Lemma lazy_tuple : make_tuple Library in_order true lazy_fs =
  [(t_sum_of_weights, false); (t_weighted_sum, false); (t_weighted_mean, false)].
Proof. vm_compute; reflexivity. Qed.
Lemma imm_tuple : make_tuple Library in_order true imm_fs =
  [(t_count, false); (t_sum_of_weights, false); (t_immediate_weighted_mean, false); (t_weighted_variance, false)].
Proof. vm_compute; reflexivity. Qed.

Lemma reads_dep : forall (a : ftag Library) b, In (lfeature (fst b)) (map lfeature (ldeps (fst a))) -> Reads Library a b.
Proof. intros a b H; exact H. Qed.

Lemma w_alone : forall ts (u : ftag Library), Needs Library ts (t_sum_of_weights, false) u -> u = (t_sum_of_weights, false).
Proof.
  intros ts u H; inversion H as [a Ha | a c b Ha Hc Hr H']; [reflexivity |].
  subst; exfalso; exact Hr.
Qed.

Lemma w_kept : Kept Library wfs (make_tuple Library in_order true wfs) (t_sum_of_weights, false).
Proof.
  exists (t_sum_of_weights, false); rewrite w_tuple; split; [| constructor; now left].
  split; [now left |]; split; [reflexivity | intros []].
Qed.

Lemma lazy_provided : Provides Library weight_accumulator lazy_fs wfs
  (make_tuple Library in_order true lazy_fs) (make_tuple Library in_order true wfs).
Proof.
  rewrite lazy_tuple; intros t Ht Xt.
  assert (t = (t_sum_of_weights, false)) by (cbn in Ht; destruct Ht as [<- | [<- | [<- | []]]]; [reflexivity | discriminate Xt | discriminate Xt]).
  subst t; split.
  - exists (t_weighted_mean, false); split; [split; [cbn; tauto | split; [reflexivity | intros []]] |].
    apply (needs_read Library _ _ (t_sum_of_weights, false)); [cbn; tauto | cbn; tauto | apply reads_dep; cbn; tauto |].
    constructor; cbn; tauto.
  - exists (t_sum_of_weights, false); split; [exact w_kept |]; split; [reflexivity |].
    intros u Hu; apply w_alone in Hu; subst u; exists (t_sum_of_weights, false); split; [| reflexivity].
    rewrite w_tuple; constructor; now left.
Qed.

Lemma imm_provided : Provides Library weight_accumulator imm_fs wfs
  (make_tuple Library in_order true imm_fs) (make_tuple Library in_order true wfs).
Proof.
  rewrite imm_tuple; intros t Ht Xt.
  assert (t = (t_sum_of_weights, false))
    by (cbn in Ht; destruct Ht as [<- | [<- | [<- | [<- | []]]]]; try reflexivity; discriminate Xt).
  subst t; split.
  - exists (t_weighted_variance, false); split; [split; [cbn; tauto | split; [reflexivity | intros []]] |].
    apply (needs_read Library _ _ (t_immediate_weighted_mean, false)); [cbn; tauto | cbn; tauto | apply reads_dep; cbn; tauto |].
    apply (needs_read Library _ _ (t_sum_of_weights, false)); [cbn; tauto | cbn; tauto | apply reads_dep; cbn; tauto |].
    constructor; cbn; tauto.
  - exists (t_sum_of_weights, false); split; [exact w_kept |]; split; [reflexivity |].
    intros u Hu; apply w_alone in Hu; subst u; exists (t_sum_of_weights, false); split; [| reflexivity].
    rewrite w_tuple; constructor; now left.
Qed.

Lemma in_step_spec : forall xs before ys x env zs, in_step before xs = ys ++ (x, env) :: zs ->
  env = read Library ExB (others (before ++ map fst ys ++ [x])).
Proof.
  induction xs as [| x0 xs IH]; intros before ys x env zs H; [destruct ys; discriminate |].
  destruct ys as [| y ys].
  - cbn in H; injection H as <- <- _; reflexivity.
  - cbn [in_step app] in H; injection H as <- H; apply IH in H; rewrite H.
    cbn [map app fst]; now rewrite <- app_assoc.
Qed.

(** The hypotheses of [library_external] for both. *)
Lemma ext_sets :
  Compiles true (make_tuple Library in_order true lazy_fs) /\ Compiles true (make_tuple Library in_order true imm_fs) /\
  Compiles true (make_tuple Library in_order true wfs) /\
  NoRollingClash (make_tuple Library in_order true lazy_fs) /\ NoRollingClash (make_tuple Library in_order true imm_fs) /\
  NoRollingClash (make_tuple Library in_order true wfs) /\
  (forall b, ~ UsedOnPush Library weight_accumulator lon_push (make_tuple Library in_order true lazy_fs) b) /\
  UsedOnPush Library weight_accumulator lon_push (make_tuple Library in_order true imm_fs) (t_sum_of_weights, false) /\
  (forall ys x env zs, in_step [] four = ys ++ (x, env) :: zs -> env = read Library ExB (others (map fst ys ++ [x]))).
Proof.
  rewrite lazy_tuple, imm_tuple, w_tuple.
  split; [intros t H; each H |].
  split; [intros t H; each H |].
  split; [intros t H; each H |].
  split; [intros a b Ha Hb Hr; each Ha; discriminate |].
  split; [intros a b Ha Hb Hr; each Ha; discriminate |].
  split; [intros a b Ha Hb Hr; each Ha; discriminate |].
  split.
  { intros b [_ [a [Ha [Hp _]]]]; cbn in Ha; destruct Ha as [<- | [<- | [<- | []]]]; discriminate Hp. }
  split.
  { split; [reflexivity |]; exists (t_weighted_variance, false); split; [cbn; tauto |]; split; [reflexivity |]; split; [| discriminate].
    apply (needs_read Library _ _ (t_immediate_weighted_mean, false)); [cbn; tauto | cbn; tauto | apply reads_dep; cbn; tauto |].
    apply (needs_read Library _ _ (t_sum_of_weights, false)); [cbn; tauto | cbn; tauto | apply reads_dep; cbn; tauto |].
    constructor; cbn; tauto. }
  intros ys x env zs H; apply (in_step_spec four [] ys x env zs H).
Qed.

Lemma ext_values :
  ext_reading lazy_fs (map (fun x => (x, nothing)) four) t_mean = Some (6 # 1)%Q /\
  ext_reading lazy_fs (map (fun x => (x, nothing)) four) t_sum_of_weights = Some (14 # 1)%Q /\
  ext_reading imm_fs (in_step [] four) t_mean = Some (6 # 1)%Q /\
  ext_reading imm_fs (in_step [] four) t_variance = Some (24 # 7)%Q /\
  ext_reading imm_fs (behind [] four) t_mean <> Some (6 # 1)%Q.
Proof.
  split; [vm_compute; reflexivity |]; split; [vm_compute; reflexivity |]; split; [vm_compute; reflexivity |].
  split; [vm_compute; reflexivity | vm_compute; discriminate].
Qed.

(** A reference to the other set, changed in whatever way. *)
Lemma external_reference : forall (L : Lib) (B : Behaviour L) (X : Type), LibLaws L -> forall ext enum, Enumeration L enum -> forall W fs
  (m : memory (accset L B)) a (es : list (happening (accset L B) X)) cs t,
  In t (make_tuple L enum W fs) -> ext (fst t) = true ->
  let m' := fold_left (happens (accset L B) X) es m in
  let held := fold_left (reference_op (accset L B) X) es (reference_init (accset L B) m a) in
  read_with L B ext (read L B (reference_result (accset L B) m' held))
    (pushes_with L B ext (construct L (ExtB L B ext) enum W fs) cs) (ffeature L t)
  = read L B (current (m a) a es) (ffeature L t).
Proof.
  intros L B X HL ext enum He W fs m a es cs t Ht Xt m' held.
  rewrite external_reports by assumption; unfold m', held; now rewrite reference_follows.
Qed.

Lemma which_external : forall t,
  weight_accumulator t = true <-> lfeature t = t_sum_of_weights \/ lfeature t = t_mean_of_weights.
Proof. destruct t; cbn; split; intros H; try discriminate; auto; destruct H; discriminate. Qed.
