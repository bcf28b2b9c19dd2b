(** Saving and loading the sets of the whole library. *)
From Coq Require Import List ZArith Bool Lia Arith Permutation.
From Verif Require Import Num ModelFramework SpecFramework ProofFramework ProofFrameworkRef ProofFrameworkRun.
From Verif Require Import ModelLibrary ModelSets ModelWhole ModelObserve SpecObserve ProofLibrary ProofObserve2.
From Verif Require Import SpecMachine ModelArchive ModelMachines ModelSetArchive ModelLibraryArchive SpecLibraryArchive.
From Verif Require Import ProofMachines ProofSetArchive ProofLibraryArchive1 ProofLibraryArchive2 ProofLibraryArchive3.
Import ListNotations.

Section Kinds.
Variable L : Lib.
Hypothesis HL : LibLaws L.
Variable B : Behaviour L.
Variable asks : tag L -> State L B -> list (tag L).
Variable look : tag L -> (tag L -> Result L B) -> State L B -> State L B.
Variable ok : tag L -> Prop.
Variable kind : tag L -> State L B -> Prop.
Hypothesis kstep : forall t r x s, ok t -> kind t s -> kind t (step L B t r x s).
Hypothesis klook : forall t r s, ok t -> kind t s -> kind t (look t r s).
Local Notation who := (who L B).
Local Notation state := (state L B).

Definition kinds (s : accset L B) : Prop := Forall (fun a => ok (fst (who a)) /\ kind (fst (who a)) (state a)) s.

Lemma kinds_visit : forall x todo done, kinds done -> kinds todo -> kinds (visit L B x done todo).
Proof.
  induction todo as [| a todo IH]; intros done Hd Ht; [exact Hd |].
  inversion Ht as [| ? ? [Hc Hsh] Ht']; subst; cbn; apply IH; [| exact Ht'].
  apply Forall_app; split; [exact Hd |]; constructor; [| constructor].
  unfold operate; destruct (is_dropped L B a); cbn; split; auto.
Qed.
Lemma kinds_push : forall s x, kinds s -> kinds (push L B s x).
Proof. intros s x H; apply kinds_visit; [constructor | exact H]. Qed.
Lemma counts_put : forall f st s, counts L B (put L B f st s) = counts L B s.
Proof. intros f st s; unfold counts, put; rewrite map_map; apply map_ext; intros a; now destruct (tag_eqb L f _). Qed.
Lemma counts_who : forall s s', counts L B s = counts L B s' -> map who s = map who s'.
Proof.
  intros s s' H; assert (E : map (fun e => fst (fst e)) (counts L B s) = map (fun e => fst (fst e)) (counts L B s')) by now rewrite H.
  unfold counts in E; now rewrite !map_map in E.
Qed.

Lemma observe_keeps : forall n f s, Single L (map who s) -> kinds s ->
  kinds (observe L B asks look n f s) /\ counts L B (observe L B asks look n f s) = counts L B s.
Proof.
  induction n as [| n IH]; intros f s N Hs; cbn; [now split |].
  destruct (find L B s f) as [a |]; [| now split].
  assert (G : forall ds q, Single L (map who q) -> kinds q ->
    kinds (fold_left (fun q g => observe L B asks look n (feature L g) q) ds q) /\
    counts L B (fold_left (fun q g => observe L B asks look n (feature L g) q) ds q) = counts L B q).
  { induction ds as [| d ds IHd]; intros q Nq Hq; cbn; [now split |].
    destruct (IH (feature L d) q Nq Hq) as [K1 C1].
    destruct (IHd (observe L B asks look n (feature L d) q)) as [K2 C2].
    - now rewrite (counts_who _ _ C1).
    - assumption.
    - split; [assumption |]; exact (eq_trans C2 C1). }
  destruct (G (asks (fst (who a)) (state a)) s N Hs) as [K1 C1].
  set (q := fold_left (fun q g => observe L B asks look n (feature L g) q) (asks (fst (who a)) (state a)) s) in *.
  destruct (find L B q f) as [b |] eqn:Eb; [| now split].
  split; [| exact (eq_trans (counts_put _ _ _) C1)].
  destruct (find_in L B HL q f b Eb) as [Ib Fb].
  assert (Nq : Single L (map who q)) by now rewrite (counts_who _ _ C1).
  unfold put; apply Forall_forall; intros c Hc; apply in_map_iff in Hc; destruct Hc as (c0 & <- & Ic).
  unfold kinds in K1; rewrite Forall_forall in K1.
  destruct (tag_eqb L f (ffeature L (who c0))) eqn:E; [| now apply K1].
  apply (ll_eqb L HL) in E.
  pose proof (find_here L B HL q c0 Nq Ic) as Hb; rewrite <- E, Eb in Hb; injection Hb as <-; cbn.
  destruct (K1 b Ib); split; auto.
Qed.
End Kinds.

Section Top.
Variable K : Num.
Variable A : Args K.
Variable sqrt : car K -> car K.
Variable garbage : car K.
Local Notation T := (car K).
Local Notation BM := (MemoSets K A sqrt).
Local Notation ser := (library_serializer K A garbage).
Local Notation M enum W fs := (LibraryMachine K A sqrt enum W fs).
Local Notation likes := (alike Library BM ok (csame K)).
Local Notation kinds := (kinds Library BM ok (kind K A)).

Lemma checked_like : forall s s', likes s s' ->
  match checked K A sqrt s, checked K A sqrt s' with
  | Ok q, Ok q' => q = s /\ q' = s'
  | UB, UB => True
  | _, _ => False
  end.
Proof.
  intros s s' H; unfold checked.
  assert (E : existsb (fun a => broken K (state Library BM a)) s = existsb (fun a => broken K (state Library BM a)) s').
  { induction H as [| a a' s s' (_ & _ & _ & _ & S) F IH]; cbn; [reflexivity |].
    now rewrite (broken_same K _ _ S), IH. }
  rewrite <- E; destruct (existsb _ s); auto.
Qed.
Lemma checked_ok : forall s q, checked K A sqrt s = Ok q -> q = s /\ Forall (fun a => broken K (state Library BM a) = false) s.
Proof.
  intros s q; unfold checked; destruct (existsb _ s) eqn:E; [discriminate |]; intros H; injection H as <-; split; [reflexivity |].
  apply Forall_forall; intros a Ha; destruct (broken K (state Library BM a)) eqn:Eb; [| reflexivity].
  assert (X : existsb (fun a => broken K (state Library BM a)) s = true) by (apply existsb_exists; now exists a).
  rewrite X in E; discriminate E.
Qed.

Lemma seen : forall v w, SameAnswer K v w -> in_view K v = in_view K w.
Proof.
  intros [| n | a | [] ] [| m | b | [] ]; cbn; intros H; try discriminate; first [ now rewrite H | now subst | reflexivity ].
Qed.

Lemma step_law : forall t r r' x s s', ok t -> csame K s s' -> (forall f, SameAnswer K (r f) (r' f)) ->
  csame K (step Library BM t r x s) (step Library BM t r' x s').
Proof. intros t r r' x s s' Ht; exact (step_same K A t r r' x s s' (proj2 (proj2 (ok_saved t Ht)))). Qed.
Lemma result_law : forall t r r' s s', ok t -> csame K s s' -> (forall f, SameAnswer K (r f) (r' f)) ->
  SameAnswer K (result Library BM t r s) (result Library BM t r' s').
Proof. intros t r r' s s' Ht; exact (result_same K A sqrt t r r' s s' (proj2 (proj2 (ok_saved t Ht)))). Qed.
Lemma look_law : forall t r r' s s', ok t -> csame K s s' -> (forall f, SameAnswer K (r f) (r' f)) ->
  csame K (blook K A t r s) (blook K A t r' s').
Proof. intros t r r' s s' Ht; exact (look_same K A t r r' s s' (proj2 (proj2 (ok_saved t Ht)))). Qed.

Lemma likes_answer : forall enum W fs s s', likes s s' ->
  forall (cs : list (mcall (M enum W fs))) q, answer (mrun (M := M enum W fs) s' cs) q = answer (mrun (M := M enum W fs) s cs) q.
Proof.
  intros enum W fs s s' H cs q; symmetry; refine (answers_agree (M enum W fs) likes _ _ cs s s' q H); clear.
  - intros s s' e H; cbn [mfeed LibraryMachine].
    pose proof (checked_like _ _ (alike_handle Library BM (SameAnswer K) (same_refl K) ok (csame K) step_law result_law e s s' H)) as C.
    destruct (checked K A sqrt (handle Library BM s e)), (checked K A sqrt (handle Library BM s' e)); try contradiction; try reflexivity.
    destruct C as [-> ->]; now apply (alike_handle Library BM (SameAnswer K) (same_refl K) ok (csame K) step_law result_law).
  - intros s s' f H; cbn [mask LibraryMachine].
    pose proof (alike_extracted Library BM (basks K) (blook K A) (SameAnswer K) (same_refl K) ok (csame K) result_law
                 (asks_same K) look_law f s s' H) as X.
    pose proof (checked_like _ _ X) as C.
    destruct (checked K A sqrt (extracted Library BM (basks K) (blook K A) f s)) as [u | |],
      (checked K A sqrt (extracted Library BM (basks K) (blook K A) f s')) as [u' | |]; try contradiction; cbn [ModelPSquare.obnd]; [| exact I].
    destruct C as [-> ->]; split; [exact X |].
    pose proof (alike_read Library BM (SameAnswer K) (same_refl K) ok (csame K) result_law s s' H f) as R.
    exact (seen (read Library BM s f) (read Library BM s' f) R).
Qed.

Theorem whole_roundtrip : forall enum W fs, Enumeration Library enum ->
  (forall t, In t (make_tuple Library enum W fs) -> keeps (fst t) = true) ->
  RoundTrip (M enum W fs) (save_set Library BM T ser) (load_set Library BM T ser) (no_drops Library BM).
Proof.
  intros enum W fs Henum Hk.
  assert (N : Single Library (make_tuple Library enum W fs)) by exact (tuple_once Library library_laws enum Henum W fs).
  assert (I : forall (cs : list (mcall (M enum W fs))) s, no_drops Library BM (inputs cs) -> mrun (mstart (M enum W fs)) cs = Ok s ->
    kinds s /\ Forall (fun a => broken K (state Library BM a) = false) s /\
    counts Library BM s = counts Library BM (construct Library BM enum W fs)).
  { intros cs; induction cs as [| c cs IH] using rev_ind; intros s Hn E.
    - injection E as <-.
      assert (Ki : forall a, In a (construct Library BM enum W fs) ->
        (ok (fst (who Library BM a)) /\ kind K A (fst (who Library BM a)) (state Library BM a)) /\ broken K (state Library BM a) = false).
      { intros a Ha; rewrite (built_state Library BM enum W fs a Ha).
        assert (Hw : In (who Library BM a) (make_tuple Library enum W fs)).
        { rewrite <- (construct_who Library BM enum W fs); now apply in_map. }
        pose proof (Hk _ Hw) as O; split; [split; [exact O | now apply kind_init] |].
        destruct (fst (who Library BM a)); try discriminate O; reflexivity. }
      split; [| split; [| reflexivity]]; apply Forall_forall; intros a Ha; now apply Ki.
    - rewrite mrun_snoc in E; destruct (mrun (mstart (M enum W fs)) cs) as [s1 | |]; try discriminate E.
      rewrite inputs_snoc in Hn.
      destruct (IH s1) as (K1 & B1 & C1); [intros t Ht; apply (Hn t); apply in_or_app; now left | reflexivity |].
      assert (N1 : Single Library (map (who Library BM) s1)).
      { rewrite (counts_who Library BM _ _ C1), construct_who; exact N. }
      destruct c as [[x | t] | f]; cbn in E.
      + apply checked_ok in E; destruct E as [-> Hb].
        split; [| split; [exact Hb | now rewrite counts_push]].
        apply kinds_push; [apply kind_step | exact K1].
      + exfalso; apply (Hn t); apply in_or_app; right; now left.
      + destruct (checked K A sqrt _) as [q | |] eqn:Ec; try discriminate E; cbn in E; injection E as <-.
        apply checked_ok in Ec; destruct Ec as [-> Hb].
        destruct (observe_keeps Library library_laws BM (basks K) (blook K A) ok (kind K A) (kind_look K A)
                    (S (depth Library f)) f s1 N1 K1) as [K2 C2].
        split; [exact K2 |]; split; [exact Hb |]; exact (eq_trans C2 C1). }
  intros cs s Hn E; destruct (I cs s Hn E) as (Ks & Bs & Cs).
  destruct (load_alike Library BM T ser ok (csame K) (SavedState K A) (saved K A garbage) s (construct Library BM enum W fs)) as (s' & E' & H').
  - now symmetry.
  - unfold shaped; apply Forall_forall; intros a Ha.
    unfold ProofLibraryArchive4.kinds in Ks; rewrite Forall_forall in Ks; rewrite Forall_forall in Bs.
    destruct (Ks a Ha) as [O Kd]; split; [exact O |]; split; [exact Kd | exact (Bs a Ha)].
  - exists s'; split; [exact E' |]; intros cs' q; now apply likes_answer.
Qed.
End Top.
