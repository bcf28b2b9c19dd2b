(** The rolling accumulators in sets of the whole library. *)

From Coq Require Import List Bool Arith Lia.
From Verif Require Import Num NumFacts ModelBasic SpecStats ProofBasic ModelRolling SpecRolling ProofRolling.
From Verif Require Import ModelFramework SpecFramework ProofFramework ProofFrameworkRef ProofFrameworkRun.
From Verif Require Import ModelLibrary ModelSets SpecSets ProofLibrary ProofSets ProofSetsTop.
From Verif Require Import ModelRollingSets SpecRollingSets ProofRollingSets ModelWhole SpecWhole ProofWhole1.
Import ListNotations.

Section Rolling.
Variable K : Num.
Variable HO : OrderedLaws K.
Variable A : Args K.
Variable sqrt : car K -> car K.
Local Notation N := (a_window K A).
Local Notation B := (WholeSets K A sqrt).
Local Notation RB := (BasicSets K sqrt (RollingRest K N)).

Definition good (t : ltag) (xs : list (pack K)) (s : cell K (wcell K)) : Prop :=
  exists c, s = CRest (WRoll c) /\ rgood K N t xs (CRest c).
Definition answer (f : ltag) (xs : list (pack K)) (a : value K (note K)) : Prop :=
  exists c, a = VRest (NRoll c) /\ RollingAnswer K N f xs (VRest c).

Lemma roll_init t : rolling t = true -> init Library B t = CRest (WRoll (rinit K t)).
Proof. intros H; destruct t; try discriminate H; reflexivity. Qed.
Lemma roll_init' t : rolling t = true -> init Library RB t = CRest (rinit K t).
Proof. intros H; destruct t; try discriminate H; reflexivity. Qed.
Lemma roll_step t r x c : rolling t = true ->
  exists c', step Library B t r x (CRest (WRoll c)) = CRest (WRoll c') /\
             step Library RB t (fun f => roll_view K (r f)) x (CRest c) = CRest c'.
Proof. intros H; destruct t; try discriminate H; eexists; split; reflexivity. Qed.
Lemma roll_result t r c : rolling t = true ->
  exists c', result Library B t r (CRest (WRoll c)) = VRest (NRoll c') /\
             result Library RB t (fun f => roll_view K (r f)) (CRest c) = VRest c'.
Proof. intros H; destruct t; try discriminate H; eexists; split; reflexivity. Qed.
Lemma answer_view f xs a : answer f xs a -> RollingAnswer K N f xs (roll_view K a).
Proof. intros (c & -> & H); exact H. Qed.

Lemma good_init t : rcls t -> good t [] (init Library B t).
Proof.
  intros C. pose proof (rgood_init K HO sqrt N t C) as G. destruct C as [H _].
  rewrite roll_init by exact H. rewrite roll_init' in G by exact H. eexists; split; [reflexivity | exact G].
Qed.
Lemma good_step t xs x s r : rcls t -> True -> good t xs s ->
  (lon_push t = true -> forall d, In d (lconsults t) -> answer (lfeature d) (xs ++ [x]) (r (lfeature d))) ->
  good t (xs ++ [x]) (step Library B t r x s).
Proof.
  intros C _ (c & -> & G) Hr. destruct (roll_step t r x c (proj1 C)) as (c' & E & E'). rewrite E.
  eexists; split; [reflexivity |]. rewrite <- E'. apply (rgood_step K HO sqrt N); [exact C | exact I | exact G |].
  intros Hp d Hd. now apply answer_view, Hr.
Qed.
Lemma good_result t xs s r : rcls t -> True -> good t xs s ->
  (forall d, In d (lconsults t) -> answer (lfeature d) xs (r (lfeature d))) ->
  answer (lfeature t) xs (result Library B t r s).
Proof.
  intros C _ (c & -> & G) Hr. destruct (roll_result t r c (proj1 C)) as (c' & E & E'). rewrite E.
  eexists; split; [reflexivity |]. rewrite <- E'. apply (rgood_result K HO sqrt N); [exact C | exact I | exact G |].
  intros d Hd. now apply answer_view, Hr.
Qed.

Lemma whole_rolling : forall enum W fs es t, let xs := Pushed K A sqrt es in
  Session K A sqrt enum W fs es t -> rolling t = true ->
  (forall u, Contains enum W fs u -> rolling_order_ok u) ->
  exists c, Extracted K A sqrt enum W fs es t = VRest (NRoll c) /\ RollingAnswer K N (lfeature t) xs (VRest c).
Proof.
  intros enum W fs es t xs [He Hc Hr HS (r & b & HL & HN)] Hb Ho.
  apply (correct_history Library B library_laws lconsults lon_push
           (sets_read_only K sqrt (WholeRest K A) (whole_reads_only K A))
           (fun _ => True) good answer rcls) with (t := (t, b)); try assumption; try exact I.
  - intros; exact I.
  - apply good_init.
  - apply good_step.
  - apply good_result.
  - now apply library_supplied.
  - now apply library_push_ordered.
  - now apply needs_member in HN.
  - intros u Hu; split; [now apply (rolling_needs (make_tuple Library enum W fs) (t, b)) |].
    apply Ho; apply needs_member in Hu. exists (snd u). now rewrite <- surjective_pairing.
  - now apply (safe_never B enum He W fs es HS r).
Qed.
End Rolling.

(** A set with rolling accumulators beside a histogram. *)
From Coq Require Import ZArith QArith Qcanon.
From Verif Require Import ProofFrameworkEx ProofWhole ProofWholeTop ProofWholeEx.
Definition fs5 : list (request Library) := [plain t_rolling_variance; plain t_density; plain (t_rolling_moment 2); plain t_rolling_sum].
Definition ts5 : list (ftag Library) :=
  [(t_rolling_window_plus1, false); (t_rolling_count, false); (t_immediate_rolling_mean, false); (t_rolling_variance, false);
   (t_count, false); (t_min, false); (t_max, false); (t_density, false); (t_rolling_moment 2, false); (t_rolling_sum, false)].
Lemma tuple5 : make_tuple Library in_order false fs5 = ts5.
Proof. vm_compute; reflexivity. Qed.
Definition live5 : list ltag := [t_rolling_variance; t_rolling_moment 2; t_rolling_sum].
Definition es5 (pw : Qc -> Qc -> Qc) : list (event Library (WB pw)) := map (wpush pw) [4; 1; 5]%Z.
Lemma session5 : forall pw t, In t live5 -> Session QcN (ex_args pw) (fun x => x) in_order false fs5 (es5 pw) t.
Proof.
  intros pw t Ht; apply (plain_session QcN (ex_args pw) (fun x => x) in_order false fs5 _ _ false ts5); try reflexivity.
  - apply in_order_enum.
  - intros u Hu; each Hu.
  - intros a b Ha Hb; each Ha; each Hb.
  - revert t Ht; apply Forall_forall; repeat apply Forall_cons; try apply Forall_nil; isin.
  - revert t Ht; apply Forall_forall; repeat apply Forall_cons; try apply Forall_nil; vm_compute; reflexivity.
Qed.
Lemma orders5 : forall u, Contains in_order false fs5 u -> rolling_order_ok u.
Proof. intros u [b H]; rewrite tuple5 in H; cbn in H; repeat (destruct H as [H | H]; [inversion H; cbn; auto |]); destruct H. Qed.
Definition got5 (t : ltag) : option Q :=
  match Extracted QcN (ex_args (fun x _ => x)) (fun x => x) in_order false fs5 (es5 (fun x _ => x)) t with
  | VRest (NRoll (RNum a)) => Some (this a) | _ => None end.
Lemma got_live5 : map got5 live5 = [Some (8#1); Some (13#1); Some (6#1)]%Q.
Proof. vm_compute; reflexivity. Qed.
