(** The library, set up with parameters and given samples that agree on what its accumulators look up (for C86). *)
From Coq Require Import List Bool Arith.
From Verif Require Import Num ModelBasic ModelMinMax ModelRolling ModelDensity ModelPSquare ModelTail ModelPot.
From Verif Require Import ModelFramework ModelLibrary ModelSets ModelRollingSets ModelWhole ModelArgs SpecArgs ProofArgs.
Import ListNotations.

Definition agrees {N X : Type} (f g : N -> X) (l : list N) : Prop := fold_right (fun n Q => f n = g n /\ Q) True l.
Lemma agrees_all {N X} (f g : N -> X) l : (forall n, In n l -> f n = g n) -> agrees f g l.
Proof. induction l as [|n l IH]; intros H; cbn; [exact I |]. split; [apply H; now left | apply IH; intros; apply H; now right]. Qed.

Section Agree.
Variable K : Num.
Variable sqrt : car K -> car K.
Variables A A' : Args K.
Variable ts : list (ftag Library).
Local Notation T := (car K).
Local Notation val := (value K (note K)).
Hypothesis Hlo : a_lowest K A = a_lowest K A'.
Hypothesis Hhi : a_highest K A = a_highest K A'.
Hypothesis Hheap : a_heap K A = a_heap K A'.
Hypothesis Hceil : a_ceil K A = a_ceil K A'.
Hypothesis Hpow : a_pow K A = a_pow K A'.
Hypothesis HP : forall k kd, wanted ctor_takes ts k kd -> parameter K A k = parameter K A' k.

Definition PR (p p' : pack K) : Prop := forall k kd, wanted op_needs ts k kd -> field K p k kd = field K p' k kd.
Lemma PR_refl p : PR p p. Proof. intros k kd _. reflexivity. Qed.

Definition orel {X : Type} (Q : X -> X -> Prop) (o o' : outcome X) : Prop :=
  match o, o' with Ok a, Ok b => Q a b | NotANumber, NotANumber => True | UB, UB => True | _, _ => False end.

Definition RV (v v' : val) : Prop :=
  match v, v' with
  | VRest (NTail l ps), VRest (NTail l' ps') => l = l' /\ orel (Forall2 PR) ps ps'
  | _, _ => v = v'
  end.

Definition TS (s s' : tail_state T (pack K)) : Prop :=
  tl_sorted s = tl_sorted s' /\ tl_indices s = tl_indices s' /\ tl_samples s = tl_samples s' /\
  Forall2 (Forall2 PR) (tl_variates s) (tl_variates s').

Definition Sim (t : ltag) (s s' : cell K (wcell K)) : Prop :=
  match s, s' with
  | CRest (WTail o), CRest (WTail o') => orel TS o o'
  | _, _ => s = s'
  end.

Definition okt (t : ltag) : Prop := In t (map fst ts).

Lemma ok_field t p p' : okt t -> PR p p' -> agrees (fun n => field K p (fst n) (snd n)) (fun n => field K p' (fst n) (snd n)) (op_needs t).
Proof.
  intros O H. apply agrees_all. intros [k kd] Hn. apply in_map_iff in O as (u & E & O). apply H. exists u. split; [exact O |]. now rewrite E.
Qed.
Lemma ok_param t : okt t -> agrees (fun n => parameter K A (fst n)) (fun n => parameter K A' (fst n)) (ctor_takes t).
Proof.
  intros O. apply agrees_all. intros [k kd] Hn. apply in_map_iff in O as (u & E & O). apply (HP k kd). exists u. split; [exact O |]. now rewrite E.
Qed.

(** What the accumulators read does not show the difference. *)
Section Reading.
Variables r r' : ltag -> val.
Hypothesis HR : forall f, RV (r f) (r' f).
Local Ltac see := intros f; assert (H := HR f); unfold RV in H; destruct (r f) as [| | |[]]; destruct (r' f) as [| | |[]];
  try discriminate H; first [reflexivity | match type of H with _ /\ _ => destruct H as [H _] end; rewrite H; reflexivity | injection H; intros; subst; reflexivity].
Lemma e_vnat : forall f, vnat K (WholeRest K A) (r f) = vnat K (WholeRest K A') (r' f). Proof. see. Qed.
Lemma e_vnum : forall f, vnum K (WholeRest K A) (r f) = vnum K (WholeRest K A') (r' f). Proof. see. Qed.
Lemma e_wcount : forall f, wcount K (r f) = wcount K (r' f). Proof. see. Qed.
Lemma e_wsum : forall f, wsum K (r f) = wsum K (r' f). Proof. see. Qed.
Lemma e_wnum : forall f, wnum K (r f) = wnum K (r' f). Proof. see. Qed.
Lemma e_wout : forall f, wout K (r f) = wout K (r' f). Proof. see. Qed.
Lemma e_whist : forall f, whist K (r f) = whist K (r' f). Proof. see. Qed.
Lemma e_wlist : forall f, wlist K (r f) = wlist K (r' f). Proof. see. Qed.
Lemma e_wtail : forall f, wtail K (r f) = wtail K (r' f). Proof. see. Qed.
Lemma e_wvectors : forall f, wvectors K (r f) = wvectors K (r' f). Proof. see. Qed.
Lemma e_wfit : forall f, wfit K (r f) = wfit K (r' f). Proof. see. Qed.
Lemma e_wfun : forall f, wfun K (r f) = wfun K (r' f). Proof. see. Qed.
Lemma e_roll : forall f, roll_view K (r f) = roll_view K (r' f). Proof. see. Qed.
Lemma e_wpacks : forall f, orel (Forall2 PR) (wpacks K (r f)) (wpacks K (r' f)).
Proof.
  intros f; assert (H := HR f); unfold RV in H; destruct (r f) as [| | |[]]; destruct (r' f) as [| | |[]]; try discriminate H; try exact I. now destruct H as [_ H].
Qed.
End Reading.

Lemma roll_step t r r' p p' c : okt t -> (forall f, RV (r f) (r' f)) -> PR p p' ->
  rstep K (a_window K A) t (fun f => roll_view K (r f)) p c = rstep K (a_window K A') t (fun f => roll_view K (r' f)) p' c.
Proof.
  intros O HR HX. assert (Hf := ok_field t p p' O HX). assert (Hp := ok_param t O). assert (E := e_roll r r' HR).
  destruct t; cbn in Hf, Hp; try reflexivity; destruct Hp as [Hp _]; injection Hp as Hp; try (destruct Hf as [Hf _]; injection Hf as Hf);
    destruct c; cbn [rstep]; rewrite ?E, ?Hp, ?Hf; reflexivity.
Qed.
Lemma roll_result t r r' c : okt t -> (forall f, RV (r f) (r' f)) ->
  rresult K (a_window K A) t (fun f => roll_view K (r f)) c = rresult K (a_window K A') t (fun f => roll_view K (r' f)) c.
Proof.
  intros O HR. assert (Hp := ok_param t O). assert (E := e_roll r r' HR).
  destruct t; cbn in Hp; try reflexivity; destruct Hp as [Hp _]; injection Hp as Hp; destruct c; cbn [rresult]; rewrite ?E, ?Hp; reflexivity.
Qed.

Lemma sim_same t s : (forall o, s <> CRest (WTail o)) -> Sim t s s.
Proof. intros H. unfold Sim. destruct s as [| | | |[]]; try reflexivity. now destruct (H s). Qed.
Lemma sim_cases t s s' : Sim t s s' -> (s = s' /\ (forall o, s <> CRest (WTail o))) \/ (exists o o', s = CRest (WTail o) /\ s' = CRest (WTail o') /\ orel TS o o').
Proof.
  unfold Sim. intros H. destruct s as [| | | |[]]; try (left; split; [exact H | discriminate]).
  destruct s' as [| | | |[]]; try discriminate H. right. eauto.
Qed.

Lemma repeat_rel {X} (Q : X -> X -> Prop) a n : Q a a -> Forall2 Q (repeat a n) (repeat a n).
Proof. intros H. induction n; cbn; constructor; assumption. Qed.
Lemma set_nth_rel {X} (Q : X -> X -> Prop) x x' : Q x x' -> forall l l', Forall2 Q l l' -> forall n, Forall2 Q (set_nth n x l) (set_nth n x' l').
Proof. intros Hx. induction 1 as [|a a' l l' Ha H IH]; intros [|n]; cbn; constructor; auto. Qed.

Lemma init_agree t : okt t -> Sim t (binit K (WholeRest K A) t) (binit K (WholeRest K A') t).
Proof.
  intros O. assert (Hp := ok_param t O).
  destruct t; cbn in Hp; unfold binit; cbn [basic]; try (apply sim_same; discriminate);
    unfold WholeRest, xinit, winit; cbn [rolling rinit]; unfold pq_prob; rewrite <- ?Hlo, <- ?Hhi;
    try (repeat match goal with H : _ /\ _ |- _ => destruct H | H : Some _ = Some _ |- _ => injection H as H end;
         repeat match goal with H : _ = _ |- _ => progress rewrite <- ?H end; apply sim_same; discriminate).
  destruct Hp as [Hp _]. injection Hp as Hp. rewrite <- Hp. split; [reflexivity | split; [reflexivity | split; [reflexivity |]]].
  cbn. constructor; [| constructor]. apply repeat_rel, PR_refl.
Qed.

Lemma assign_rel H pred ss is vs vs' i x p p' : PR p p' -> Forall2 (Forall2 PR) vs vs' ->
  TS (tail_assign H pred ss is vs i x [p]) (tail_assign H pred ss is vs' i x [p']).
Proof.
  intros Hp Hv. repeat (split; [reflexivity |]). cbn. destruct Hv as [|v v' vs vs' Hv _]; cbn; [constructor |]. destruct vs, vs'; repeat constructor; now apply set_nth_rel.
Qed.
Lemma push_rel H pred s s' x p p' : PR p p' -> TS s s' -> orel TS (tail_push H pred s x [p]) (tail_push H pred s' x [p']).
Proof.
  intros Hp (E1 & E2 & E3 & E4). unfold tail_push. rewrite <- E2, <- E3. destruct (Nat.ltb _ _).
  - cbn [orel]. now apply assign_rel.
  - destruct (tl_indices s) as [|top l] eqn:EI; [exact I |]. destruct (nth_error _ _); [| exact I]. destruct (pred x c).
    + destruct (rev _); [exact I |]. cbn [orel]. now apply assign_rel.
    + cbn [orel]. repeat split; congruence || assumption.
Qed.

Lemma step_agree t r r' p p' s s' : okt t -> (forall f, RV (r f) (r' f)) -> PR p p' -> Sim t s s' ->
  Sim t (bstep K (WholeRest K A) t r p s) (bstep K (WholeRest K A') t r' p' s').
Proof.
  intros O HR HX HS. assert (Hf := ok_field t p p' O HX). assert (Hp := ok_param t O).
  assert (E1 := e_vnat r r' HR). assert (E2 := e_vnum r r' HR). assert (E3 := e_wcount r r' HR). assert (E4 := e_wsum r r' HR). assert (E5 := e_wnum r r' HR).
  assert (ER := fun c => roll_step t r r' p p' c O HR HX).
  apply sim_cases in HS as [(<- & N)|(o & o' & -> & -> & HS)].
  - assert (G : forall t2 c, (forall o, c <> @CRest K (wcell K) (WTail o)) -> Sim t2 c c) by (intros; now apply sim_same).
    destruct t; cbn in Hf, Hp;
    repeat match goal with H : _ /\ _ |- _ => destruct H | H : True |- _ => clear H | H : Some _ = Some _ |- _ => injection H as H end;
    destruct s as [| | | |[]]; try (exfalso; eapply N; reflexivity); cbn [bstep WholeRest xstep]; try exact eq_refl;
    try (unfold wstep; rewrite ER; exact eq_refl);
    try (cbn [wstep]; unfold pq_prob; rewrite ?E1, ?E2, ?E3, ?E4, ?E5, ?Hlo, ?Hhi, ?Hheap; repeat match goal with H : _ = _ |- _ => progress rewrite ?H end; first [exact eq_refl | apply sim_same; unfold of_option; try discriminate]).
    all: match goal with |- forall o, (match ?m with _ => _ end) <> _ => destruct m; discriminate end.
  - destruct t; cbn in Hf, Hp; cbn [bstep WholeRest xstep wstep]; try exact HS.
    destruct Hf as [Hf _]. injection Hf as Hf. rewrite <- Hheap, <- Hf. destruct o as [q| |], o' as [q'| |]; try contradiction HS; try exact I. now apply push_rel.
Qed.

Lemma read_all_rel (l l' : list (pack K)) is : Forall2 PR l l' -> orel (Forall2 PR) (read_all l is) (read_all l' is).
Proof.
  intros H. induction is as [|i is IH]; cbn; [constructor |].
  assert (N : match nth_error l i, nth_error l' i with Some a, Some b => PR a b | None, None => True | _, _ => False end).
  { clear IH. revert i. induction H as [|a a' l l' Ha H IHl]; intros [|i]; cbn; try exact I; [exact Ha | apply IHl]. }
  destruct (nth_error l i), (nth_error l' i); try contradiction N; try exact I.
  destruct (read_all l is), (read_all l' is); try contradiction IH; try exact I. constructor; assumption.
Qed.
Lemma tail_result_rel H pred s s' : TS s s' -> tail_result H pred s = tail_result H pred s' /\
  orel (Forall2 PR) (tail_variate_result H pred s 0) (tail_variate_result H pred s' 0).
Proof.
  intros (E1 & E2 & E3 & E4). unfold tail_result, tail_variate_result, tail_sort. rewrite <- E1.
  assert (D : tl_indices (if tl_sorted s then s else {| tl_sorted := true; tl_indices := rev (sort_heap H (indirect_cmp pred (tl_samples s)) (tl_indices s)); tl_samples := tl_samples s; tl_variates := tl_variates s |}) =
              tl_indices (if tl_sorted s then s' else {| tl_sorted := true; tl_indices := rev (sort_heap H (indirect_cmp pred (tl_samples s')) (tl_indices s')); tl_samples := tl_samples s'; tl_variates := tl_variates s' |})).
  { destruct (tl_sorted s); cbn [tl_indices]; [exact E2 |]. now rewrite E2, E3. }
  split; [now rewrite D, E3 |]. rewrite D. destruct E4 as [|v v' vs vs' Hv _]; cbn [nth_error]; [exact I |]. now apply read_all_rel.
Qed.

Lemma rv_refl v : RV v v.
Proof.
  unfold RV. destruct v as [| | |[]]; try reflexivity. split; [reflexivity |]. destruct ps as [l0| |]; try exact I. cbn. induction l0; constructor; [apply PR_refl | assumption].
Qed.

Lemma packs_map {X} (g : pack K -> X) o o' : (forall p p', PR p p' -> g p = g p') -> orel (Forall2 PR) o o' ->
  obnd o (fun ps => Ok (map g ps)) = obnd o' (fun ps => Ok (map g ps)).
Proof.
  intros G H. destruct o as [l| |], o' as [l'| |]; try contradiction H; try reflexivity. cbn in *. f_equal. induction H as [|a b l l' Ha H IH]; [reflexivity |]. cbn. f_equal; auto.
Qed.

Lemma result_agree t r r' s s' : okt t -> (forall f, RV (r f) (r' f)) -> Sim t s s' ->
  RV (bresult K sqrt (WholeRest K A) t r s) (bresult K sqrt (WholeRest K A') t r' s').
Proof.
  intros O HR HS. assert (Hp := ok_param t O). assert (HF := ok_field t).
  assert (E1 := e_vnat r r' HR). assert (E2 := e_vnum r r' HR). assert (E3 := e_wcount r r' HR). assert (E4 := e_wsum r r' HR).
  assert (E6 := e_wout r r' HR). assert (E7 := e_whist r r' HR). assert (E8 := e_wlist r r' HR). assert (E9 := e_wtail r r' HR).
  assert (E10 := e_wvectors r r' HR). assert (E11 := e_wfit r r' HR). assert (E12 := e_wfun r r' HR). assert (EP := e_wpacks r r' HR).
  assert (ER := fun c => roll_result t r r' c O HR).
  assert (HS' := HS). apply sim_cases in HS' as [(<- & N)|(o & o' & -> & -> & HS')].
  - destruct t; cbn in Hp; 
    repeat match goal with H : _ /\ _ |- _ => destruct H | H : True |- _ => clear H | H : Some _ = Some _ |- _ => injection H as H end;
    destruct s as [| | | |[]]; try (exfalso; eapply N; reflexivity); cbn [bresult WholeRest xresult basic]; try exact eq_refl;
    try (unfold wresult; rewrite ER; exact eq_refl);
    try (cbn [wresult]; unfold pot_tail_mean_at; rewrite ?E1, ?E2, ?E3, ?E4, ?E6, ?E7, ?E8, ?E9, ?E10, ?E11, ?E12, ?Hpow, ?Hceil; repeat match goal with H : _ = _ |- _ => progress rewrite ?H end; first [exact eq_refl | idtac]).
    all: cbn [RV]; f_equal; f_equal; apply packs_map; [| apply EP]; intros p p' H; apply (fun Q => ok_field _ p p' Q H) in O;
      cbn in O; destruct O as [O _]; injection O as O; exact O.
  - destruct t; cbn in Hp; cbn [bresult WholeRest xresult basic]; try exact eq_refl;
    try (cbn [wresult]; unfold pot_tail_mean_at; rewrite ?E1, ?E2, ?E3, ?E4, ?E6, ?E7, ?E8, ?E9, ?E10, ?E11, ?E12, ?Hpow, ?Hceil;
      repeat match goal with H : _ /\ _ |- _ => destruct H | H : True |- _ => clear H | H : Some _ = Some _ |- _ => injection H as H end;
      repeat match goal with H : _ = _ |- _ => progress rewrite ?H end; first [exact eq_refl | idtac]).
    + cbn [RV]. destruct o as [q| |], o' as [q'| |]; try contradiction HS'; try (split; [reflexivity | exact I]). now apply tail_result_rel.
    + cbn [RV]. f_equal. f_equal. apply packs_map; [| apply EP]. intros p p' H. apply (fun Q => ok_field _ p p' Q H) in O.
      cbn in O. destruct O as [O _]. injection O as O. exact O.
    + cbn [RV]. f_equal. f_equal. apply packs_map; [| apply EP]. intros p p' H. apply (fun Q => ok_field _ p p' Q H) in O.
      cbn in O. destruct O as [O _]. injection O as O. exact O.
Qed.
End Agree.
