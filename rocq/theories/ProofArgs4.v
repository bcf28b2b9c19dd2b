(** Sessions (C86). *)
From Coq Require Import List Bool Arith Lia.
From Verif Require Import Num ModelBasic ModelPSquare ModelTail ModelFramework SpecFramework ModelLibrary ModelSets ModelRollingSets ModelWhole ModelArgs SpecArgs.
From Verif Require Import ProofFramework ProofFrameworkRef ProofFrameworkRun ProofLibrary ProofArgs ProofArgs2 ProofArgs3.
Import ListNotations.

Section Sessions.
Variable K : Num.
Variable P : Platform K.
Local Notation sq := (pl_sqrt K P).
Local Notation BB A := (WholeSets K A sq).

Definition Agreeing (ts : list (ftag Library)) (A A' : Args K) : Prop :=
  a_lowest K A = a_lowest K A' /\ a_highest K A = a_highest K A' /\ a_heap K A = a_heap K A' /\ a_ceil K A = a_ceil K A' /\
  a_pow K A = a_pow K A' /\ forall k kd, wanted ctor_takes ts k kd -> parameter K A k = parameter K A' k.

Definition Kin ts A A' : accset Library (BB A) -> accset Library (BB A') -> Prop :=
  kin Library (pack K) (value K (note K)) (cell K (wcell K)) (cell K (wcell K)) VNone
    (binit K (WholeRest K A)) (bstep K (WholeRest K A)) (bresult K sq (WholeRest K A))
    (binit K (WholeRest K A')) (bstep K (WholeRest K A')) (bresult K sq (WholeRest K A')) (okt ts) (Sim K ts).

Lemma Kin_push ts A A' s s' p p' : Agreeing ts A A' -> PR K ts p p' -> Kin ts A A' s s' ->
  Kin ts A A' (push Library (BB A) s p) (push Library (BB A') s' p').
Proof.
  intros (H1 & H2 & H3 & H4 & H5 & HP) HX H. refine (kin_push _ _ _ _ _ _ _ _ _ _ _ _ _ (PR K ts) (RV K ts) _ _ _ _ s s' p p' HX H).
  - exact eq_refl.
  - intros. now apply step_agree.
  - intros. now apply result_agree.
Qed.
Lemma Kin_drop ts A A' s s' t : Kin ts A A' s s' -> Kin ts A A' (drop Library (BB A) t s) (drop Library (BB A') t s').
Proof. apply kin_drop. Qed.
Lemma Kin_read ts A A' s s' f : Agreeing ts A A' -> Kin ts A A' s s' -> RV K ts (read Library (BB A) s f) (read Library (BB A') s' f).
Proof.
  intros (H1 & H2 & H3 & H4 & H5 & HP) H. refine (kin_read _ _ _ _ _ _ _ _ _ _ _ _ _ (RV K ts) _ _ _ s s' f H).
  - exact eq_refl.
  - intros. now apply result_agree.
Qed.
Lemma Kin_construct enum W fs A A' : Agreeing (make_tuple Library enum W fs) A A' ->
  Kin (make_tuple Library enum W fs) A A' (construct Library (BB A) enum W fs) (construct Library (BB A') enum W fs).
Proof.
  intros (H1 & H2 & H3 & H4 & H5 & HP). refine (kin_construct _ _ _ _ _ _ _ _ _ _ _ _ _ _ _ enum W fs _).
  - intros. now apply init_agree.
  - intros t Ht. now apply in_map.
Qed.

Lemma Kin_find ts A A' s s' f : Kin ts A A' s s' ->
  match find Library (BB A) s f, find Library (BB A') s' f with Some _, Some _ => True | None, None => True | _, _ => False end.
Proof.
  unfold find. induction 1 as [|a a' s s' Ha H IH]; cbn [List.find]; [exact I |]. destruct Ha as (E & Ha).
  change (who Library (BB A) a = who Library (BB A') a') in E. rewrite <- E.
  destruct (tag_eqb Library f (ffeature Library (who Library (BB A) a))); [exact I | exact IH].
Qed.

Lemma ask_kin ts A A' s s' f q : Agreeing ts A A' -> Kin ts A A' s s' -> ask K P A s f q = ask K P A' s' f q.
Proof.
  intros G H. unfold ask. destruct (arguments K q) as [ps|]; [| reflexivity].
  assert (F := Kin_find ts A A' s s' f H).
  destruct (find Library (BB A) s f), (find Library (BB A') s' f); try contradiction F; [| reflexivity].
  assert (R := Kin_read ts A A' s s' f G H). unfold RV in R.
  destruct (read Library (BB A) s f) as [| | |n]; destruct (read Library (BB A') s' f) as [| | |n']; try discriminate R; try (rewrite R; reflexivity);
    try (destruct n; discriminate R).
  destruct n, n'; try discriminate R; try (injection R; intros; subst; reflexivity); try reflexivity. destruct R as [R _]. now rewrite R.
Qed.

(** Two deeds with the same effect. *)
Definition in_step (ts : list (ftag Library)) (d d' : deed K) : Prop :=
  match d, d' with
  | Call l, Call l' =>
      match arguments K l, arguments K l' with
      | Some ps, Some ps' => all_there K op_needs ts ps = all_there K op_needs ts ps' /\
                             (all_there K op_needs ts ps = true -> PR K ts (to_pack K ps) (to_pack K ps'))
      | None, None => True
      | _, _ => False
      end
  | Let_go t, Let_go u => t = u
  | _, _ => False
  end.

Lemma acts_none A ds : fold_left (act K P A) ds None = None.
Proof. induction ds as [|d ds IH]; [reflexivity |]. exact IH. Qed.

Lemma acts_in_step ts A A' ds ds' : Agreeing ts A A' -> Forall2 (in_step ts) ds ds' -> forall s s', Kin ts A A' s s' ->
  map (who Library (BB A)) s = ts ->
  match fold_left (act K P A) ds (Some s), fold_left (act K P A') ds' (Some s') with
  | Some z, Some z' => Kin ts A A' z z' | None, None => True | _, _ => False end.
Proof.
  intros G. induction 1 as [|d d' ds ds' Hd _ IH]; intros s s' H Ht; [exact H |]. cbn [fold_left].
  assert (Ht' : map (who Library (BB A')) s' = ts) by (rewrite <- Ht; symmetry; exact (kin_who _ _ _ _ _ _ _ _ _ _ _ _ _ _ s s' H)).
  destruct d as [l|t], d' as [l'|u]; try contradiction Hd; cbn [act].
  - unfold in_step in Hd. destruct (arguments K l) as [ps|], (arguments K l') as [ps'|]; try contradiction Hd; [| rewrite !acts_none; exact I].
    destruct Hd as [E HX]. rewrite Ht, Ht', <- E. destruct (all_there K op_needs ts ps); [| rewrite !acts_none; exact I].
    apply IH; [apply Kin_push; [exact G | now apply HX | exact H] |]. rewrite <- Ht. apply push_shape.
  - cbn in Hd. subst u. apply IH; [now apply Kin_drop |]. rewrite <- Ht. apply drop_shape.
Qed.

Lemma session_agree enum W fs c c' ds ds' f q q' ps ps' : let ts := make_tuple Library enum W fs in
  arguments K c = Some ps -> arguments K c' = Some ps' ->
  (all_there K ctor_needs ts ps && all_fit K ctor_takes ts ps && negb (biased K ps) = all_there K ctor_needs ts ps' && all_fit K ctor_takes ts ps' && negb (biased K ps')) ->
  Agreeing ts (to_args K P ts ps) (to_args K P ts ps') -> Forall2 (in_step ts) ds ds' ->
  (forall A s, ask K P A s f q = ask K P A s f q') ->
  session K P enum W fs c ds f q = session K P enum W fs c' ds' f q'.
Proof.
  intros ts E E' EC G D Q. unfold session. fold ts. rewrite E, E', <- EC. destruct (_ && _); [| reflexivity].
  assert (H := acts_in_step ts _ _ ds ds' G D _ _ (Kin_construct enum W fs _ _ G) (construct_who Library (BB (to_args K P ts ps)) enum W fs)).
  destruct (fold_left _ ds _), (fold_left _ ds' _); try contradiction H; [| reflexivity]. rewrite <- Q. now apply (ask_kin ts).
Qed.

Lemma legal_args l : legal K l -> exists ps, arguments K l = Some ps.
Proof. intros H. eexists. apply arguments_iff. split; [exact H | reflexivity]. Qed.
Lemma args_legal l ps : arguments K l = Some ps -> legal K l.
Proof. intros H. now apply arguments_iff in H. Qed.

Lemma ask_same q q' : legal K q -> legal K q' -> same_for K (eq k_quantile_probability) q q' ->
  forall f A s, ask K P A s f q = ask K P A s f q'.
Proof.
  intros L1 L2 H f A s. destruct (legal_args q L1) as [ps E], (legal_args q' L2) as [ps' E']. unfold ask. rewrite E, E'.
  unfold get_scalar. rewrite (lookup_same K q q' ps ps' k_quantile_probability E E'); [reflexivity | discriminate |]. intros v. now apply H.
Qed.

Lemma agree_args ts c c' ps ps' : arguments K c = Some ps -> arguments K c' = Some ps' ->
  same_for K (fun k => exists kd, wanted ctor_takes ts k kd) c c' -> Agreeing ts (to_args K P ts ps) (to_args K P ts ps').
Proof.
  intros E E' H. repeat (split; [reflexivity |]). apply args_agree. intros k kd Hw. apply (lookup_same K c c'); try assumption.
  - now apply (wanted_usual ctor_takes ts k kd takes_usual).
  - intros v. apply H. now exists kd.
Qed.
Lemma agree_pack ts l l' ps ps' : arguments K l = Some ps -> arguments K l' = Some ps' ->
  same_for K (fun k => exists kd, wanted op_needs ts k kd) l l' -> PR K ts (to_pack K ps) (to_pack K ps').
Proof.
  intros E E' H. apply pack_agree. intros k kd Hw. apply (lookup_same K l l'); try assumption.
  - now apply (wanted_usual op_needs ts k kd op_usual).
  - intros v. apply H. now exists kd.
Qed.
Lemma bool_same b b' : (b = true <-> b' = true) -> b = b'.
Proof. destruct b, b'; intuition congruence. Qed.

Lemma complete_same needs ts l l' : same_arguments K l l' -> complete K needs ts l -> complete K needs ts l'.
Proof. intros H C k kd Hw. destruct (C k kd Hw) as (v & G & Q). exists v. split; [now apply H | exact Q]. Qed.
Lemma typed_same takes ts l l' : same_arguments K l l' -> well_typed K takes ts l -> well_typed K takes ts l'.
Proof. intros H C k kd v Hw G. apply (C k kd v Hw). now apply H. Qed.
Lemma unbiased_same l l' : same_arguments K l l' -> unbiased K l -> unbiased K l'.
Proof. intros H C v n. destruct (C v n) as (C1 & C2 & C3). repeat split; intros G; apply H in G; contradiction. Qed.
Lemma same_sym l l' : same_arguments K l l' -> same_arguments K l' l.
Proof. intros H k v. symmetry. apply H. Qed.

Lemma order enum W fs c c' ds ds' f q q' : legal K c -> legal K c' -> same_arguments K c c' -> Forall2 (rewritten K) ds ds' ->
  legal K q -> legal K q' -> same_arguments K q q' -> session K P enum W fs c ds f q = session K P enum W fs c' ds' f q'.
Proof.
  intros L1 L2 H D M1 M2 Q. destruct (legal_args c L1) as [ps E], (legal_args c' L2) as [ps' E']. set (ts := make_tuple Library enum W fs).
  apply (session_agree enum W fs c c' ds ds' f q q' ps ps' E E').
  - f_equal; [f_equal |].
    + apply bool_same. fold ts. rewrite (there_iff K ctor_needs ts c ps ctor_usual E), (there_iff K ctor_needs ts c' ps' ctor_usual E').
      split; apply complete_same; [exact H | now apply same_sym].
    + apply bool_same. fold ts. rewrite (fit_iff K ctor_takes ts c ps takes_usual E), (fit_iff K ctor_takes ts c' ps' takes_usual E').
      split; apply typed_same; [exact H | now apply same_sym].
    + apply bool_same. rewrite !negb_true_iff, (biased_iff K c ps E), (biased_iff K c' ps' E'). split; apply unbiased_same; [exact H | now apply same_sym].
  - apply (agree_args ts c c'); try assumption. intros k v _. apply H.
  - induction D as [|d d' ds ds' Hd _ IH]; constructor; [| exact IH]. destruct d as [l|t], d' as [l'|u]; try contradiction Hd; [| exact Hd].
    destruct Hd as (N1 & N2 & S2). unfold in_step. destruct (legal_args l N1) as [pl El], (legal_args l' N2) as [pl' El']. rewrite El, El'. fold ts. split.
    + apply bool_same. rewrite (there_iff K op_needs ts l pl op_usual El), (there_iff K op_needs ts l' pl' op_usual El'). split; apply complete_same; [exact S2 | now apply same_sym].
    + intros _. apply (agree_pack ts l l'); try assumption. intros k v _. apply S2.
  - intros A s. apply ask_same; try assumption. intros k v _. apply Q.
Qed.

Lemma acts_fine A ds : forall s z, fold_left (act K P A) ds (Some s) = Some z -> Forall (fine K (map (who Library (BB A)) s)) ds.
Proof.
  induction ds as [|d ds IH]; intros s z H; constructor; cbn [fold_left] in H.
  - destruct d as [l|t]; [| exact I]. cbn [act] in H. destruct (arguments K l) as [ps|] eqn:E; [| rewrite acts_none in H; discriminate].
    destruct (all_there _ _ _ _) eqn:T; [| rewrite acts_none in H; discriminate]. split; [now apply args_legal in E |]. now apply (there_iff K op_needs _ l ps op_usual E).
  - destruct d as [l|t]; cbn [act] in H.
    + destruct (arguments K l) as [ps|]; [| rewrite acts_none in H; discriminate]. destruct (all_there _ _ _ _); [| rewrite acts_none in H; discriminate].
      apply IH in H. destruct (push_shape Library (BB A) s (to_pack K ps)) as [Wh _]. now rewrite Wh in H.
    + apply IH in H. destruct (drop_shape Library (BB A) s t) as [Wh _]. now rewrite Wh in H.
Qed.
Lemma fine_acts A ds : forall s, Forall (fine K (map (who Library (BB A)) s)) ds -> exists z, fold_left (act K P A) ds (Some s) = Some z /\
  map (who Library (BB A)) z = map (who Library (BB A)) s.
Proof.
  induction ds as [|d ds IH]; intros s H; [now exists s |]. inversion H as [|? ? Hd Hs]; subst. cbn [fold_left]. destruct d as [l|t]; cbn [act].
  - destruct Hd as (Hl & Hc). destruct (legal_args l Hl) as [ps E]. rewrite E. apply (there_iff K op_needs _ l ps op_usual E) in Hc. rewrite Hc.
    destruct (push_shape Library (BB A) s (to_pack K ps)) as [Wh _]. rewrite <- Wh in Hs. destruct (IH _ Hs) as (z & Ez & Wz). exists z. split; [exact Ez | congruence].
  - destruct (drop_shape Library (BB A) s t) as [Wh _]. rewrite <- Wh in Hs. destruct (IH _ Hs) as (z & Ez & Wz). exists z. split; [exact Ez | congruence].
Qed.

Lemma accepted enum W fs c ds f q a : Enumeration Library enum -> session K P enum W fs c ds f q = Some a -> let ts := make_tuple Library enum W fs in
  legal K c /\ complete K ctor_needs ts c /\ well_typed K ctor_takes ts c /\ unbiased K c /\ Forall (fine K ts) ds /\ legal K q /\
  exists t, In t ts /\ lfeature (fst t) = f.
Proof.
  intros He H ts. unfold session in H. fold ts in H. destruct (arguments K c) as [ps|] eqn:E; [| discriminate].
  destruct (_ && _ && _) eqn:T; [| discriminate]. apply andb_true_iff in T as [T T3]. apply andb_true_iff in T as [T1 T2].
  destruct (fold_left _ ds _) as [z|] eqn:F; [| discriminate]. unfold ask in H. destruct (arguments K q) as [pq|] eqn:Eq; [| discriminate].
  destruct (find _ _ z f) as [x|] eqn:Fi; [| discriminate].
  assert (Wc := construct_who Library (BB (to_args K P ts ps)) enum W fs). fold ts in Wc.
  assert (Fn := acts_fine _ ds _ z F). assert (Fn0 := Fn). rewrite Wc in Fn.
  split; [now apply args_legal in E |]. split; [now apply (there_iff K _ _ c ps ctor_usual E) |]. split; [now apply (fit_iff K _ _ c ps takes_usual E) |].
  split; [apply (biased_iff K c ps E); now apply negb_true_iff |]. split; [exact Fn |]. split; [now apply args_legal in Eq |].
  assert (Fz : map (who Library (BB (to_args K P ts ps))) z = ts).
  { destruct (fine_acts _ ds _ Fn0) as (z' & Ez & Wz). assert (Q := eq_trans (eq_sym F) Ez). injection Q as <-. exact (eq_trans Wz Wc). }
  unfold find in Fi. apply find_some in Fi as [Hin Hf]. exists (who Library (BB (to_args K P ts ps)) x). split; [exact (eq_ind _ (fun l => In _ l) (in_map _ _ _ Hin) _ Fz) |].
  apply (ll_eqb Library library_laws) in Hf. symmetry. exact Hf.
Qed.

Lemma provided enum W fs f : (exists t, In t (make_tuple Library enum W fs) /\ lfeature (fst t) = f) ->
  forall A z, map (who Library (BB A)) z = make_tuple Library enum W fs -> exists x, find Library (BB A) z f = Some x.
Proof.
  intros (t & Ht & Hf) A z Wz. destruct (find Library (BB A) z f) as [x|] eqn:F; [now exists x |]. exfalso. unfold find in F.
  rewrite <- Wz in Ht. apply in_map_iff in Ht as (x & Ex & Hx). assert (N := find_none _ _ F x Hx). cbn beta in N.
  assert (Y : tag_eqb Library f (ffeature Library (who Library (BB A) x)) = true); [| congruence]. apply (ll_eqb Library library_laws). rewrite Ex. symmetry. exact Hf.
Qed.

Lemma accepts enum W fs c ds f q p : let ts := make_tuple Library enum W fs in
  legal K c -> complete K ctor_needs ts c -> well_typed K ctor_takes ts c -> unbiased K c -> Forall (fine K ts) ds -> legal K q ->
  (exists t, In t ts /\ lfeature (fst t) = f) -> given K q k_quantile_probability (Scalar p) ->
  session K P enum W fs c ds f q <> None.
Proof.
  intros ts L1 C1 C2 C3 D L2 F G. unfold session. fold ts. destruct (legal_args c L1) as [ps E]. rewrite E.
  rewrite (proj2 (there_iff K _ _ c ps ctor_usual E) C1), (proj2 (fit_iff K _ _ c ps takes_usual E) C2), (proj2 (biased_iff K c ps E) C3). cbn [andb negb].
  assert (Wc := construct_who Library (BB (to_args K P ts ps)) enum W fs). fold ts in Wc.
  assert (D' : Forall (fine K (map (who Library (BB (to_args K P ts ps))) (construct Library (BB (to_args K P ts ps)) enum W fs))) ds) by (rewrite Wc; exact D).
  destruct (fine_acts _ ds _ D') as (z' & Ez & Wz). destruct (fold_left _ ds _) as [z|] eqn:Fz; [| discriminate Ez].
  injection Ez as <-. assert (Wz' := eq_trans Wz Wc). destruct (provided enum W fs f F _ z Wz') as [x Fx].
  destruct (legal_args q L2) as [pq Eq]. unfold ask. rewrite Eq, Fx. unfold get_scalar.
  rewrite (proj2 (lookup_given K q pq k_quantile_probability (Scalar p) Eq ltac:(discriminate)) G).
  destruct (read _ _ z f) as [| | |[]]; discriminate.
Qed.

Lemma unused enum W fs c c' ds ds' f q q' a a' : Enumeration Library enum -> let ts := make_tuple Library enum W fs in
  session K P enum W fs c ds f q = Some a -> session K P enum W fs c' ds' f q' = Some a' ->
  same_for K (fun k => exists kd, wanted ctor_takes ts k kd) c c' ->
  Forall2 (alike_for K (fun k => exists kd, wanted op_needs ts k kd)) ds ds' ->
  same_for K (eq k_quantile_probability) q q' -> a = a'.
Proof.
  intros He ts H H' HC HD HQ. enough (Some a = Some a') by congruence. rewrite <- H, <- H'.
  destruct (accepted enum W fs c ds f q a He H) as (L1 & C1 & C2 & C3 & D & L2 & _).
  destruct (accepted enum W fs c' ds' f q' a' He H') as (L1' & C1' & C2' & C3' & D' & L2' & _).
  destruct (legal_args c L1) as [ps E], (legal_args c' L1') as [ps' E'].
  apply (session_agree enum W fs c c' ds ds' f q q' ps ps' E E').
  - rewrite (proj2 (there_iff K _ _ c ps ctor_usual E) C1), (proj2 (fit_iff K _ _ c ps takes_usual E) C2), (proj2 (biased_iff K c ps E) C3).
    rewrite (proj2 (there_iff K _ _ c' ps' ctor_usual E') C1'), (proj2 (fit_iff K _ _ c' ps' takes_usual E') C2'), (proj2 (biased_iff K c' ps' E') C3'). reflexivity.
  - now apply (agree_args ts c c').
  - clear - HD D D'. fold ts in D, D' |- *. induction HD as [|d d' ds ds' Hd _ IH]; constructor.
    + inversion D as [|? ? Fd _]; inversion D' as [|? ? Fd' _]; subst. destruct d as [l|t], d' as [l'|u]; try contradiction Hd; [| exact Hd].
      destruct Fd as (N1 & M1), Fd' as (N2 & M2). unfold in_step. destruct (legal_args l N1) as [pl El], (legal_args l' N2) as [pl' El']. rewrite El, El'.
      rewrite (proj2 (there_iff K _ _ l pl op_usual El) M1), (proj2 (there_iff K _ _ l' pl' op_usual El') M2). split; [reflexivity |]. intros _. now apply (agree_pack ts l l').
    + apply IH; [now inversion D | now inversion D'].
  - intros A s. now apply ask_same.
Qed.

Definition kind_of (k : keyword) : kind :=
  match k with
  | k_quantile_probability | k_threshold_value | k_threshold_probability => scalar
  | k_probabilities => vector
  | _ => size
  end.
Lemma takes_kind ts k kd : wanted ctor_takes ts k kd -> kd = kind_of k.
Proof. intros ([t b] & _ & H). cbn [fst] in H. destruct t; cbn in H; intuition (try contradiction); match goal with E : (_, _) = (_, _) |- _ => injection E as <- <-; reflexivity end. Qed.
Lemma takes_needs ts k kd : wanted ctor_takes ts k kd -> k = k_quantile_probability \/ wanted ctor_needs ts k kd.
Proof.
  intros ([t b] & Ht & H). cbn [fst] in H. destruct t; try (right; eexists; split; [exact Ht | exact H]); cbn in H; try contradiction H;
  destruct H as [H|[]]; injection H as <- <-; now left.
Qed.
Lemma takes_tail ts s kd : wanted ctor_takes ts (k_cache_size s) kd -> exists b, In (t_tail s, b) ts.
Proof.
  intros ([t b] & Ht & H). cbn [fst] in H. destruct t; cbn in H; try (exfalso; intuition congruence). destruct H as [H|[]]. injection H as <- <-. now exists b.
Qed.
Lemma one_tail enum W fs s b s' b' : Enumeration Library enum -> In (t_tail s, b) (make_tuple Library enum W fs) -> In (t_tail s', b') (make_tuple Library enum W fs) -> s = s'.
Proof.
  intros He H H'. assert (N := tuple_once Library library_laws enum He W fs).
  assert (E : (t_tail s, b) = (t_tail s', b')) by (apply (single_same Library (make_tuple Library enum W fs)); try assumption; reflexivity). congruence.
Qed.

Lemma set_up_agree enum W fs c ps A : let ts := make_tuple Library enum W fs in Enumeration Library enum ->
  arguments K c = Some ps -> complete K ctor_needs ts c -> well_typed K ctor_takes ts c -> sets_up K P ts c A -> Agreeing ts (to_args K P ts ps) A.
Proof.
  intros ts He E C1 C2 (H1 & H2 & H3 & H4 & H5 & H6 & H7). unfold Agreeing. cbn. repeat (split; [congruence |]). intros k kd Hw.
  assert (Hk := wanted_usual ctor_takes ts k kd takes_usual Hw). assert (Ek := takes_kind ts k kd Hw).
  destruct (lookup K k ps) as [v|] eqn:Lk.
  - assert (G := proj1 (lookup_given K c ps k v E Hk) Lk). rewrite (H6 k kd v Hw G). assert (Q := C2 k kd v Hw G). subst kd.
    destruct k; cbn in Q; destruct v; try contradiction Q; cbn; unfold get_scalar, get_vector, get_size; rewrite ?Lk; try reflexivity;
      try (exfalso; destruct Hw as ([t b] & _ & Hw); cbn [fst] in Hw; destruct t; cbn in Hw; intuition discriminate).
    unfold tail_cache, get_size. destruct (takes_tail ts s size Hw) as [b Hb]. destruct (existsb (fun t => match fst t with t_tail on_left => true | _ => false end) ts) eqn:X.
    + apply existsb_exists in X as ([u d] & Hu & X). cbn in X. destruct u; try discriminate X. match type of X with (if ?q then _ else _) = _ => destruct q end; [| discriminate X].
      rewrite <- (one_tail enum W fs s b on_left d He Hb Hu). now rewrite Lk.
    + destruct s; [| now rewrite Lk]. assert (existsb (fun t => match fst t with t_tail on_left => true | _ => false end) ts = true); [| congruence].
      apply existsb_exists. exists (t_tail on_left, b). split; [exact Hb | reflexivity].
  - destruct (takes_needs ts k kd Hw) as [->|Hn].
    + subst kd. cbn. unfold get_scalar. rewrite Lk. cbn. rewrite H7; [reflexivity | exact Hw |]. intros v G. apply (lookup_given K c ps _ v E Hk) in G. congruence.
    + exfalso. destruct (C1 k kd Hn) as (v & G & _). apply (lookup_given K c ps k v E Hk) in G. congruence.
Qed.

Lemma said ts l ps p : arguments K l = Some ps -> complete K op_needs ts l -> says K ts l p -> PR K ts (to_pack K ps) p.
Proof.
  intros E C H k kd Hw. assert (Hk := wanted_usual op_needs ts k kd op_usual Hw). destruct (C k kd Hw) as (v & G & Q).
  rewrite (H k kd v Hw G). apply (lookup_given K l ps k v E Hk) in G.
  destruct Hw as ([t b] & _ & Hw). cbn [fst] in Hw.
  destruct k, kd; destruct v; try contradiction Q; cbn; unfold get_scalar, get_vector, get_size; rewrite ?G; try reflexivity;
    exfalso; destruct t; cbn in Hw; intuition discriminate.
Qed.

Lemma meaning enum W fs c A ds es f q : Enumeration Library enum -> let ts := make_tuple Library enum W fs in
  legal K c -> complete K ctor_needs ts c -> well_typed K ctor_takes ts c -> unbiased K c -> sets_up K P ts c A ->
  Forall2 (deed_is K P A ts) ds es ->
  session K P enum W fs c ds f q = ask K P A (history Library (BB A) (construct Library (BB A) enum W fs) es) f q.
Proof.
  intros He ts L1 C1 C2 C3 SU D. unfold session. fold ts. destruct (legal_args c L1) as [ps E]. rewrite E.
  rewrite (proj2 (there_iff K _ _ c ps ctor_usual E) C1), (proj2 (fit_iff K _ _ c ps takes_usual E) C2), (proj2 (biased_iff K c ps E) C3). cbn [andb negb].
  assert (G := set_up_agree enum W fs c ps A He E C1 C2 SU). fold ts in G.
  assert (Wc := construct_who Library (BB (to_args K P ts ps)) enum W fs). fold ts in Wc.
  assert (KC := Kin_construct enum W fs _ _ G). fold ts in KC.
  revert KC Wc. generalize (construct Library (BB (to_args K P ts ps)) enum W fs) (construct Library (BB A) enum W fs).
  induction D as [|d e ds es Hd _ IH]; intros s s' KS Ws; cbn [fold_left].
  - now apply (ask_kin ts).
  - unfold history in *. cbn [fold_left]. destruct d as [l|t], e as [p|u]; try contradiction Hd; cbn [act handle].
    + destruct Hd as (Hl & Hc & Hs). destruct (legal_args l Hl) as [pl El]. rewrite El, Ws. rewrite (proj2 (there_iff K _ _ l pl op_usual El) Hc).
      apply IH; [| exact (eq_trans (proj1 (push_shape Library (BB (to_args K P ts ps)) s (to_pack K pl))) Ws)]. apply Kin_push; [exact G | | exact KS]. now apply (said ts l).
    + cbn in Hd. subst u. apply IH; [now apply Kin_drop | exact (eq_trans (proj1 (drop_shape Library (BB (to_args K P ts ps)) s t)) Ws)].
Qed.

Lemma question A s f q p : legal K q -> given K q k_quantile_probability (Scalar p) -> find Library (BB A) s f <> None ->
  (forall g, read Library (BB A) s f = VRest (NFun g) -> ask K P A s f q = Some (Number (g p))) /\
  (forall g, read Library (BB A) s f = VRest (NVFun g) -> ask K P A s f q = Some (Numbers (g p))) /\
  (forall g, read Library (BB A) s f = VRest (NLoop g) -> ask K P A s f q = Some (Loop (fun n => g n p))).
Proof.
  intros L G F. destruct (legal_args q L) as [ps E]. unfold ask. rewrite E. destruct (find Library (BB A) s f); [| now destruct F].
  assert (X : get_scalar K k_quantile_probability ps = Some p).
  { unfold get_scalar. now rewrite (proj2 (lookup_given K q ps k_quantile_probability (Scalar p) E ltac:(discriminate)) G). }
  rewrite X. repeat split; intros g ->; reflexivity.
Qed.
Lemma unasked A s f q : (forall p, ~ given K q k_quantile_probability (Scalar p)) ->
  (exists g, read Library (BB A) s f = VRest (NFun g)) \/ (exists g, read Library (BB A) s f = VRest (NVFun g)) \/
  (exists g, read Library (BB A) s f = VRest (NLoop g)) -> ask K P A s f q = None.
Proof.
  intros G R. unfold ask. destruct (arguments K q) as [ps|] eqn:E; [| reflexivity]. destruct (find Library (BB A) s f); [| reflexivity].
  assert (X : get_scalar K k_quantile_probability ps = None).
  { unfold get_scalar. destruct (lookup K k_quantile_probability ps) as [[p| | |]|] eqn:Lk; try reflexivity.
    exfalso. apply (G p). now apply (lookup_given K q ps k_quantile_probability (Scalar p) E ltac:(discriminate)). }
  rewrite X. destruct R as [[g ->]|[[g ->]|[g ->]]]; reflexivity.
Qed.
End Sessions.
