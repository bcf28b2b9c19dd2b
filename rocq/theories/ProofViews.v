(** Ranges kept by the caller. *)
From Coq Require Import List Arith Bool Lia Permutation Sorted QArith Qcanon.
From Verif Require Import Num NumFacts SpecRolling ProofRolling ModelRolling ModelDensity ModelPSquare ModelTail ModelViews SpecTail
  ProofOrder ProofRollingBuf ProofTail ProofTailStats ProofTailTop ProofDensityTop.
Import ListNotations.

(** ** Density *)
Section Dens.
Variable K : Num.
Variable E : Type.
Variables (val amt : E -> car K) (den : nat -> car K -> car K) (lo hi : car K) (c b : nat).
Local Notation push := (dens_push K E val amt lo hi c b).
Local Notation extract := (dens_extract K E den).
Local Notation step := (dens_step K E val amt den lo hi c b).
Local Notation run := (dens_run K E val amt den lo hi c b).
Definition is_push (o : dens_op E) : bool := match o with DPush _ => true | DExtract => false end.

Lemma push_hist s e s' : push s e = Ok s' -> de_hist K E s' = de_hist K E s.
Proof. unfold dens_push, dens_operate. destruct (if Nat.eqb _ _ then _ else _); intros F; inversion F; reflexivity. Qed.
Lemma pushes_hist ops : forallb is_push ops = true -> forall s s', fold_left step ops (Ok s) = Ok s' -> de_hist K E s' = de_hist K E s.
Proof.
  induction ops as [|[e|] ops IH]; cbn; intros HP s s' F; try discriminate; [congruence|].
  destruct (push s e) as [s1| |] eqn:P.
  - rewrite (IH HP _ _ F). exact (push_hist _ _ _ P).
  - exfalso. clear -F. induction ops; cbn in F; [discriminate|auto].
  - exfalso. clear -F. induction ops; cbn in F; [discriminate|auto].
Qed.
Lemma last_extract (ops : list (dens_op E)) : exists a b', DExtract :: ops = a ++ DExtract :: b' /\ forallb is_push b' = true.
Proof.
  induction ops as [|o ops (a & b' & E1 & E2)] using rev_ind; [exists [], []; auto|]. destruct o as [e|].
  - exists a, (b' ++ [DPush e]). split; [rewrite app_comm_cons, E1, <- app_assoc; reflexivity|]. rewrite forallb_app, E2. reflexivity.
  - exists (DExtract :: ops), []. split; reflexivity.
Qed.
Lemma dens_kept s0 ops1 ops2 s : run s0 (ops1 ++ DExtract :: ops2) = Ok s ->
  exists before after s1, DExtract :: ops2 = before ++ DExtract :: after /\ forallb is_push after = true /\
    run s0 (ops1 ++ before) = Ok s1 /\ dens_view s = dens_result K E den s1.
Proof.
  intros R. destruct (last_extract ops2) as (a & b' & E1 & E2). rewrite E1, app_assoc in R. unfold dens_run in *.
  rewrite fold_left_app in R. cbn [fold_left] in R. destruct (fold_left step (ops1 ++ a) (Ok s0)) as [s1| |] eqn:R1.
  - exists a, b', s1. repeat split; auto. cbn [dens_step] in R. exact (pushes_hist b' E2 _ _ R).
  - exfalso. clear -R. induction b'; cbn in R; [discriminate|auto].
  - exfalso. clear -R. induction b'; cbn in R; [discriminate|auto].
Qed.
End Dens.

(** ** Cumulative distribution *)
Section Cd.
Variable K : Num.
Local Notation T := (car K).
Variable pairs : psq K -> list (T * T).
Variable push : psq K -> T -> T -> outcome (psq K).
Local Notation session := (cd_session K pairs push).
Definition is_cpush (o : cd_op K) : bool := match o with CPush _ _ _ => true | _ => false end.

Lemma cd_stuck ops : forall o, (forall s, o <> Ok s) -> forall s, fold_left (cd_step K pairs push) ops o <> Ok s.
Proof.
  induction ops as [|x ops IH]; cbn [fold_left]; intros o Ho s; [apply Ho|]. apply IH. intros s'. destruct o; cbn; try discriminate. exfalso; eapply Ho; reflexivity.
Qed.
Lemma cd_pushes_hist ops : forallb is_cpush ops = true -> forall c m out c' m' out',
  fold_left (cd_step K pairs push) ops (Ok (c, m, out)) = Ok (c', m', out') -> cs_hist K c' = cs_hist K c.
Proof.
  induction ops as [|[x w| |] ops IH]; cbn [forallb is_cpush andb]; intros HP c m out c' m' out' F; try discriminate.
  - cbn in F. congruence.
  - cbn [fold_left cd_step obnd] in F. unfold cdist_push in F. destruct (push (cs_psq K c) x w) as [q| |]; cbn [obnd] in F.
    + rewrite (IH HP _ _ _ _ _ _ F). reflexivity.
    + exfalso. revert F. apply cd_stuck. discriminate.
    + exfalso. revert F. apply cd_stuck. discriminate.
Qed.
Lemma cd_flags ops : forall c m out c' m' out', (cm_dirty K m = false -> cs_dirty K c = false) ->
  fold_left (cd_step K pairs push) ops (Ok (c, m, out)) = Ok (c', m', out') -> (cm_dirty K m' = false -> cs_dirty K c' = false).
Proof.
  induction ops as [|o ops IH]; intros c m out c' m' out' I F.
  - cbn in F. inversion F; subst. exact I.
  - cbn [fold_left] in F. destruct (cd_step K pairs push (Ok (c, m, out)) o) as [[[c1 m1] o1]| |] eqn:S.
    + refine (IH _ _ _ _ _ _ _ F). clear F IH. destruct o as [x w| |]; cbn [cd_step obnd] in S.
      * unfold cdist_push in S. destruct (push _ x w); cbn [obnd] in S; inversion S; subst. cbn. discriminate.
      * inversion S; subst. unfold cdist_extract. destruct (cs_dirty K c) eqn:Ec; cbn; auto.
      * destruct (cm_dirty K m) eqn:Em.
        -- destruct (cdmed_value K _); cbn [obnd] in S; inversion S; subst. intros _. unfold cdist_extract. destruct (cs_dirty K c) eqn:Ec; cbn; auto.
        -- destruct (cm_median K m); inversion S; subst. intros _. apply I. reflexivity.
    + exfalso. revert F. apply cd_stuck. discriminate.
    + exfalso. revert F. apply cd_stuck. discriminate.
Qed.
Lemma last_look (ops : list (cd_op K)) : exists a o b', CExtract K :: ops = a ++ o :: b' /\ is_cpush o = false /\ forallb is_cpush b' = true.
Proof.
  induction ops as [|o ops (a & o0 & b' & E1 & E0 & E2)] using rev_ind; [exists [], (CExtract K), []; auto|]. destruct (is_cpush o) eqn:Eo.
  - exists a, o0, (b' ++ [o]). split; [rewrite app_comm_cons, E1, <- app_assoc; reflexivity|]. split; [exact E0|]. rewrite forallb_app, E2. cbn. rewrite Eo. reflexivity.
  - exists (CExtract K :: ops), o, []. auto.
Qed.
Lemma cd_kept q0 h0 ops1 ops2 c m out : session q0 h0 (ops1 ++ CExtract K :: ops2) = Ok (c, m, out) ->
  exists before look after c1 m1 out1, CExtract K :: ops2 = before ++ look :: after /\ is_cpush look = false /\ forallb is_cpush after = true /\
    session q0 h0 (ops1 ++ before) = Ok (c1, m1, out1) /\ cdist_view c = cs_hist K (cdist_extract K pairs c1).
Proof.
  intros R. destruct (last_look ops2) as (a & o & b' & E1 & E0 & E2). rewrite E1, app_assoc in R. unfold cd_session in *.
  rewrite fold_left_app in R. cbn [fold_left] in R. destruct (fold_left _ (ops1 ++ a) _) as [[[c1 m1] o1]| |] eqn:R1.
  - exists a, o, b', c1, m1, o1. split; [exact E1|]. split; [exact E0|]. split; [exact E2|]. split; [exact R1|].
    assert (FL : cm_dirty K m1 = false -> cs_dirty K c1 = false) by (refine (cd_flags _ _ _ _ _ _ _ _ R1); cbn; intros X; discriminate X).
    destruct (cd_step K pairs push (Ok (c1, m1, o1)) o) as [[[c2 m2] o2]| |] eqn:S; [|exfalso; revert R; apply cd_stuck; discriminate..].
    unfold cdist_view. rewrite (cd_pushes_hist b' E2 _ _ _ _ _ _ R). destruct o as [x w| |]; try discriminate; cbn [cd_step obnd] in S.
    + inversion S; subst; reflexivity.
    + destruct (cm_dirty K m1) eqn:Em.
      * destruct (cdmed_value K _); cbn [obnd] in S; inversion S; subst; reflexivity.
      * destruct (cm_median K m1); inversion S; subst. unfold cdist_extract. rewrite (FL eq_refl). reflexivity.
  - exfalso. revert R. apply cd_stuck. discriminate.
  - exfalso. revert R. apply cd_stuck. discriminate.
Qed.
End Cd.

(** ** Tails *)
Section Tail.
Variable H : HeapOps.
Hypothesis HC : HeapContract H.
Variables A V : Type.
Variable pred : A -> A -> bool.
Hypothesis SP : StrictWeak pred.

Lemma sort_indices k nv hist (s : tail_state A V) : tail_inv A V pred k nv hist s -> Permutation (tl_indices (tail_sort H pred s)) (tl_indices s).
Proof.
  intros I. unfold tail_sort. destruct (tl_sorted s); [reflexivity|]. cbn [tl_indices]. rewrite <- Permutation_rev.
  apply (hc_sort H HC). { apply (indirect_sw A pred SP). } exact (ti_heap _ _ _ _ _ _ _ I).
Qed.
Lemma tail_sort_twice (s : tail_state A V) : tl_sorted (tail_sort H pred s) = true.
Proof. unfold tail_sort. destruct (tl_sorted s) eqn:E; [exact E|reflexivity]. Qed.
Lemma no_pushes_run ops2 : pushes ops2 = [] -> forall s : tail_state A V, tl_sorted s = true -> tail_run H pred s ops2 = Ok s.
Proof.
  induction ops2 as [|[x vs|] ops2 IH]; cbn; intros HP s Hs; try discriminate; [reflexivity|]. unfold tail_run in *. cbn.
  unfold tail_sort. rewrite Hs. apply IH; auto.
Qed.
Lemma tail_run_app (s : tail_state A V) ops ops' : tail_run H pred s (ops ++ ops') = match tail_run H pred s ops with Ok s1 => tail_run H pred s1 ops' | o => o end.
Proof.
  unfold tail_run. rewrite fold_left_app. destruct (fold_left _ ops (Ok s)) as [s1| |]; auto; induction ops' as [|o ops' IH]; cbn; auto.
Qed.
Lemma pushes_app' (a b : list (tail_op A V)) : pushes (a ++ b) = pushes a ++ pushes b.
Proof. apply flat_map_app. Qed.
Lemma read_perm k nv hist (s : tail_state A V) is is' : tail_inv A V pred k nv hist s -> (forall i, In i is -> (i < k)%nat) -> Permutation is is' ->
  exists l l', read_all (tl_samples s) is = Ok l /\ read_all (tl_samples s) is' = Ok l' /\ Permutation l l'.
Proof.
  intros I Hlt HP. do 2 eexists. split; [eapply read_all_entries; eauto|]. split.
  - eapply read_all_entries; eauto. intros i Hi. apply Hlt. apply (Permutation_in _ (Permutation_sym HP)), Hi.
  - apply Permutation_map, flat_map_perm, HP.
Qed.

Lemma tail_kept k nv dA dV (ops1 ops2 : list (tail_op A V)) : (0 < k)%nat -> WellFormed nv (ops1 ++ ops2) ->
  exists s1 s, tail_run H pred (tail_init k nv dA dV) (ops1 ++ [TExtract]) = Ok s1 /\
    tail_run H pred (tail_init k nv dA dV) (ops1 ++ TExtract :: ops2) = Ok s /\
    ((k <= length (pushes ops1))%nat \/ pushes ops2 = [] ->
      exists l t, tail_view (tail_taken s1) s = Ok l /\ tail_result H pred s = Ok t /\ Permutation l t) /\
    ((k <= length (pushes ops1))%nat -> forall ops, ops2 = ops ++ [TExtract] ->
      tail_view (tail_taken s1) s = tail_result H pred s /\
      forall j, tail_variate_view (tail_taken s1) s j = tail_variate_result H pred s j) /\
    (pushes ops2 = [] -> tail_view (tail_taken s1) s = tail_result H pred s1 /\
      forall j, tail_variate_view (tail_taken s1) s j = tail_variate_result H pred s1 j) /\
    ((length (pushes ops1) < k)%nat -> pushes ops2 <> [] -> tail_view (tail_taken s1) s = UB).
Proof.
  intros Hk HW. unfold WellFormed in HW. rewrite pushes_app' in HW. apply Forall_app in HW. destruct HW as [HW1 HW2].
  destruct (tail_run_inv A V H HC pred SP k nv dA dV ops1 Hk HW1) as (s0 & R0 & I0).
  destruct (tail_sort_inv A V H HC pred SP k nv _ _ I0) as [I1 S1].
  destruct (tail_run_from A V H HC pred SP k nv ops2 Hk HW2 _ _ I1) as (s & R & I).
  exists (tail_sort H pred s0), s. rewrite !tail_run_app, R0.
  split; [reflexivity|]. split; [exact R|].
  assert (L1 := idx_length _ _ _ _ _ _ _ I1). assert (L := idx_length _ _ _ _ _ _ _ I). rewrite app_length in L.
  unfold tail_view, tail_variate_view, tail_taken. rewrite L1, L. split; [|split; [|split]].
  - intros HF. assert (E : Nat.min k (length (pushes ops1)) = Nat.min k (length (pushes ops1) + length (pushes ops2))) by (destruct HF as [HF|HF]; [lia|rewrite HF; cbn; lia]).
    rewrite <- E, Nat.eqb_refl. unfold tail_result.
    apply (read_perm _ _ _ _ _ _ I). { intros i Hi. apply in_rev in Hi. exact (idx_lt _ _ _ _ _ _ _ _ I Hi). }
    rewrite <- !Permutation_rev. symmetry. exact (sort_indices _ _ _ _ I).
  - intros HF ops Eops. subst ops2. rewrite tail_run_app in R. replace (Nat.min k (length (pushes ops1) + _)) with (Nat.min k (length (pushes ops1))) by lia.
    rewrite Nat.eqb_refl. destruct (tail_run H pred (tail_sort H pred s0) ops) as [s2| |]; try discriminate R.
    assert (Es : s = tail_sort H pred s2) by (cbn in R; congruence). rewrite Es. unfold tail_result, tail_variate_result. rewrite tail_sort_idem. auto.
  - intros HF. rewrite HF in *. cbn [length]. rewrite Nat.add_0_r, Nat.eqb_refl. rewrite (no_pushes_run ops2 HF _ S1) in R. inversion R; subst s.
    unfold tail_result, tail_variate_result. rewrite tail_sort_idem. auto.
  - intros HF HN. destruct (pushes ops2) as [|p ps]; [congruence|]. cbn [length].
    destruct (Nat.eqb_spec (Nat.min k (length (pushes ops1))) (Nat.min k (length (pushes ops1) + S (length ps)))) as [E|]; [lia|reflexivity].
Qed.
End Tail.

(** A cache of one sample: [5] is kept, then 7 arrives. *)
Lemma tail_changes (H : HeapOps) (HC : HeapContract H) : exists s1 s : tail_state Qc unit,
  tail_run H (tail_pred QcN Right) (tail_init 1 0 (Q2Qc 0) tt) [TPush (Q2Qc 5) []; TExtract] = Ok s1 /\
  tail_run H (tail_pred QcN Right) (tail_init 1 0 (Q2Qc 0) tt) [TPush (Q2Qc 5) []; TExtract; TPush (Q2Qc 7) []] = Ok s /\
  tail_result H (tail_pred QcN Right) s1 = Ok [(Q2Qc 5)] /\ tail_view (tail_taken s1) s = Ok [(Q2Qc 7)].
Proof.
  assert (SP : StrictWeak (tail_pred QcN Right)) by exact (pred_sw QcN QcN_ordered Right).
  assert (T1 : forall x t, IsTail (tail_pred QcN Right) 1 [x] t -> t = [x]).
  { intros x t (L & _ & rest & P & _). destruct t as [|y [|]]; try discriminate L. assert (rest = []) as -> by (apply Permutation_length in P; cbn in P; destruct rest; [reflexivity|discriminate P]).
    apply Permutation_length_1 in P. congruence. }
  destruct (tail_kept H HC Qc unit _ SP 1 0 (Q2Qc 0) tt [TPush (Q2Qc 5) []] [TPush (Q2Qc 7) []] ltac:(lia)) as (s1 & s & R1 & R & F & _).
  { repeat constructor. }
  cbn [app] in R1, R. exists s1, s. split; [exact R1|]. split; [exact R|].
  destruct (tail_samples_spec H HC Qc unit _ SP 1 0 (Q2Qc 0) tt [TPush (Q2Qc 5) []; TExtract] ltac:(lia)) as (s1' & t1 & R1' & E1 & I1); [repeat constructor|].
  rewrite R1 in R1'. injection R1' as <-. apply T1 in I1. subst t1. split; [exact E1|].
  destruct F as (l & t & V & E & P); [left; cbn; lia|].
  destruct (tail_samples_spec H HC Qc unit _ SP 1 0 (Q2Qc 0) tt [TPush (Q2Qc 5) []; TExtract; TPush (Q2Qc 7) []] ltac:(lia)) as (s' & t' & R' & E' & I'); [repeat constructor|].
  rewrite R in R'. injection R' as <-. rewrite E in E'. injection E' as <-.
  assert (t = [(Q2Qc 7)]) as ->.
  { destruct I' as (L & _ & rest & PP & HR). destruct t as [|y [|]]; try discriminate L. cbn in PP.
    assert (Hy : In y [(Q2Qc 5); (Q2Qc 7)]) by (apply (Permutation_in _ (Permutation_sym PP)); left; reflexivity). destruct Hy as [<-|[<-|[]]]; [|reflexivity].
    exfalso. assert (In (Q2Qc 7) rest). { assert (X : In (Q2Qc 7) ((Q2Qc 5) :: rest)) by (apply (Permutation_in _ PP); right; left; reflexivity). destruct X as [X|X]; [discriminate X|exact X]. }
    specialize (HR (Q2Qc 5) (Q2Qc 7) (or_introl eq_refl) H0). vm_compute in HR. discriminate. }
  apply Permutation_sym, Permutation_length_1_inv in P. subst l. exact V.
Qed.

(** ** The rolling window *)
Lemma skipn_app_le {A} n (l l' : list A) : (n <= length l)%nat -> skipn n (l ++ l') = skipn n l ++ l'.
Proof. intros Hn. rewrite skipn_app. replace (n - length l)%nat with 0%nat by lia. reflexivity. Qed.
Lemma window_kept {A} N (xs ys : list A) :
  let buf := fold_left (rwp1_op N) in
  window_view (window_taken N (length xs) (buf xs rwp1_init)) (length (xs ++ ys)) (buf (xs ++ ys) rwp1_init) =
  let w := LastN N xs in
  match w with
  | [] => Ok []
  | _ => if Nat.leb (length (w ++ ys)) (N + 1) then Ok (w ++ ys) else UB
  end.
Proof.
  cbn zeta. unfold rwp1_op, rwp1_init. rewrite !(cb_pushes N). unfold window_taken. rewrite window_of_buf.
  assert (LW := LastN_length N xs). destruct (LastN N xs) as [|w ws] eqn:EW; [reflexivity|]. lazy beta iota zeta. unfold window_view. rewrite <- EW in *.
  rewrite !app_length, !LastN_length. unfold LastN. rewrite skipn_skipn', app_length.
  assert (HX : (1 <= Nat.min (length xs) N)%nat) by (rewrite <- LW, EW; cbn; lia).
  destruct (Nat.ltb_spec (length xs - Nat.min (length xs) N) (length xs + length ys - Nat.min (length xs + length ys) (N + 1))),
    (Nat.leb_spec (Nat.min (length xs) N + length ys) (N + 1)); try reflexivity; try lia.
  f_equal. rewrite <- skipn_app_le by lia. f_equal. lia.
Qed.

(** ** The tail variate means *)
Lemma vmeans_gen {T} (ms : list (outcome (list T))) s : vm_extractions (fold_left vmeans_extract ms s) = (vm_extractions s + length ms)%nat.
Proof. revert s; induction ms as [|m ms IH]; intros s; cbn; [lia|]. rewrite IH. cbn. lia. Qed.
Lemma vmeans_kept {T} (before : list (outcome (list T))) m after :
  let run := fold_left vmeans_extract in
  let taken := vm_extractions (run (before ++ [m]) vmeans_init) in
  vmeans_view taken (run (before ++ [m]) vmeans_init) = m /\
  (after <> [] -> vmeans_view taken (run (before ++ m :: after) vmeans_init) = UB).
Proof.
  cbn zeta. unfold vmeans_view. rewrite Nat.eqb_refl. split; [rewrite fold_left_app; reflexivity|]. intros HA. rewrite !vmeans_gen, !app_length. cbn [length vm_extractions vmeans_init].
  destruct after; [congruence|]. cbn [length]. destruct (Nat.eqb_spec (0 + (length before + 1)) (0 + (length before + S (S (length after))))); [lia|reflexivity].
Qed.

(** ** Witnesses *)
Local Notation q z := (Q2Qc (inject_Z z)).
Definition shown (o : outcome (dens QcN Qc)) (f : dens QcN Qc -> list (Qc * Qc)) : list Q :=
  match o with Ok s => map (fun x => this (snd x)) (f s) | _ => [] end.
Lemma density_changes : exists s1 s,
  density_run QcN (q (-100)) (q 100) 2 1 (q 0) [DPush (q 0); DPush (q 2); DExtract] = Ok s1 /\
  density_run QcN (q (-100)) (q 100) 2 1 (q 0) [DPush (q 0); DPush (q 2); DExtract; DPush (q 1); DExtract] = Ok s /\
  dens_view s <> density_result QcN s1.
Proof.
  set (o1 := density_run QcN (q (-100)) (q 100) 2 1 (q 0) [DPush (q 0); DPush (q 2); DExtract]).
  set (o2 := density_run QcN (q (-100)) (q 100) 2 1 (q 0) [DPush (q 0); DPush (q 2); DExtract; DPush (q 1); DExtract]).
  assert (E1 : shown o1 (density_result QcN) = [0; 1 # 2; 1 # 2]%Q) by (vm_compute; reflexivity).
  assert (E2 : shown o2 dens_view = [0; 2 # 3; 1 # 3]%Q) by (vm_compute; reflexivity).
  clearbody o1 o2. destruct o1 as [s1| |]; try discriminate E1. destruct o2 as [s2| |]; try discriminate E2.
  exists s1, s2. split; [reflexivity|]. split; [reflexivity|]. intros E. unfold shown in E1, E2.
  apply (f_equal (map (fun x : Qc * Qc => this (snd x)))) in E. assert (X : [0; 2 # 3; 1 # 3]%Q = [0; 1 # 2; 1 # 2]%Q) by (rewrite <- E1, <- E2; exact E). discriminate X.
Qed.
Definition shown_ext (o : outcome (psq QcN)) : list Q :=
  match o with Ok s => match ext_view QcN [Q2Qc (1 # 2)] s with Ok l => map this l | _ => [] end | _ => [] end.
Lemma extended_changes : exists s1 s l1 l,
  ext_run QcN [Q2Qc (1 # 2)] (map (fun z => q z) [1; 2; 3; 4; 5]%Z) = Ok s1 /\
  ext_run QcN [Q2Qc (1 # 2)] (map (fun z => q z) ([1; 2; 3; 4; 5] ++ [0; 0])%Z) = Ok s /\
  ext_result QcN [Q2Qc (1 # 2)] s1 = Ok l1 /\ ext_view QcN [Q2Qc (1 # 2)] s = Ok l /\ l <> l1.
Proof.
  set (o1 := ext_run QcN [Q2Qc (1 # 2)] (map (fun z => q z) [1; 2; 3; 4; 5]%Z)).
  set (o2 := ext_run QcN [Q2Qc (1 # 2)] (map (fun z => q z) ([1; 2; 3; 4; 5] ++ [0; 0])%Z)).
  assert (E1 : shown_ext o1 = [3]%Q) by (vm_compute; reflexivity).
  assert (E2 : shown_ext o2 <> [3]%Q /\ shown_ext o2 <> []) by (vm_compute; split; discriminate).
  clearbody o1 o2. destruct o1 as [s1| |]; try discriminate E1. destruct o2 as [s2| |]; try (exfalso; apply E2; reflexivity).
  unfold shown_ext in E1, E2. destruct (ext_view QcN _ s1) as [l1| |] eqn:V1; try discriminate E1. destruct (ext_view QcN _ s2) as [l| |] eqn:V2; try (exfalso; apply E2; reflexivity).
  exists s1, s2, l1, l. split; [reflexivity|]. split; [reflexivity|]. split; [exact V1|]. split; [exact V2|]. intros ->. apply (proj1 E2). exact E1.
Qed.

(** ** The statements *)
Lemma pushes_only {E} (ops : list (dens_op E)) : forallb (is_push E) ops = true -> forall o, In o ops -> exists x, o = DPush x.
Proof. intros HF o Ho. rewrite forallb_forall in HF. specialize (HF o Ho). destruct o as [e|]; [exists e; reflexivity|discriminate HF]. Qed.
Lemma density_kept : forall (K : Num) (lo hi : car K) (c b : nat) (s0 : car K),
  (forall ops1 ops2 s, density_run K lo hi c b s0 (ops1 ++ DExtract :: ops2) = Ok s ->
    exists before after s1, DExtract :: ops2 = before ++ DExtract :: after /\
      (forall o, In o after -> exists x, o = DPush x) /\
      density_run K lo hi c b s0 (ops1 ++ before) = Ok s1 /\ dens_view s = density_result K s1) /\
  (forall ops1 ops2 s, weighted_density_run K lo hi c b s0 (ops1 ++ DExtract :: ops2) = Ok s ->
    exists before after s1, DExtract :: ops2 = before ++ DExtract :: after /\
      (forall o, In o after -> exists x, o = DPush x) /\
      weighted_density_run K lo hi c b s0 (ops1 ++ before) = Ok s1 /\ dens_view s = weighted_density_result K s1).
Proof.
  intros K lo hi c b s0. split; intros ops1 ops2 s R; apply dens_kept in R; destruct R as (a & b' & s1 & E & HF & R & V); exists a, b', s1; repeat split; auto; exact (pushes_only _ HF).
Qed.
Lemma cd_kept_top (K : Num) pairs push q0 h0 ops1 ops2 c m out : cd_session K pairs push q0 h0 (ops1 ++ CExtract K :: ops2) = Ok (c, m, out) ->
  exists before look after c1 m1 out1, CExtract K :: ops2 = before ++ look :: after /\
    (look = CExtract K \/ look = CMedian K) /\ (forall o, In o after -> exists x w, o = CPush K x w) /\
    cd_session K pairs push q0 h0 (ops1 ++ before) = Ok (c1, m1, out1) /\
    cdist_view c = cs_hist K (cdist_extract K pairs c1).
Proof.
  intros R. apply cd_kept in R. destruct R as (a & o & b' & c1 & m1 & o1 & E & E0 & HF & R & V). exists a, o, b', c1, m1, o1. split; [exact E|].
  split; [destruct o; [discriminate E0|left|right]; reflexivity|]. split; [|split; [exact R|exact V]].
  intros x Hx. rewrite forallb_forall in HF. specialize (HF x Hx). destruct x as [x w| |]; try discriminate HF. exists x, w. reflexivity.
Qed.
Lemma distribution_kept : forall (K : Num) (b : nat) h0 ops1 ops2,
  (forall c m out, cd_session K (cd_pairs K) (cd_push K b) (cd_start K b) h0 (ops1 ++ CExtract K :: ops2) = Ok (c, m, out) ->
    exists before look after c1 m1 out1, CExtract K :: ops2 = before ++ look :: after /\
      (look = CExtract K \/ look = CMedian K) /\ (forall o, In o after -> exists x w, o = CPush K x w) /\
      cd_session K (cd_pairs K) (cd_push K b) (cd_start K b) h0 (ops1 ++ before) = Ok (c1, m1, out1) /\
      cdist_view c = cs_hist K (cdist_extract K (cd_pairs K) c1)) /\
  (forall c m out, cd_session K (wcd_pairs K) (wcd_push K b) (wcd_start K b) h0 (ops1 ++ CExtract K :: ops2) = Ok (c, m, out) ->
    exists before look after c1 m1 out1, CExtract K :: ops2 = before ++ look :: after /\
      (look = CExtract K \/ look = CMedian K) /\ (forall o, In o after -> exists x w, o = CPush K x w) /\
      cd_session K (wcd_pairs K) (wcd_push K b) (wcd_start K b) h0 (ops1 ++ before) = Ok (c1, m1, out1) /\
      cdist_view c = cs_hist K (cdist_extract K (wcd_pairs K) c1)).
Proof. intros. split; intros; eapply cd_kept_top; eauto. Qed.
Lemma tail_kept_top : forall (H : HeapOps), HeapContract H ->
  forall (A V : Type) (pred : A -> A -> bool), StrictWeak pred ->
  forall (k nv : nat) (dA : A) (dV : V) (ops1 ops2 : list (tail_op A V)), (0 < k)%nat -> WellFormed nv (ops1 ++ ops2) ->
  exists s1 s, tail_run H pred (tail_init k nv dA dV) (ops1 ++ [TExtract]) = Ok s1 /\
    tail_run H pred (tail_init k nv dA dV) (ops1 ++ TExtract :: ops2) = Ok s /\
    ((k <= length (pushes ops1))%nat \/ pushes ops2 = [] ->
      exists l t, tail_view (tail_taken s1) s = Ok l /\ tail_result H pred s = Ok t /\ Permutation l t /\
        IsTail pred k (map fst (pushes (ops1 ++ ops2))) t) /\
    ((k <= length (pushes ops1))%nat -> forall ops, ops2 = ops ++ [TExtract] ->
      tail_view (tail_taken s1) s = tail_result H pred s /\
      forall j, tail_variate_view (tail_taken s1) s j = tail_variate_result H pred s j) /\
    (pushes ops2 = [] -> tail_view (tail_taken s1) s = tail_result H pred s1 /\
      forall j, tail_variate_view (tail_taken s1) s j = tail_variate_result H pred s1 j) /\
    ((length (pushes ops1) < k)%nat -> pushes ops2 <> [] -> tail_view (tail_taken s1) s = UB).
Proof.
  intros H HC A V pred SP k nv dA dV ops1 ops2 Hk HW.
  destruct (tail_kept H HC A V pred SP k nv dA dV ops1 ops2 Hk HW) as (s1 & s & R1 & R & F & G). exists s1, s. split; [exact R1|]. split; [exact R|]. split; [|exact G].
  intros HF. destruct (F HF) as (l & t & E1 & E2 & P). exists l, t. split; [exact E1|]. split; [exact E2|]. split; [exact P|].
  assert (EP : pushes (ops1 ++ TExtract :: ops2) = pushes (ops1 ++ ops2)) by (rewrite !pushes_app'; reflexivity).
  destruct (tail_samples_spec H HC A V pred SP k nv dA dV (ops1 ++ TExtract :: ops2) Hk) as (s' & t' & R' & E' & I'); [unfold WellFormed; rewrite EP; exact HW|].
  rewrite R in R'. injection R' as <-. rewrite E2 in E'. injection E' as <-. rewrite <- EP. exact I'.
Qed.
Lemma window_kept_top : forall (A : Type) (N : nat) (xs ys : list A),
  let buf := fun l => fold_left (rwp1_op N) l rwp1_init in
  let kept := window_taken N (length xs) (buf xs) in
  rolling_window_result N (buf xs) = LastN N xs /\
  window_view kept (length xs) (buf xs) = Ok (LastN N xs) /\
  window_view kept (length (xs ++ ys)) (buf (xs ++ ys)) =
    match LastN N xs with
    | [] => Ok []
    | _ => if Nat.leb (length (LastN N xs ++ ys)) (N + 1) then Ok (LastN N xs ++ ys) else UB
    end.
Proof.
  intros A N xs ys. cbn zeta. split; [unfold rwp1_op, rwp1_init; rewrite (cb_pushes N); apply window_of_buf|]. split; [|exact (window_kept N xs ys)].
  assert (W := window_kept N xs []). cbn zeta in W. rewrite !app_nil_r in W. rewrite W. clear W. assert (L := LastN_length N xs). destruct (LastN N xs) as [|w ws]; [reflexivity|].
  destruct (Nat.leb_spec (length (w :: ws)) (N + 1)); [reflexivity|lia].
Qed.
Definition shown_tail (o : outcome (tail_state Qc unit)) (f : tail_state Qc unit -> outcome (list Qc)) : list Q :=
  match o with Ok s => match f s with Ok l => map this l | _ => [] end | _ => [] end.
Lemma map_this l l' : map this l = map this l' -> l = l'.
Proof. revert l'; induction l as [|x l IH]; intros [|y l'] E; try discriminate; auto. cbn in E. injection E as E1 E2. f_equal; [apply Qc_is_canon; rewrite E1; reflexivity|auto]. Qed.
Lemma shown_ok (o : outcome (list Qc)) x l : match o with Ok l => map this l | _ => [] end = map this (x :: l) -> o = Ok (x :: l).
Proof. destruct o as [l'| |]; try discriminate. intros E. f_equal. apply map_this. exact E. Qed.
Lemma tail_kept_example : exists s1 s,
  tail_run sorting_heap (tail_pred QcN Right) (tail_init 2 0 (Q2Qc 0) tt)
    [TPush (Q2Qc 3) []; TPush (Q2Qc 1) []; TExtract] = Ok s1 /\
  tail_run sorting_heap (tail_pred QcN Right) (tail_init 2 0 (Q2Qc 0) tt)
    [TPush (Q2Qc 3) []; TPush (Q2Qc 1) []; TExtract; TPush (Q2Qc 4) []; TExtract] = Ok s /\
  tail_result sorting_heap (tail_pred QcN Right) s1 = Ok [Q2Qc 3; Q2Qc 1] /\
  tail_view (tail_taken s1) s = Ok [Q2Qc 4; Q2Qc 3].
Proof.
  set (o1 := tail_run sorting_heap (tail_pred QcN Right) (tail_init 2 0 (Q2Qc 0) tt) [TPush (Q2Qc 3) []; TPush (Q2Qc 1) []; TExtract]).
  set (o2 := tail_run sorting_heap (tail_pred QcN Right) (tail_init 2 0 (Q2Qc 0) tt) [TPush (Q2Qc 3) []; TPush (Q2Qc 1) []; TExtract; TPush (Q2Qc 4) []; TExtract]).
  assert (E1 : shown_tail o1 (tail_result sorting_heap (tail_pred QcN Right)) = [3; 1]%Q) by (vm_compute; reflexivity).
  assert (E0 : match o1 with Ok s => tail_taken s | _ => 0%nat end = 2%nat) by (vm_compute; reflexivity).
  assert (E2 : shown_tail o2 (tail_view 2) = [4; 3]%Q) by (vm_compute; reflexivity).
  clearbody o1 o2. destruct o1 as [s1| |]; try discriminate E1. destruct o2 as [s2| |]; try discriminate E2. exists s1, s2. split; [reflexivity|]. split; [reflexivity|].
  unfold shown_tail in E1, E2. rewrite E0. split.
  - apply shown_ok. exact E1.
  - apply shown_ok. exact E2.
Qed.
