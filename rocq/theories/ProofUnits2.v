(** The weighted P-square estimators under a change of the unit of the weights. *)
From Coq Require Import List Arith Bool Lia Field Permutation Sorted QArith Qcanon.
From Verif Require Import Num NumFacts ModelRolling ModelDensity ModelPSquare SpecStats SpecDensity SpecTail SpecPSquare SpecUnits
  ProofBasic ProofOrder ProofRollingBuf ProofTail ProofPSquare ProofPSquareRun ProofPSquareW ProofPSquareInst ProofPSquareEx ProofUnits.
Import ListNotations.

Section Inst.
Variable K : Num.
Hypothesis HO : OrderedLaws K.
Let HK : FieldLaws K := ord_field K HO.
Local Notation T := (car K).
Local Notation "0" := (zero K) : num_scope.
Local Notation "1" := (one K) : num_scope.
Local Notation "x + y" := (add K x y) : num_scope.
Local Notation "x * y" := (mul K x y) : num_scope.
Local Notation "x / y" := (div K x y) : num_scope.
Local Notation "x < y" := (klt K x y) : num_scope.
Local Notation "x <= y" := (kle K x y) : num_scope.
Local Open Scope num_scope.
Add Field KfieldUnits2 : (fl_field K HK).

Lemma wpq_frozen p first rest : length first = 5%nat -> Forall (fun e => ltb K (snd e) 0 = false) (first ++ rest) ->
  ltb K 1 (TotalWeight K (first ++ rest)) = false ->
  exists s r, wpq_run K p (first ++ rest) = Ok s /\ pq_result K s = Ok r /\ Ranked K 2 (map fst first) r.
Proof.
  intros HL HN HT.
  destruct (frozen_ranked K HO 5 5 (wpq_des K p) (wpq_init K)) with (first := first) (rest := rest) as (s & E & Lh & H); auto.
  { intros W q d Lq Ld. rewrite (wpq_des_eq K HO) by exact Lq. eexists. split; [reflexivity|]. reflexivity. }
  destruct (H 2%nat ltac:(lia) ltac:(lia)) as (v & Ev & Hv). exists s, v. split; [exact E|].
  unfold pq_result. rewrite Ev. auto.
Qed.
Lemma wext_frozen probs first rest : probs <> [] -> length first = (2 * length probs + 3)%nat ->
  Forall (fun e => ltb K (snd e) 0 = false) (first ++ rest) -> ltb K 1 (TotalWeight K (first ++ rest)) = false ->
  exists s rs, wext_run K probs (first ++ rest) = Ok s /\ ext_result K probs s = Ok rs /\ length rs = length probs /\
    forall i, (i < length probs)%nat -> exists v, nth_error rs i = Some v /\ Ranked K (2 * (i + 1)) (map fst first) v.
Proof.
  intros Hne HL HN HT. set (M := ext_markers K probs).
  destruct (frozen_ranked K HO M M (wext_des K probs) (wext_init K probs)) with (first := first) (rest := rest) as (s & E & Lh & H);
    auto; try (unfold M, ext_markers; cbn; rewrite ?repeat_length; lia).
  { intros W q d Lq Ld. rewrite (wext_des_eq K HO) by assumption. eexists. split; [reflexivity|].
    rewrite map_length. apply (ext_incs_length K). }
  set (g := fun i => nth (2 * i) (mh K (ps_marks K s)) 0).
  exists s, (map g (seq 1 (length probs))). split; [exact E|]. split; [|split].
  - unfold ext_result. rewrite <- all_read_some. f_equal. rewrite map_map. apply map_ext_in. intros i Hi. apply in_seq in Hi.
    unfold g. apply nth_error_nth0. rewrite Lh. unfold M, ext_markers. lia.
  - rewrite map_length, seq_length. reflexivity.
  - intros i Hi. destruct (H (2 * (i + 1))%nat) as (v & Ev & Hv); [lia|unfold M, ext_markers; lia|].
    exists v. split; [|exact Hv]. rewrite nth_error_map, (nth_error_nth0 _ i 0%nat) by (rewrite seq_length; exact Hi).
    rewrite seq_nth by exact Hi. cbn [option_map]. unfold g. rewrite (nth_error_nth0 (mh K (ps_marks K s)) _ 0) in Ev
      by (rewrite Lh; unfold M, ext_markers; lia).
    replace (1 + i)%nat with (i + 1)%nat by lia. exact Ev.
Qed.
Lemma wcd_frozen b first rest : (1 <= b)%nat -> length first = (b + 1)%nat ->
  Forall (fun e => ltb K (snd e) 0 = false) (first ++ rest) -> ltb K 1 (TotalWeight K (first ++ rest)) = false ->
  exists s, wcd_run K b (first ++ rest) = Ok s /\
    forall i, (1 <= i)%nat -> (i < b)%nat -> exists v y, nth_error (wcd_pairs K s) i = Some (v, y) /\ Ranked K i (map fst first) v.
Proof.
  intros Hb HL HN HT.
  assert (HD : forall W q d, length q = (b + 1)%nat -> length d = (b + 1)%nat -> exists d', wcd_des K b W q d = Ok d' /\ length d' = (b + 1)%nat).
  { intros W q d Lq Ld. unfold wcd_des. rewrite !(nth_error_nth0 _ 0 0) by lia. eexists. split; [reflexivity|].
    cbn [length]. rewrite map_length, seq_length. lia. }
  destruct (frozen K HO (b + 1) b (wcd_des K b) (wcd_init K b)) with (first := first) (rest := rest) as (s & E & _ & _ & Lh & Lp & _ & _ & _ & H);
    auto; try (cbn; rewrite ?repeat_length; lia).
  exists s. split; [exact E|]. intros i H1 H2.
  exists (nth i (mh K (ps_marks K s)) 0), (nth i (mp K (ps_marks K s)) 0 / ps_wsum K s). split.
  - unfold wcd_pairs. rewrite nth_error_map.
    rewrite (nth_error_combine _ _ i (nth i (mh K (ps_marks K s)) 0) (nth i (mp K (ps_marks K s)) 0)); [reflexivity| |];
      apply nth_error_nth0; lia.
  - rewrite H by lia. destruct (sel_sort_heights K HO (b + 1) first HL) as [A B].
    exists (map fst (sel_sort K (b + 1) first)). split; [exact A|]. split; [exact B|].
    apply nth_error_nth0. rewrite map_length, (sel_sort_length K HO) by exact HL. lia.
Qed.

Lemma total_scaled (c : T) (es : list (T * T)) : total K snd (scale_weights K c es) = c * total K snd es.
Proof. unfold scale_weights. induction es as [|e es IH]; [cbn; ring|]. cbn [map]. rewrite !total_cons, IH. cbn [snd]. ring. Qed.
Lemma scaled_fst (c : T) (es : list (T * T)) : map fst (scale_weights K c es) = map fst es.
Proof. unfold scale_weights. rewrite map_map. reflexivity. Qed.

(** Whatever the history, in a large enough unit of weight its estimate is the third smallest of its first
    five samples. *)
Lemma wpq_unit_dependent p first rest : length first = 5%nat -> Forall (fun e => ltb K 0 (snd e) = true) (first ++ rest) ->
  exists c0, ltb K 0 c0 = true /\ forall c, ltb K 0 c = true -> ltb K c0 c = false ->
  exists s r, wpq_run K p (scale_weights K c (first ++ rest)) = Ok s /\ pq_result K s = Ok r /\ Ranked K 2 (map fst first) r.
Proof.
  intros HL HP. set (W := total K snd (first ++ rest)).
  assert (HW : 0 < W).
  { unfold W. destruct first as [|e f]; [discriminate HL|]. cbn [app] in HP |- *. inversion HP as [|? ? H1 H2]; subst. rewrite total_cons.
    apply (klt_le_trans K HO) with (snd e); [exact H1|]. apply (le_add_nonneg K HO); [apply (kle_refl K HO)|].
    apply (total_nonneg K HO). eapply Forall_impl; [|exact H2]. intros y Hy. apply (klt_le K HO). exact Hy. }
  exists (1 / W). split; [apply (kinv_pos K HO); exact HW|]. intros c Hc Hle.
  assert (E : scale_weights K c (first ++ rest) = scale_weights K c first ++ scale_weights K c rest) by apply map_app.
  rewrite E. rewrite <- (scaled_fst c first).
  apply wpq_frozen.
  - unfold scale_weights. rewrite map_length. exact HL.
  - rewrite <- E. unfold scale_weights. apply Forall_forall. intros y Hy. apply in_map_iff in Hy. destruct Hy as (z & <- & Hz).
    cbn [snd]. rewrite Forall_forall in HP. apply (kmul_nonneg K HO); apply (klt_le K HO); [exact Hc|apply HP; exact Hz].
  - rewrite <- E. unfold TotalWeight. rewrite total_scaled. fold W. change (c * W <= 1).
    replace 1 with (1 / W * W) by (field; apply (kpos_neq0 K HO); exact HW).
    apply (kmul_le K HO); [apply (klt_le K HO); exact HW|exact Hle].
Qed.
End Inst.

(** Weights of one, and of one hundredth, of the same history. *)
Definition ex_history : list (Qc * Qc) := map (fun z => (q z, q 1)) [1; 2; 3; 4; 5; 100; 200; 300; 400; 500]%Z.
Lemma ex_units_pos : Forall (fun e => ltb QcN (zero QcN) (snd e) = true) ex_history.
Proof. repeat constructor. Qed.
Lemma ex_units_one : show1 (obnd (wpq_run QcN (q2 1 2) ex_history) (pq_result QcN)) = Ok (14017#324)%Q.
Proof. vm_compute. reflexivity. Qed.
Lemma ex_units_hundredth : show1 (obnd (wpq_run QcN (q2 1 2) (scale_weights QcN (q2 1 100) ex_history)) (pq_result QcN)) = Ok (3#1)%Q.
Proof. vm_compute. reflexivity. Qed.
Lemma wpq_units_refuted : exists (p c : Qc) (es : list (Qc * Qc)) s s' r r',
  Inside01 QcN p /\ ltb QcN (zero QcN) c = true /\ Forall (fun e => ltb QcN (zero QcN) (snd e) = true) es /\
  wpq_run QcN p es = Ok s /\ pq_result QcN s = Ok r /\
  wpq_run QcN p (scale_weights QcN c es) = Ok s' /\ pq_result QcN s' = Ok r' /\ r <> r'.
Proof.
  exists (q2 1 2), (q2 1 100), ex_history.
  assert (A := ex_units_one). assert (B := ex_units_hundredth).
  destruct (wpq_run QcN (q2 1 2) ex_history) as [s| |]; cbn [obnd] in A; try discriminate A.
  destruct (wpq_run QcN (q2 1 2) (scale_weights QcN (q2 1 100) ex_history)) as [s'| |]; cbn [obnd] in B; try discriminate B.
  exists s, s'. destruct (pq_result QcN s) as [r| |]; try discriminate A.
  destruct (pq_result QcN s') as [r'| |]; try discriminate B. exists r, r'.
  split; [split; reflexivity|]. split; [reflexivity|]. split; [exact ex_units_pos|]. split; [reflexivity|]. split; [reflexivity|].
  split; [reflexivity|]. split; [reflexivity|]. intros E. subst r'. rewrite B in A. discriminate A.
Qed.
