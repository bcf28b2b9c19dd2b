(** More about peaks over threshold: the weighted threshold-probability version, the failures, and the
    quantile and tail-mean formulae over the reals. *)
From Coq Require Import List Arith Bool Permutation Lia Field QArith Qcanon Reals Lra.
From Verif Require Import Num NumFacts ModelTail ModelPSquare ModelPot SpecStats SpecTail SpecPot
  ProofBasic ProofOrder ProofTail ProofTailStats ProofTailTop ProofPSquare ProofPot.
Import ListNotations.
Close Scope R_scope. Close Scope Qc_scope. Close Scope Q_scope.

Section W.
Variable K : Num.
Hypothesis HO : OrderedLaws K.
Let HK : FieldLaws K := ord_field K HO.
Local Notation T := (car K).
Local Notation "0" := (zero K) : num_scope.
Local Notation "1" := (one K) : num_scope.
Local Notation "x + y" := (add K x y) : num_scope.
Local Notation "x - y" := (sub K x y) : num_scope.
Local Notation "x * y" := (mul K x y) : num_scope.
Local Notation "x / y" := (div K x y) : num_scope.
Local Notation "- x" := (opp K x) : num_scope.
Local Notation "# n" := (ofnat K n) (at level 2) : num_scope.
Local Open Scope num_scope.
Add Field KfieldPW : (fl_field K HK).
Variable pw : T -> T -> T.
Variable lr : side.
Local Notation pr := (tail_pred K lr).

Lemma wppot_loop_spec thr : forall (es : list (T * T)) sum n mu s2,
  wppot_loop K thr sum n mu s2 (map fst es) (map snd es)
  = match weight_loop K thr sum n (map snd es) with
    | None => (false, (n + length es)%nat, sum + total K snd es,
               mu + total K (fun e => snd e * fst e) es, s2 + total K (fun e => snd e * fst e * fst e) es)
    | Some (m, s) => (true, m, s, mu + total K (fun e => snd e * fst e) (firstn (m - n) es),
                      s2 + total K (fun e => snd e * fst e * fst e) (firstn (m - n) es))
    end /\ match weight_loop K thr sum n (map snd es) with None => True | Some (m, _) => (n <= m)%nat end.
Proof.
  induction es as [|e es IH]; intros sum n mu s2; cbn [map wppot_loop weight_loop].
  - destruct (ltb K sum thr).
    + rewrite !total_nil. cbn [length]. rewrite Nat.add_0_r.
      replace (sum + 0) with sum by ring. replace (mu + 0) with mu by ring. replace (s2 + 0) with s2 by ring. auto.
    + rewrite Nat.sub_diag. cbn [firstn]. rewrite !total_nil.
      replace (mu + 0) with mu by ring. replace (s2 + 0) with s2 by ring. auto.
  - destruct (ltb K sum thr).
    + destruct (IH (sum + snd e) (S n) (mu + snd e * fst e) (s2 + snd e * fst e * fst e)) as [E1 E2].
      rewrite E1. destruct (weight_loop K thr (sum + snd e) (S n) (map snd es)) as [[m s]|].
      * split; [|lia]. replace (m - n)%nat with (S (m - S n)) by lia. cbn [firstn]. rewrite !total_cons.
        f_equal; [f_equal|]; ring.
      * split; [|auto]. rewrite !total_cons. cbn [length]. replace (S n + length es)%nat with (n + S (length es))%nat by lia.
        f_equal; [f_equal; [f_equal|]|]; ring.
    + rewrite Nat.sub_diag. cbn [firstn]. rewrite !total_nil.
      replace (mu + 0) with mu by ring. replace (s2 + 0) with s2 by ring. auto.
Qed.

Variable H : HeapOps.
Hypothesis HC : HeapContract H.
Lemma wppot_tail (k : nat) (hist es : list (T * T)) : IsTail (fun x y => pr (fst x) (fst y)) k hist es ->
  forall p, let W := TotalWeight K hist in let thr := W * TailShare K lr p in ltb K 0 thr = true ->
    ((exists a v, ReachesAt K (fun x y => pr (fst x) (fst y)) snd hist thr a v /\
        let ys := map (fun e => (Mirror K lr (fst e), snd e)) (a ++ [v]) in
        (WVariance K ys <> 0 -> Xi K (WMean K ys) (WVariance K ys) (Mirror K lr (fst v)) <> 0 ->
         exists st,
         let fit := PotParameters K pw (WMean K ys) (WVariance K ys) (Mirror K lr (fst v)) (TailShare K lr p) in
         wppot_extract K pw lr (ppot_init K lr 0 p) W (map (fun e => fst e) es) (map (fun e => snd e) es) = Ok (st, Ok fit) /\
         wppot_extract K pw lr st W (map (fun e => fst e) es) (map (fun e => snd e) es) = Ok (st, Ok fit)))
     \/ (ltb K (total K (fun x => x) (map (fun e => snd e) es)) thr = true /\
         exists st, wppot_extract K pw lr (ppot_init K lr 0 p) W (map (fun e => fst e) es) (map (fun e => snd e) es) = Ok (st, NotANumber))).
Proof.
  intros HT p W thr Hthr.
  assert (HWq := weighted_core K HO lr _ (fun e => fst e) k hist es HT (fun e => snd e) thr Hthr).
  rewrite (init0 K HO).
  assert (HL := proj1 (wppot_loop_spec thr es 0 0 0 0)).
  destruct (weight_loop K thr 0 0 (map (fun e : T * T => snd e) es)) as [[m sm]|] eqn:EL.
  - left. destruct HWq as (a & v & HR & Em & Es & Hf & Hn). exists a, v. split; [exact HR|]. intros ys Hv Hx.
    set (fit := PotParameters K pw (WMean K ys) (WVariance K ys) (Mirror K lr (fst v)) (TailShare K lr p)).
    exists {| pp_mu := WMean K ys; pp_sigma2 := WVariance K ys; pp_prob := match lr with Left => 1 - p | Right => p end;
              pp_fit := Ok fit; pp_dirty := false |}.
    split; [|reflexivity].
    unfold wppot_extract. cbn [pp_dirty pp_prob pp_mu pp_sigma2].
    change (tail_level K lr p) with (TailShare K lr p). fold thr.
    change (fun e : T * T => snd e) with (@snd T T). change (fun e : T * T => fst e) with (@fst T T). rewrite HL.
    subst m. rewrite Nat.sub_0_r, Hf.
    rewrite nth_error_map, Hn. cbn [option_map].
    replace (0 + total K (fun e => snd e * fst e) (a ++ [v])) with (total K (fun e => snd e * fst e) (a ++ [v])) by ring.
    replace (0 + total K (fun e => snd e * fst e * fst e) (a ++ [v])) with (total K (fun e => snd e * fst e * fst e) (a ++ [v])) by ring.
    subst sm. fold (TotalWeight K (a ++ [v])).
    assert (HTW : TotalWeight K (a ++ [v]) <> 0).
    { destruct HR as (_ & _ & _ & Hge). apply leb_kle in Hge.
      apply (kpos_neq0 K HO). apply (klt_le_trans K HO) with thr; [exact Hthr|exact Hge]. }
    change (total K (fun e : T * T => snd e) (a ++ [v])) with (TotalWeight K (a ++ [v])).
    rewrite (wmean_exc K HO lr _ HTW), (wvar_exc K HO lr _ HTW).
    change (map (mir K lr) (a ++ [v])) with ys.
    change (sgn K lr) with (Mirror K lr).
    rewrite (pot_fit_ok K HO pw _ _ _ _ _ (share_prob K HO lr p) Hv Hx). reflexivity.
  - right. split.
    + rewrite (total_map K). exact (HWq es [] (eq_sym (app_nil_r es))).
    + eexists. unfold wppot_extract. cbn [pp_dirty pp_prob pp_mu pp_sigma2].
      change (tail_level K lr p) with (TailShare K lr p). fold thr.
    change (fun e : T * T => snd e) with (@snd T T). change (fun e : T * T => fst e) with (@fst T T). rewrite HL.
      reflexivity.
Qed.
Lemma wppot_run (k : nat) (dA dV : T) (ops : list (tail_op T T)) (hist : list (T * T)) :
  (0 < k)%nat -> pushes ops = map (fun e => (fst e, [snd e])) hist ->
  exists s tl ws, tail_run H pr (tail_init k 1 dA dV) ops = Ok s /\ tail_result H pr s = Ok tl /\
    tail_variate_result H pr s 0 = Ok ws /\
  forall p, let W := TotalWeight K hist in let thr := W * TailShare K lr p in ltb K 0 thr = true ->
    ((exists a v, ReachesAt K (fun x y => pr (fst x) (fst y)) snd hist thr a v /\
        let ys := map (fun e => (Mirror K lr (fst e), snd e)) (a ++ [v]) in
        (WVariance K ys <> 0 -> Xi K (WMean K ys) (WVariance K ys) (Mirror K lr (fst v)) <> 0 ->
         exists st,
         let fit := PotParameters K pw (WMean K ys) (WVariance K ys) (Mirror K lr (fst v)) (TailShare K lr p) in
         wppot_extract K pw lr (ppot_init K lr 0 p) W tl ws = Ok (st, Ok fit) /\
         wppot_extract K pw lr st W tl ws = Ok (st, Ok fit)))
     \/ (ltb K (total K (fun x => x) ws) thr = true /\
         exists st, wppot_extract K pw lr (ppot_init K lr 0 p) W tl ws = Ok (st, NotANumber))).
Proof.
  intros Hk HE.
  assert (HW : WellFormed 1 ops).
  { unfold WellFormed. rewrite HE, Forall_map. apply Forall_forall. reflexivity. }
  destruct (run_entries K HO H HC lr T (T * T) (fun e => (fst e, [snd e])) k 1 dA dV ops hist Hk HW HE)
    as (s & es & E1 & HT & E2 & E3).
  destruct (E3 0%nat ltac:(lia)) as (ws & E4 & E5).
  apply (vals_map _ _ ws (fun e => snd e)) in E5; [|reflexivity].
  exists s, (map (fun e => fst e) es), ws. split; [exact E1|]. split; [exact E2|]. split; [exact E4|].
  subst ws. exact (wppot_tail k hist es HT).
Qed.

(** ** Failures of the threshold-probability version *)
Variable ceil : T -> nat.
Hypothesis HCeil : CeilSpec K ceil.
Lemma ppot_nan_then_zero p cnt tl r : IsCeil K (#cnt * TailShare K lr p) r -> (length tl <= r)%nat ->
  exists st, ppot_extract K pw lr ceil (ppot_init K lr 0 p) cnt tl = Ok (st, NotANumber) /\
    ppot_extract K pw lr ceil st cnt tl = Ok (st, Ok (0, 0, 0)).
Proof.
  intros HI Hr. rewrite (init0 K HO). eexists. unfold ppot_extract at 1. cbn [pp_dirty pp_prob pp_fit].
  rewrite (tail_n_ceil K ceil HCeil lr cnt p r HI : ceil (#cnt * tail_level K lr p) = r).
  destruct (Nat.leb_spec (length tl) r) as [_|C]; [|lia]. split; reflexivity.
Qed.
Lemma ppot_level0 p cnt tl : TailShare K lr p = 0 -> tl <> [] ->
  ppot_extract K pw lr ceil (ppot_init K lr 0 p) cnt tl = UB.
Proof.
  intros Hl Hne. rewrite (init0 K HO). unfold ppot_extract. cbn [pp_dirty pp_prob].
  assert (E : ceil (#cnt * tail_level K lr p) = 0%nat).
  { apply (tail_n_ceil K ceil HCeil). change (level K lr p) with (TailShare K lr p). rewrite Hl. split; [|intros; lia].
    apply leb_kle. cbn [ofnat]. replace (#cnt * 0) with 0 by ring. apply (kle_refl K HO). }
  rewrite E. destruct tl; [congruence|]. reflexivity.
Qed.
End W.


Section Left.
Variable K : Num.
Hypothesis HO : OrderedLaws K.
Let HK : FieldLaws K := ord_field K HO.
Variable pw : car K -> car K -> car K.
Variable ceil : car K -> nat.
Hypothesis HCeil : CeilSpec K ceil.
(** The left tail inverts its own probability at every successful extraction. *)
Lemma ppot_left_flip p cnt tl st fit :
  ppot_extract K pw Left ceil (ppot_init K Left (zero K) p) cnt tl = Ok (st, Ok fit) ->
  forall cnt' tl' r, IsCeil K (mul K (ofnat K cnt') (sub K (one K) p)) r -> (length tl' <= r)%nat ->
  exists st', ppot_extract K pw Left ceil (ppot_op K st) cnt' tl' = Ok (st', NotANumber).
Proof.
  rewrite (init0 K HO). unfold ppot_extract at 1. cbn [pp_dirty pp_prob pp_mu pp_sigma2].
  destruct (Nat.leb _ _); [discriminate|]. destruct (ceil _) as [|m]; [discriminate|].
  destruct (nth_error tl m) as [v|]; [|discriminate]. intros E cnt' tl' r HI Hr. injection E as <- _.
  eexists. unfold ppot_extract, ppot_op. cbn [pp_dirty pp_prob pp_mu pp_sigma2 pp_fit tail_level].
  assert (Ec : ceil (mul K (ofnat K cnt') (sub K (one K) p)) = r).
  { eapply (ceil_unique K); [apply HCeil|exact HI]. }
  rewrite Ec. destruct (Nat.leb_spec (length tl') r) as [_|C]; [|lia]. reflexivity.
Qed.
End Left.

(** Witnesses over the rationals: whatever std::pow is. *)
Section Wit.
Local Notation q := Q2Qc.
Definition xi_of (o : outcome (Qc * Qc * Qc)) : outcome Q :=
  match o with Ok (_, _, x) => Ok (this x) | NotANumber => NotANumber | UB => UB end.
Lemma xi_of_ok o x : xi_of o = Ok x -> exists fit, o = Ok fit /\ this (snd fit) = x.
Proof. destruct o as [[[a b] c]| |]; cbn; intros E; [|discriminate|discriminate]. injection E as <-. eauto. Qed.
Definition qpushes (xs : list Qc) : list (pot_ops QcN) := map (fun x => PPush QcN x (one QcN)) xs.
Lemma pot_again : exists thr xs ys, let es := Exceedances QcN Right thr (xs ++ ys) in
  es <> [] /\ Variance QcN es <> zero QcN /\ Xi QcN (Mean QcN es) (Variance QcN es) thr <> zero QcN /\
  forall pw : Qc -> Qc -> Qc, exists fit1 fit2,
  pot_out QcN pw Right (zero QcN) thr (qpushes xs ++ [PExtract QcN] ++ qpushes ys ++ [PExtract QcN]) = [Ok fit1; Ok fit2] /\
  snd fit2 <> Xi QcN (Mean QcN es) (Variance QcN es) thr.
Proof.
  exists (q 0), [q 1; q 3], [q 5]. cbv zeta.
  assert (EX : this (Xi QcN (Mean QcN (Exceedances QcN Right (q 0) ([q 1; q 3] ++ [q 5])))
     (Variance QcN (Exceedances QcN Right (q 0) ([q 1; q 3] ++ [q 5]))) (q 0)) = (-19#16)%Q) by (vm_compute; reflexivity).
  assert (EV : this (Variance QcN (Exceedances QcN Right (q 0) ([q 1; q 3] ++ [q 5]))) = (8#3)%Q) by (vm_compute; reflexivity).
  split; [intros C; apply (f_equal (@length Qc)) in C; vm_compute in C; discriminate|].
  split; [intros C; apply (f_equal this) in C; assert (D := eq_trans (eq_sym EV) C); discriminate D|].
  split; [intros C; apply (f_equal this) in C; assert (D := eq_trans (eq_sym EX) C); discriminate D|].
  intros pw. set (out := pot_out _ _ _ _ _ _).
  assert (E : map xi_of out = [Ok (-3#2)%Q; Ok (-10#29)%Q]) by (vm_compute; reflexivity).
  clearbody out. destruct out as [|o1 [|o2 [|o3 out]]]; try discriminate E. cbn [map] in E. injection E as E1 E2.
  apply xi_of_ok in E1, E2. destruct E1 as (f1 & -> & _), E2 as (f2 & -> & E2).
  exists f1, f2. split; [reflexivity|]. intros C. apply (f_equal this) in C. assert (D := eq_trans (eq_sym E2) (eq_trans C EX)). discriminate D.
Qed.
Definition xi_snd (o : outcome (ppot QcN * outcome (Qc * Qc * Qc))) : outcome Q :=
  match o with Ok (_, o) => xi_of o | NotANumber => NotANumber | UB => UB end.
Lemma xi_snd_ok o x : xi_snd o = Ok x -> exists st fit, o = Ok (st, Ok fit) /\ this (snd fit) = x.
Proof.
  destruct o as [[st o]| |]; cbn; intros E; [|discriminate|discriminate]. apply xi_of_ok in E. destruct E as (f & -> & E). eauto.
Qed.
Lemma is_tail_prefix k (t rest : list Qc) : length t = Nat.min k (length (t ++ rest)) ->
  (forall i j, (i < j < length (t ++ rest))%nat -> Qcle (nth j (t ++ rest) (q 0)) (nth i (t ++ rest) (q 0))) ->
  IsTail (tail_pred QcN Right) k (t ++ rest) t.
Proof.
  intros HL HS. assert (G : forall l : list Qc, (forall i j, (i < j < length l)%nat -> Qcle (nth j l (q 0)) (nth i l (q 0))) ->
    Sorted.StronglySorted (fun a b => tail_pred QcN Right b a = false) l).
  { induction l as [|x l IH]; intros Hs; constructor.
    - apply IH. intros i j Hij. apply (Hs (S i) (S j)). cbn. lia.
    - apply Forall_forall. intros y Hy. apply (In_nth _ _ (q 0)) in Hy. destruct Hy as (j & Hj & <-).
      assert (HH := Hs 0%nat (S j)). cbn [nth length] in HH. specialize (HH ltac:(lia)).
      cbn [tail_pred ltb QcN]. unfold Qcltb. apply Qle_bool_iff in HH. rewrite HH. reflexivity. }
  specialize (G _ HS). destruct (SortedBy_app_inv _ _ _ G) as (G1 & _ & G3).
  split; [exact HL|]. split; [exact G1|]. exists rest. split; [apply Permutation_refl|exact G3].
Qed.
Lemma ppot_again : exists k p xs x tl tl', (0 < k)%nat /\ Inside01 QcN p /\
  IsTail (tail_pred QcN Right) k xs tl /\ IsTail (tail_pred QcN Right) k (xs ++ [x]) tl' /\
  forall pw : Qc -> Qc -> Qc, exists st fit1 st2 fit2 st0 fit0,
    ppot_extract QcN pw Right Qc_ceil (ppot_init QcN Right (zero QcN) p) (length xs) tl = Ok (st, Ok fit1) /\
    ppot_extract QcN pw Right Qc_ceil (ppot_op QcN st) (length (xs ++ [x])) tl' = Ok (st2, Ok fit2) /\
    ppot_extract QcN pw Right Qc_ceil (ppot_init QcN Right (zero QcN) p) (length (xs ++ [x])) tl' = Ok (st0, Ok fit0) /\
    snd fit2 <> snd fit0.
Proof.
  set (t := [q 9; q 4; q 3; q 2; q 1]). exists 5%nat, (q (1#2)), (t ++ [q 0]), (q (-1)), t, t.
  split; [lia|]. split; [split; reflexivity|].
  split; [|split; [rewrite <- app_assoc|]].
  - apply is_tail_prefix; [reflexivity|].
    intros i j [Hij Hj]. cbn in Hj. do 6 (destruct j as [|j]; [do 6 (destruct i as [|i]; [first [lia|vm_compute; discriminate]|]); lia|]); lia.
  - apply is_tail_prefix; [reflexivity|].
    intros i j [Hij Hj]. cbn in Hj. do 7 (destruct j as [|j]; [do 7 (destruct i as [|i]; [first [lia|vm_compute; discriminate]|]); lia|]); lia.
  - intros pw.
    set (o1 := ppot_extract QcN pw Right Qc_ceil (ppot_init QcN Right (zero QcN) (q (1 # 2))) (length (t ++ [q 0])) t).
    assert (E1 : xi_snd o1 = Ok (13#124)%Q) by (vm_compute; reflexivity).
    set (o0 := ppot_extract QcN pw Right Qc_ceil (ppot_init QcN Right (zero QcN) (q (1 # 2))) (length ((t ++ [q 0]) ++ [q (-1)])) t).
    set (o2 := match o1 with Ok (st, _) => ppot_extract QcN pw Right Qc_ceil (ppot_op QcN st) (length ((t ++ [q 0]) ++ [q (-1)])) t | _ => UB end).
    assert (E2 : xi_snd o2 = Ok (351#173)%Q) by (vm_compute; reflexivity).
    assert (E0 : xi_snd o0 = Ok (2#29)%Q) by (vm_compute; reflexivity).
    apply xi_snd_ok in E1, E2, E0. destruct E1 as (st & f1 & E1 & _).
    unfold o2 in E2. rewrite E1 in E2. destruct E2 as (st2 & f2 & E2 & F2), E0 as (st0 & f0 & E0 & F0).
    exists st, f1, st2, f2, st0, f0. split; [exact E1|]. split; [exact E2|]. split; [exact E0|].
    intros C. apply (f_equal this) in C. assert (D := eq_trans (eq_sym F0) (eq_trans (eq_sym C) F2)). discriminate D.
Qed.
End Wit.
