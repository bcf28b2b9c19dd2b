(** Proofs about the peaks-over-threshold accumulators. *)
From Coq Require Import List Arith Bool Permutation Lia Field.
From Verif Require Import Num NumFacts ModelTail ModelPSquare ModelPot SpecStats SpecTail SpecPot
  ProofBasic ProofOrder ProofTail ProofTailStats ProofTailTop ProofPSquare.
Import ListNotations.

Section Pot.
Variable K : Num.
Hypothesis HO : OrderedLaws K.
Let HK : FieldLaws K := ord_field K HO.
Local Notation T := (car K).
Local Notation "0" := (zero K) : num_scope.
Local Notation "1" := (one K) : num_scope.
Local Notation "x + y" := (add K x y) : num_scope.
Local Notation "x - y" := (sub K x y) : num_scope.
Local Notation "x * y" := (mul K x y) : num_scope.
Local Notation "x / y" := (div K x y) : num_scope.
Local Notation "- x" := (opp K x) : num_scope.
Local Notation "x < y" := (klt K x y) : num_scope.
Local Notation "x <= y" := (kle K x y) : num_scope.
Local Notation "# n" := (ofnat K n) (at level 2) : num_scope.
Local Open Scope num_scope.
Add Field KfieldP : (fl_field K HK).
Variable pw : T -> T -> T.
Variable lr : side.
Local Notation sg := (sgn K lr).

Lemma two_neq0 : 1 + 1 <> 0.
Proof. replace (1 + 1) with (#2) by (cbn; ring). apply (ofnat_S_neq0 K HK). Qed.
Lemma keqb_neq x : x <> 0 -> keqb K x 0 = false.
Proof. intros H. destruct (keqb K x 0) eqn:E; [|reflexivity]. apply (keqb_true K HO) in E. contradiction. Qed.
Lemma keqb_eq x : x = 0 -> keqb K x 0 = true.
Proof. intros H. apply (keqb_true K HO). exact H. Qed.

Lemma pot_fit_xi m v u : v <> 0 -> half K * (1 - (m - u) * (m - u) / v) = Xi K m v u.
Proof. intros Hv. unfold half, Xi. cbn [power]. field. split; [exact Hv|exact two_neq0]. Qed.
Lemma pot_fit_ok m v u tp share : 1 - tp = share -> v <> 0 -> Xi K m v u <> 0 ->
  pot_fit K pw m v u tp = Ok (PotParameters K pw m v u share).
Proof.
  intros Hs Hv Hx. unfold pot_fit, PotParameters. rewrite (keqb_neq v Hv), (pot_fit_xi m v u Hv), (keqb_neq _ Hx), Hs.
  replace (half K * (m - u) * (1 + (m - u) * (m - u) / v)) with (Beta K m v u); [reflexivity|].
  unfold half, Beta. cbn [power]. field. split; [exact Hv|exact two_neq0].
Qed.
Lemma pot_fit_nan m v u tp : v = 0 \/ (v <> 0 /\ Xi K m v u = 0) -> pot_fit K pw m v u tp = NotANumber.
Proof.
  intros [Hv|[Hv Hx]]; unfold pot_fit.
  - rewrite (keqb_eq v Hv). reflexivity.
  - rewrite (keqb_neq v Hv), (pot_fit_xi m v u Hv), (keqb_eq _ Hx). reflexivity.
Qed.

Lemma sgn_div a b : b <> 0 -> sg (a / b) = sg a / b.
Proof. intros Hb. unfold sgn. destruct lr; [field; exact Hb|reflexivity]. Qed.
Lemma sgn_total {A} (f : A -> T) l : sg (total K f l) = total K (fun x => sg (f x)) l.
Proof.
  unfold sgn. destruct lr; [|reflexivity].
  induction l as [|x l IH]; rewrite ?total_nil, ?total_cons; [ring|]. rewrite <- IH. ring.
Qed.
Lemma sgn_sq x : sg x * sg x = x * x.
Proof. unfold sgn. destruct lr; ring. Qed.
Lemma filter_map {A B} (f : A -> B) (p : B -> bool) l : filter p (map f l) = map f (filter (fun x => p (f x)) l).
Proof. induction l as [|x l IH]; cbn; [reflexivity|]. destruct (p (f x)); cbn; rewrite IH; reflexivity. Qed.

(** ** value version *)
Definition exc (thr : T) (xs : list T) : list T := filter (fun x => ltb K (sg thr) (sg x)) xs.
Lemma Exceedances_exc thr xs : Exceedances K lr thr xs = map sg (exc thr xs).
Proof. apply filter_map. Qed.
Lemma pot_run thr xs : pot_session K pw lr 0 thr (map (fun x => PPush K x 1) xs)
  = (length xs,
     {| po_n := length (exc thr xs); po_mu := Some (total K (fun x => x) (exc thr xs));
        po_sigma2 := Some (total K (fun x => x * x) (exc thr xs)); po_threshold := sg thr;
        po_fit := Ok (0, 0, 0); po_dirty := true |}, []).
Proof.
  unfold pot_session. induction xs as [|x xs IH] using rev_ind.
  - cbn. unfold pot_init. assert (H1 := one_neq0 K HK).
    replace (0 / 1) with 0 by (field; exact H1). repeat f_equal. unfold sgn. destruct lr; [ring|reflexivity].
  - rewrite map_app, fold_left_app, IH. cbn [map fold_left pot_step]. unfold pot_op. cbn [po_threshold po_n po_mu po_sigma2 po_fit].
    unfold exc. rewrite filter_app. cbn [filter]. fold (exc thr xs). rewrite app_length. cbn [length].
    replace (length xs + 1)%nat with (S (length xs)) by lia.
    destruct (ltb K (sg thr) (sg x)).
    + rewrite app_length, !(total_snoc K HK). cbn [length]. replace (length (exc thr xs) + 1)%nat with (S (length (exc thr xs))) by lia.
      reflexivity.
    + rewrite !app_nil_r. reflexivity.
Qed.
Lemma exc_le thr xs : (length (exc thr xs) <= length xs)%nat.
Proof. unfold exc. induction xs as [|x xs IH]; cbn; [lia|]. destruct (ltb _ _ _); cbn; lia. Qed.

Lemma mean_exc l : l <> [] -> sg (total K (fun x => x) l / #(length l)) = Mean K (map sg l).
Proof.
  intros Hne. rewrite sgn_div by apply (length_neq0 K HK l Hne). rewrite sgn_total.
  unfold Mean, average. rewrite map_length, (total_map K). reflexivity.
Qed.
Lemma var_exc l : l <> [] ->
  total K (fun x => x * x) l / #(length l) - Mean K (map sg l) * Mean K (map sg l) = Variance K (map sg l).
Proof.
  intros Hne. rewrite (avg_sub_raw2 K HK) by (intros E; apply map_eq_nil in E; contradiction).
  f_equal. unfold Moment, average. rewrite map_length, (total_map K).
  rewrite (total_ext K (fun x => power K (sg x) 2) (fun x => x * x)); [reflexivity|].
  intros x _. cbn [power]. replace (sg x * (sg x * 1)) with (sg x * sg x) by ring. apply sgn_sq.
Qed.

Lemma extract_repeat (k : nat) cnt s out : po_dirty K s = false ->
  fold_left (pot_step K pw lr) (repeat (PExtract K) k) (cnt, s, out) = (cnt, s, out ++ repeat (po_fit K s) k).
Proof.
  intros Hd. revert out. induction k as [|k IH]; intros out; cbn; [rewrite app_nil_r; reflexivity|].
  unfold pot_extract. rewrite Hd. rewrite IH. rewrite <- app_assoc. reflexivity.
Qed.
Lemma extract_clean s cnt : po_dirty K (pot_extract K pw lr s cnt) = false.
Proof.
  unfold pot_extract. destruct (po_dirty K s) eqn:E; [|exact E].
  destruct (po_n K s), (po_mu K s), (po_sigma2 K s); reflexivity.
Qed.
Lemma pot_out_spec thr xs j :
  pot_out K pw lr 0 thr (map (fun x => PPush K x 1) xs ++ repeat (PExtract K) j)
  = repeat (match exc thr xs with
            | [] => NotANumber
            | _ => pot_fit K pw (Mean K (map sg (exc thr xs))) (Variance K (map sg (exc thr xs))) (sg thr)
                           (#(length xs - length (exc thr xs)) / #(length xs))
            end) j.
Proof.
  unfold pot_out, pot_session. rewrite fold_left_app.
  change (fold_left _ (map _ xs) _) with (pot_session K pw lr 0 thr (map (fun x => PPush K x 1) xs)).
  rewrite pot_run. destruct j as [|j]; [reflexivity|].
  cbn [repeat fold_left pot_step]. set (s := {| po_n := _ |}).
  rewrite extract_repeat by apply extract_clean. cbn [snd app].
  assert (E : po_fit K (pot_extract K pw lr s (length xs))
     = match exc thr xs with [] => NotANumber | _ =>
        pot_fit K pw (Mean K (map sg (exc thr xs))) (Variance K (map sg (exc thr xs))) (sg thr)
                           (#(length xs - length (exc thr xs)) / #(length xs)) end).
  { subst s. unfold pot_extract. cbn [po_dirty po_n po_mu po_sigma2 po_threshold].
    destruct (exc thr xs) as [|e l] eqn:El; [reflexivity|].
    cbn [length]. cbn [po_fit]. change (S (length l)) with (length (e :: l)).
    rewrite mean_exc, var_exc by discriminate. reflexivity. }
  rewrite E. reflexivity.
Qed.
Lemma pot_first thr xs j : let ys := Exceedances K lr thr xs in ys <> [] -> Variance K ys <> 0 ->
  Xi K (Mean K ys) (Variance K ys) (Mirror K lr thr) <> 0 ->
  pot_out K pw lr 0 thr (map (fun x => PPush K x 1) xs ++ repeat (PExtract K) j)
  = repeat (Ok (PotParameters K pw (Mean K ys) (Variance K ys) (Mirror K lr thr) (#(length ys) / #(length xs)))) j.
Proof.
  intros ys. subst ys. rewrite Exceedances_exc. intros Hne Hv Hx. rewrite pot_out_spec. f_equal.
  assert (Hle := exc_le thr xs).
  destruct (exc thr xs) as [|e l] eqn:El; [contradiction|]. apply pot_fit_ok; [|exact Hv|exact Hx].
  rewrite map_length.
  assert (Hc : #(length xs) <> 0) by (apply (length_neq0 K HK); intros ->; discriminate).
  replace (#(length (e :: l))) with (#(length xs) - #(length xs - length (e :: l))); [field; exact Hc|].
  replace (#(length xs)) with (#(length (e :: l) + (length xs - length (e :: l)))%nat) at 1 by (f_equal; lia).
  rewrite (ofnat_add K HK). ring.
Qed.
Lemma pot_nan thr xs j : let ys := Exceedances K lr thr xs in
  ys = [] \/ Variance K ys = 0 \/ Variance K ys <> 0 /\ Xi K (Mean K ys) (Variance K ys) (Mirror K lr thr) = 0 ->
  pot_out K pw lr 0 thr (map (fun x => PPush K x 1) xs ++ repeat (PExtract K) j) = repeat NotANumber j.
Proof.
  intros ys. subst ys. rewrite Exceedances_exc. intros H. rewrite pot_out_spec. f_equal.
  destruct (exc thr xs) as [|e l]; [reflexivity|]. apply pot_fit_nan.
  destruct H as [H|H]; [discriminate|exact H].
Qed.

(** An extraction before the first exceedance turns every later result into NaN. *)
Lemma pot_poison_inv ops : forall st, po_mu K (snd (fst st)) = None ->
  po_mu K (snd (fst (fold_left (pot_step K pw lr) ops st))) = None.
Proof.
  induction ops as [|o ops IH]; intros [[c s] out] H; [exact H|]. cbn [fold_left]. apply IH.
  cbn [snd fst] in H. destruct o as [x w|]; cbn [pot_step fst snd].
  - unfold pot_op. destruct (ltb _ _ _); cbn [po_mu]; rewrite H; reflexivity.
  - unfold pot_extract. destruct (po_dirty K s); [|exact H]. rewrite H. destruct (po_n K s), (po_sigma2 K s); reflexivity.
Qed.
Lemma pot_poison thr xs ys : Exceedances K lr thr xs = [] ->
  let push := map (fun x => PPush K x 1) in
  pot_out K pw lr 0 thr (push xs ++ PExtract K :: push ys ++ [PExtract K]) = [NotANumber; NotANumber].
Proof.
  intros Hn push. rewrite Exceedances_exc in Hn. apply map_eq_nil in Hn.
  unfold pot_out, pot_session. rewrite fold_left_app.
  change (fold_left _ (push xs) _) with (pot_session K pw lr 0 thr (push xs)). unfold push. rewrite pot_run, Hn.
  cbn [fold_left pot_step pot_extract po_dirty length po_n total fold_right po_fit app].
  rewrite fold_left_app.
  set (st := (length xs, _, [NotANumber])).
  assert (G : forall zs st, po_mu K (snd (fst st)) = None -> po_fit K (snd (fst st)) = NotANumber ->
     let r := fold_left (pot_step K pw lr) (map (fun x => PPush K x 1) zs) st in
     po_mu K (snd (fst r)) = None /\ po_fit K (snd (fst r)) = NotANumber /\ snd r = snd st).
  { clear. induction zs as [|z zs IH]; intros [[c s] out] H1 H2; cbn [fst snd] in H1, H2; [cbn; auto|].
    cbn [map fold_left pot_step]. apply (IH (S c, pot_op K lr s z, out)); cbn [fst snd]; unfold pot_op; destruct (ltb _ _ _); cbn; rewrite ?H1; auto. }
  destruct (G ys st eq_refl eq_refl) as (G1 & G2 & G3).
  destruct (fold_left _ (map _ ys) st) as [[c s] out]. cbn [fst snd] in G1, G2, G3. subst out.
  cbn [fold_left pot_step snd]. unfold st. cbn [snd app]. f_equal. f_equal.
  unfold pot_extract. destruct (po_dirty K s); [|exact G2]. rewrite G1. destruct (po_n K s), (po_sigma2 K s); reflexivity.
Qed.

(** ** weighted value version *)
Definition wexc (thr : T) (es : list (T * T)) : list (T * T) := filter (fun e => ltb K (sg thr) (sg (fst e))) es.
Definition mir (e : T * T) : T * T := (sg (fst e), snd e).
Lemma WExceedances_wexc thr es : WExceedances K lr thr es = map mir (wexc thr es).
Proof. unfold WExceedances. rewrite filter_map. reflexivity. Qed.
Lemma wpot_run thr es : wpot_session K pw lr 0 0 thr (map (fun e => PPush K (fst e) (snd e)) es)
  = (TotalWeight K es,
     {| wo_w := TotalWeight K (wexc thr es); wo_mu := Some (total K (fun e => snd e * fst e) (wexc thr es));
        wo_sigma2 := Some (total K (fun e => snd e * fst e * fst e) (wexc thr es)); wo_threshold := sg thr;
        wo_fit := Ok (0, 0, 0); wo_dirty := true |}, []).
Proof.
  unfold wpot_session, TotalWeight. induction es as [|e es IH] using rev_ind.
  - cbn. unfold wpot_init. assert (H1 := one_neq0 K HK).
    replace (0 / 1) with 0 by (field; exact H1). repeat f_equal. unfold sgn. destruct lr; [ring|reflexivity].
  - rewrite map_app, fold_left_app, IH. cbn [map fold_left wpot_step]. unfold wpot_op.
    cbn [wo_threshold wo_w wo_mu wo_sigma2 wo_fit].
    unfold wexc. rewrite filter_app. cbn [filter]. fold (wexc thr es). rewrite (total_snoc K HK).
    destruct (ltb K (sg thr) (sg (fst e))).
    + rewrite !(total_snoc K HK). reflexivity.
    + rewrite !app_nil_r. reflexivity.
Qed.
Lemma TW_mir l : TotalWeight K (map mir l) = TotalWeight K l.
Proof. unfold TotalWeight. rewrite (total_map K). reflexivity. Qed.
Lemma wmean_exc l : TotalWeight K l <> 0 ->
  sg (total K (fun e => snd e * fst e) l / TotalWeight K l) = WMean K (map mir l).
Proof.
  intros Hne. rewrite sgn_div by exact Hne. rewrite sgn_total. unfold WMean, waverage.
  rewrite TW_mir, (total_map K). f_equal. apply total_ext. intros e _. unfold mir, sgn. cbn [fst snd]. destruct lr; [ring|reflexivity].
Qed.
Lemma wvar_exc l : TotalWeight K l <> 0 ->
  total K (fun e => snd e * fst e * fst e) l / TotalWeight K l - WMean K (map mir l) * WMean K (map mir l) = WVariance K (map mir l).
Proof.
  intros Hne. rewrite (WVariance_raw K HK) by (rewrite TW_mir; exact Hne).
  f_equal. unfold WMoment, waverage. rewrite TW_mir, (total_map K). f_equal.
  apply total_ext. intros e _. unfold mir. cbn [fst snd power].
  replace (snd e * (sg (fst e) * (sg (fst e) * 1))) with (snd e * (sg (fst e) * sg (fst e))) by ring. rewrite sgn_sq. ring.
Qed.
Lemma wextract_repeat (k : nat) W s out : wo_dirty K s = false ->
  fold_left (wpot_step K pw lr) (repeat (PExtract K) k) (W, s, out) = (W, s, out ++ repeat (wo_fit K s) k).
Proof.
  intros Hd. revert out. induction k as [|k IH]; intros out; cbn; [rewrite app_nil_r; reflexivity|].
  unfold wpot_extract. rewrite Hd. rewrite IH. rewrite <- app_assoc. reflexivity.
Qed.
Lemma wextract_clean s W : wo_dirty K (wpot_extract K pw lr s W) = false.
Proof.
  unfold wpot_extract. destruct (wo_dirty K s) eqn:E; [|exact E].
  destruct (keqb _ _ _), (wo_mu K s), (wo_sigma2 K s); reflexivity.
Qed.
Lemma wpot_out_spec thr es j :
  wpot_out K pw lr 0 0 thr (map (fun e => PPush K (fst e) (snd e)) es ++ repeat (PExtract K) j)
  = repeat (if keqb K (TotalWeight K (wexc thr es)) 0 then NotANumber
            else pot_fit K pw (WMean K (map mir (wexc thr es))) (WVariance K (map mir (wexc thr es))) (sg thr)
                   ((TotalWeight K es - TotalWeight K (wexc thr es)) / TotalWeight K es)) j.
Proof.
  unfold wpot_out, wpot_session. rewrite fold_left_app.
  change (fold_left _ (map _ es) _) with (wpot_session K pw lr 0 0 thr (map (fun e => PPush K (fst e) (snd e)) es)).
  rewrite wpot_run. destruct j as [|j]; [reflexivity|].
  cbn [repeat fold_left wpot_step]. set (s := {| wo_w := _ |}).
  rewrite wextract_repeat by apply wextract_clean. cbn [snd app].
  match goal with |- ?a :: _ = ?b :: _ => assert (E : a = b) end.
  { subst s. unfold wpot_extract. cbn [wo_dirty wo_w wo_mu wo_sigma2 wo_threshold].
    destruct (keqb K (TotalWeight K (wexc thr es)) 0) eqn:Ek; [reflexivity|].
    assert (Hne : TotalWeight K (wexc thr es) <> 0) by (intros C; rewrite (keqb_eq _ C) in Ek; discriminate).
    cbn [wo_fit]. rewrite wmean_exc, wvar_exc by exact Hne. reflexivity. }
  rewrite E. reflexivity.
Qed.
Lemma wpot_first thr es j : let ys := WExceedances K lr thr es in
  TotalWeight K es <> 0 -> TotalWeight K ys <> 0 -> WVariance K ys <> 0 ->
  Xi K (WMean K ys) (WVariance K ys) (Mirror K lr thr) <> 0 ->
  wpot_out K pw lr 0 0 thr (map (fun e => PPush K (fst e) (snd e)) es ++ repeat (PExtract K) j)
  = repeat (Ok (PotParameters K pw (WMean K ys) (WVariance K ys) (Mirror K lr thr) (TotalWeight K ys / TotalWeight K es))) j.
Proof.
  intros ys. subst ys. rewrite WExceedances_wexc. intros HW Hne Hv Hx. rewrite wpot_out_spec. f_equal.
  rewrite TW_mir in *. rewrite (keqb_neq _ Hne). apply pot_fit_ok; [|exact Hv|exact Hx]. field. exact HW.
Qed.

(** ** threshold-probability version *)
Variable ceil : T -> nat.
Hypothesis HCeil : CeilSpec K ceil.
Variable H : HeapOps.
Hypothesis HC : HeapContract H.
Local Notation pr := (tail_pred K lr).

Lemma share_prob p : 1 - match lr with Left => 1 - p | Right => p end = TailShare K lr p.
Proof. unfold TailShare. destruct lr; [ring|reflexivity]. Qed.
Lemma init0 p : ppot_init K lr 0 p
  = {| pp_mu := 0; pp_sigma2 := 0; pp_prob := p; pp_fit := Ok (0, 0, 0); pp_dirty := true |}.
Proof.
  unfold ppot_init. assert (H1 := one_neq0 K HK). replace (0 / 1) with 0 by (field; exact H1). f_equal.
  unfold sgn. destruct lr; [ring|reflexivity].
Qed.
Lemma ppot_tail (k : nat) (xs tl : list T) : IsTail pr k xs tl ->
  forall p r, Inside01 K p -> IsCeil K (#(length xs) * TailShare K lr p) r ->
    ((r < Nat.min k (length xs))%nat ->
       exists a v, MostExtreme pr xs r a /\ OrderStat pr xs r v /\
         let ys := map (Mirror K lr) a in
         (Variance K ys <> 0 -> Xi K (Mean K ys) (Variance K ys) (Mirror K lr v) <> 0 ->
          exists st,
          let fit := PotParameters K pw (Mean K ys) (Variance K ys) (Mirror K lr v) (TailShare K lr p) in
          ppot_extract K pw lr ceil (ppot_init K lr 0 p) (length xs) tl = Ok (st, Ok fit) /\
          ppot_extract K pw lr ceil st (length xs) tl = Ok (st, Ok fit))) /\
    ((Nat.min k (length xs) <= r)%nat ->
       exists st, ppot_extract K pw lr ceil (ppot_init K lr 0 p) (length xs) tl = Ok (st, NotANumber)).
Proof.
  intros HT p r Hp HI.
  assert (Hl : klt K 0 (level K lr p)) by exact (in01_level K HO lr p Hp).
  assert (En : ceil (#(length xs) * tail_level K lr p) = r) by exact (tail_n_ceil K ceil HCeil lr (length xs) p r HI).
  rewrite init0. assert (HL : length tl = Nat.min k (length xs)) by apply HT.
  split; intros Hr.
  - assert (Hr1 : (1 <= r)%nat) by (apply (r_pos K HO lr (length xs) p r); [lia|exact Hl|exact HI]).
    destruct (nth_error tl (r - 1)) as [v|] eqn:Ev; [|apply nth_error_None in Ev; lia].
    exists (firstn r tl), v.
    split; [apply (IsTail_firstn pr (pred_sw K HO lr) k xs tl r HT); lia|].
    split; [replace r with (S (r - 1)) by lia; apply (IsTail_nth pr (pred_sw K HO lr) k xs tl (r - 1) v HT Ev)|].
    intros ys Hv Hx.
    set (fit := PotParameters K pw (Mean K ys) (Variance K ys) (Mirror K lr v) (TailShare K lr p)).
    assert (Hla : length (firstn r tl) = r) by (apply firstn_length_le; lia).
    assert (Hne : firstn r tl <> []) by (intros C; rewrite C in Hla; cbn in Hla; lia).
    exists {| pp_mu := Mean K ys; pp_sigma2 := Variance K ys; pp_prob := match lr with Left => 1 - p | Right => p end;
              pp_fit := Ok fit; pp_dirty := false |}.
    assert (Ex : ppot_extract K pw lr ceil
        {| pp_mu := 0; pp_sigma2 := 0; pp_prob := p; pp_fit := Ok (0, 0, 0); pp_dirty := true |} (length xs) tl
      = Ok ({| pp_mu := Mean K ys; pp_sigma2 := Variance K ys; pp_prob := match lr with Left => 1 - p | Right => p end;
              pp_fit := Ok fit; pp_dirty := false |}, Ok fit)).
    { unfold ppot_extract. cbn [pp_dirty pp_prob pp_mu pp_sigma2]. rewrite En.
      destruct (Nat.leb_spec (length tl) r) as [C|_]; [lia|].
      destruct r as [|m]; [lia|]. replace (S m - 1)%nat with m in Ev by lia. rewrite Ev.
      rewrite !(fold_total K HO), (total_map K). 
      replace (0 + total K (fun x => x) (firstn (S m) tl)) with (total K (fun x => x) (firstn (S m) tl)) by ring.
      replace (0 + total K (fun x => x * x) (firstn (S m) tl)) with (total K (fun x => x * x) (firstn (S m) tl)) by ring.
      assert (Em := mean_exc _ Hne). assert (Es := var_exc _ Hne). rewrite Hla in Em, Es. rewrite Em, Es. change (sgn K lr) with (Mirror K lr). fold ys.
      rewrite (pot_fit_ok _ _ _ _ _ (share_prob p) Hv Hx). reflexivity. }
    split; [exact Ex|reflexivity].
  - eexists. unfold ppot_extract. cbn [pp_dirty pp_prob]. rewrite En.
    destruct (Nat.leb_spec (length tl) r) as [_|C]; [|lia]. reflexivity.
Qed.
Lemma ppot_run (k : nat) (dA : T) (dV : unit) (ops : list (tail_op T unit)) :
  (0 < k)%nat -> WellFormed 0 ops ->
  exists s tl, tail_run H pr (tail_init k 0 dA dV) ops = Ok s /\ tail_result H pr s = Ok tl /\
  let xs := map fst (pushes ops) in
  forall p r, Inside01 K p -> IsCeil K (#(length xs) * TailShare K lr p) r ->
    ((r < Nat.min k (length xs))%nat ->
       exists a v, MostExtreme pr xs r a /\ OrderStat pr xs r v /\
         let ys := map (Mirror K lr) a in
         (Variance K ys <> 0 -> Xi K (Mean K ys) (Variance K ys) (Mirror K lr v) <> 0 ->
          exists st,
          let fit := PotParameters K pw (Mean K ys) (Variance K ys) (Mirror K lr v) (TailShare K lr p) in
          ppot_extract K pw lr ceil (ppot_init K lr 0 p) (length xs) tl = Ok (st, Ok fit) /\
          ppot_extract K pw lr ceil st (length xs) tl = Ok (st, Ok fit))) /\
    ((Nat.min k (length xs) <= r)%nat ->
       exists st, ppot_extract K pw lr ceil (ppot_init K lr 0 p) (length xs) tl = Ok (st, NotANumber)).
Proof.
  intros Hk HW.
  destruct (tail_samples_spec H HC T unit pr (pred_sw K HO lr) k 0 dA dV ops Hk HW) as (s & tl & E1 & E2 & HT).
  exists s, tl. split; [exact E1|]. split; [exact E2|]. exact (ppot_tail k _ tl HT).
Qed.
End Pot.
