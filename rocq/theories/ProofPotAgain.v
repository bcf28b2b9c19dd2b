(** Every extraction of peaks over threshold, in any history. *)
From Coq Require Import List Arith Bool Lia Field.
From Verif Require Import Num NumFacts ModelTail ModelPSquare ModelPot SpecStats SpecPot ProofBasic ProofOrder ProofPSquare ProofPot.
Import ListNotations.

Section Again.
Variable K : Num.
Hypothesis HO : OrderedLaws K.
Let HK : FieldLaws K := ord_field K HO.
Local Notation T := (car K).
Local Notation "0" := (zero K) : num_scope.
Local Notation "1" := (one K) : num_scope.
Local Notation "x + y" := (add K x y) : num_scope.
Local Notation "x - y" := (sub K x y) : num_scope.
Local Notation "x * y" := (mul K x y) : num_scope.
Local Notation "x / y" := (div K x y) : num_scope.
Local Notation "- x" := (opp K x) : num_scope.
Local Notation "# n" := (ofnat K n) (at level 2) : num_scope.
Local Open Scope num_scope.
Add Field KfieldPA : (fl_field K HK).
Variable pw : T -> T -> T.
Variable lr : side.
Variable thr : T.
Local Notation sg := (sgn K lr).
Local Notation mir := (Mirror K lr).

Lemma fit_is m v u tp share : 1 - tp = share -> FitIs K pw m v u share (pot_fit K pw m v u tp).
Proof.
  intros H; split; intros.
  - now apply (pot_fit_ok K HO).
  - now apply (pot_fit_nan K HO).
Qed.

Lemma pushes_state zs : forall c n mu q f d out, zs <> [] ->
  fold_left (pot_step K pw lr) (map (fun x => PPush K x 1) zs)
    (c, {| po_n := n; po_mu := Some mu; po_sigma2 := Some q; po_threshold := mir thr; po_fit := f; po_dirty := d |}, out)
  = ((c + length zs)%nat,
     {| po_n := (n + length (Exceedances K lr thr zs))%nat;
        po_mu := Some (mu + total K (fun y => mir y) (Exceedances K lr thr zs));
        po_sigma2 := Some (q + total K (fun y => power K y 2) (Exceedances K lr thr zs));
        po_threshold := mir thr; po_fit := f; po_dirty := true |}, out).
Proof.
  induction zs as [| z zs IH]; intros c n mu q f d out Hne; [congruence |].
  assert (H1 : fold_left (pot_step K pw lr) (map (fun x => PPush K x 1) [z])
    (c, {| po_n := n; po_mu := Some mu; po_sigma2 := Some q; po_threshold := mir thr; po_fit := f; po_dirty := d |}, out)
  = ((c + 1)%nat,
     {| po_n := (n + length (Exceedances K lr thr [z]))%nat;
        po_mu := Some (mu + total K (fun y => mir y) (Exceedances K lr thr [z]));
        po_sigma2 := Some (q + total K (fun y => power K y 2) (Exceedances K lr thr [z]));
        po_threshold := mir thr; po_fit := f; po_dirty := true |}, out)).
  { cbn [map fold_left pot_step]; unfold pot_op; cbn [po_threshold po_n po_mu po_sigma2 po_fit].
    unfold Exceedances; cbn [map filter]; change (sg z) with (mir z).
    replace (c + 1)%nat with (S c) by lia.
    destruct (ltb K (mir thr) (mir z)); cbn [length oadd].
    - replace (n + 1)%nat with (S n) by lia.
      replace (mu + total K (fun y => mir y) [mir z]) with (mu + z) by (cbn; unfold Mirror; destruct lr; ring).
      replace (q + total K (fun y => power K y 2) [mir z]) with (q + z * z) by (cbn; unfold Mirror; destruct lr; ring).
      reflexivity.
    - replace (n + 0)%nat with n by lia; rewrite !total_nil; replace (mu + 0) with mu by ring; replace (q + 0) with q by ring; reflexivity. }
  change (z :: zs) with ([z] ++ zs); rewrite map_app, fold_left_app, H1.
  destruct zs as [| y zs].
  - cbn [map fold_left app length]; f_equal; f_equal; lia.
  - rewrite IH by discriminate.
    unfold Exceedances; rewrite map_app, filter_app, app_length, !(total_app K HK).
    fold (Exceedances K lr thr [z]); fold (Exceedances K lr thr (y :: zs)).
    rewrite app_length; cbn [length].
    f_equal; f_equal; [lia |]; f_equal; [lia | f_equal; ring | f_equal; ring].
Qed.
Lemma total_mir l : total K (fun y => mir y) l = mir (total K (fun y => y) l).
Proof. symmetry; apply (sgn_total K HO lr (fun y : T => y)). Qed.
Lemma mir_add a b : mir (a + b) = mir a + mir b.
Proof. unfold Mirror; destruct lr; [ring | reflexivity]. Qed.
Lemma mir_mir a : mir (mir a) = a.
Proof. unfold Mirror; destruct lr; [ring | reflexivity]. Qed.
Lemma exceed_le zs : (length (Exceedances K lr thr zs) <= length zs)%nat.
Proof. unfold Exceedances; rewrite <- (map_length mir zs); generalize (map mir zs); intros l; induction l as [| x l IH]; cbn; [lia |]; destruct (ltb _ _ _); cbn; lia. Qed.

Definition stage (zs : list T) : list (pot_ops K) := map (fun x => PPush K x 1) zs ++ [PExtract K].

Lemma refits_from zss : forall m v n c f d out, Forall (fun zs => zs <> []) zss -> (n <= c)%nat ->
  (match zss with zs :: _ => n + length (Exceedances K lr thr zs) <> 0 | [] => True end)%nat ->
  exists os, snd (fold_left (pot_step K pw lr) (concat (map stage zss))
    (c, {| po_n := n; po_mu := Some m; po_sigma2 := Some v; po_threshold := mir thr; po_fit := f; po_dirty := d |}, out))
    = out ++ os /\ Refits K pw lr thr m v n c zss os.
Proof.
  induction zss as [| zs zss IH]; intros m v n c f d out HF Hc Hn.
  - exists []; cbn; rewrite app_nil_r; split; [reflexivity | constructor].
  - inversion_clear HF as [| ? ? Hz HF']; cbn [map concat].
    unfold stage at 1; rewrite <- app_assoc, fold_left_app, (pushes_state _ _ _ _ _ _ _ _ Hz).
    cbn [app fold_left pot_step]; unfold pot_extract; cbn [po_dirty po_n po_mu po_sigma2 po_threshold].
    pose proof (exceed_le zs) as Hle.
    destruct (n + length (Exceedances K lr thr zs))%nat as [| n'] eqn:En; [congruence |].
    set (m' := (mir m + total K (fun y => y) (Exceedances K lr thr zs)) / #(S n')).
    set (v' := (v + total K (fun y => power K y 2) (Exceedances K lr thr zs)) / #(S n') - power K m' 2).
    assert (Hs : #(S n') <> 0) by apply (ofnat_S_neq0 K HK).
    assert (Em : sg ((m + total K (fun y => mir y) (Exceedances K lr thr zs)) / #(S n')) = m').
    { rewrite (sgn_div K HO) by exact Hs; unfold m'; f_equal; change (sg ?a) with (mir a).
      rewrite mir_add, total_mir, mir_mir; reflexivity. }
    rewrite Em; replace (m' * m') with (power K m' 2) by (cbn [power]; ring); fold v'; cbn [po_fit].
    destruct (IH m' v' (S n') (c + length zs)%nat
      (pot_fit K pw m' v' (mir thr) (#(c + length zs - S n') / #(c + length zs))) false
      (out ++ [pot_fit K pw m' v' (mir thr) (#(c + length zs - S n') / #(c + length zs))]) HF') as (os & E & HR).
    { lia. }
    { destruct zss; [exact I | lia]. }
    exists (pot_fit K pw m' v' (mir thr) (#(c + length zs - S n') / #(c + length zs)) :: os); split.
    { rewrite E, <- app_assoc; reflexivity. }
    unshelve econstructor.
    all: cbv zeta; rewrite ?En.
    + apply fit_is.
      assert (Hcz : #(c + length zs) <> 0).
      { destruct (c + length zs)%nat eqn:Ez; [exfalso; lia |]; apply (ofnat_S_neq0 K HK). }
      replace (#(c + length zs)) with (#(S n') + #(c + length zs - S n')) at 2
        by (rewrite <- (ofnat_add K HK); f_equal; lia).
      assert (Hsum : #(c + length zs) = #(S n') + #(c + length zs - S n')) by (rewrite <- (ofnat_add K HK); f_equal; lia).
      rewrite Hsum in *; field; exact Hcz.
    + exact HR.
Qed.

Lemma pot_every zs zss : Exceedances K lr thr zs <> [] -> Forall (fun zs => zs <> []) zss ->
  Refits K pw lr thr 0 0 0 0 (zs :: zss) (pot_out K pw lr 0 thr (concat (map stage (zs :: zss)))).
Proof.
  intros H1 H2.
  assert (Hz : zs <> []) by (intros ->; now apply H1).
  destruct (refits_from (zs :: zss) 0 0 0 0 (Ok (0, 0, 0)) true []) as (os & E & HR).
  - now constructor.
  - lia.
  - destruct (Exceedances K lr thr zs); [congruence | cbn; lia].
  - unfold pot_out, pot_session.
    replace (pot_init K lr 0 thr)
      with {| po_n := 0%nat; po_mu := Some 0; po_sigma2 := Some 0; po_threshold := mir thr; po_fit := Ok (0, 0, 0); po_dirty := true |}.
    { rewrite E; exact HR. }
    unfold pot_init; assert (H := one_neq0 K HK); replace (0 / 1) with 0 by (field; exact H).
    f_equal; f_equal; unfold sgn; destruct lr; [ring | reflexivity].
Qed.

(** ** Weighted *)
Local Notation wtotal ys := (total K (fun e => snd e * fst e) ys).
Local Notation wtotal2 ys := (total K (fun e => snd e * power K (fst e) 2) ys).
Lemma wpushes_state zs : forall W w mu q f d out, zs <> [] ->
  fold_left (wpot_step K pw lr) (map (fun e => PPush K (fst e) (snd e)) zs)
    (W, {| wo_w := w; wo_mu := Some mu; wo_sigma2 := Some q; wo_threshold := mir thr; wo_fit := f; wo_dirty := d |}, out)
  = (W + TotalWeight K zs,
     {| wo_w := w + TotalWeight K (WExceedances K lr thr zs);
        wo_mu := Some (mu + mir (wtotal (WExceedances K lr thr zs)));
        wo_sigma2 := Some (q + wtotal2 (WExceedances K lr thr zs));
        wo_threshold := mir thr; wo_fit := f; wo_dirty := true |}, out).
Proof.
  induction zs as [| z zs IH]; intros W w mu q f d out Hne; [congruence |].
  assert (H1 : fold_left (wpot_step K pw lr) (map (fun e => PPush K (fst e) (snd e)) [z])
    (W, {| wo_w := w; wo_mu := Some mu; wo_sigma2 := Some q; wo_threshold := mir thr; wo_fit := f; wo_dirty := d |}, out)
  = (W + TotalWeight K [z],
     {| wo_w := w + TotalWeight K (WExceedances K lr thr [z]);
        wo_mu := Some (mu + mir (wtotal (WExceedances K lr thr [z])));
        wo_sigma2 := Some (q + wtotal2 (WExceedances K lr thr [z]));
        wo_threshold := mir thr; wo_fit := f; wo_dirty := true |}, out)).
  { cbn [map fold_left wpot_step]; unfold wpot_op; cbn [wo_threshold wo_w wo_mu wo_sigma2 wo_fit].
    unfold WExceedances; cbn [map filter fst snd]; change (sg (fst z)) with (mir (fst z)).
    replace (W + TotalWeight K [z]) with (W + snd z) by (cbn; ring).
    destruct (ltb K (mir thr) (mir (fst z))); cbn [oadd].
    - set (e := (mir (fst z), snd z)).
      replace (w + TotalWeight K [e]) with (w + snd z) by (cbn; ring).
      replace (mu + mir (wtotal [e])) with (mu + snd z * fst z) by (cbn; unfold Mirror; destruct lr; ring).
      replace (q + wtotal2 [e]) with (q + snd z * fst z * fst z) by (cbn; unfold Mirror; destruct lr; ring).
      reflexivity.
    - unfold TotalWeight; rewrite !total_nil; replace (w + 0) with w by ring; replace (q + 0) with q by ring.
      replace (mu + mir 0) with mu by (unfold Mirror; destruct lr; ring); reflexivity. }
  change (z :: zs) with ([z] ++ zs); rewrite map_app, fold_left_app, H1.
  destruct zs as [| y zs].
  - reflexivity.
  - rewrite IH by discriminate.
    unfold WExceedances; rewrite map_app, filter_app; unfold TotalWeight; rewrite !(total_app K HK).
    fold (WExceedances K lr thr [z]); fold (WExceedances K lr thr (y :: zs)); rewrite mir_add.
    f_equal; f_equal; [ring |]; f_equal; [ring | f_equal; ring | f_equal; ring].
Qed.

Definition wstage (zs : list (T * T)) : list (pot_ops K) := map (fun e => PPush K (fst e) (snd e)) zs ++ [PExtract K].
Local Notation positive := (fun e : T * T => ltb K 0 (snd e) = true).
Lemma weight_pos l : Forall positive l -> l <> [] -> klt K 0 (TotalWeight K l).
Proof.
  intros H; unfold TotalWeight; induction H as [| e l He H IH]; [congruence |]; intros _.
  rewrite total_cons; destruct l as [| e' l].
  - rewrite total_nil; replace (snd e + 0) with (snd e) by ring; exact He.
  - replace 0 with (0 + 0) by ring; apply (kadd_lt_le K HO); [exact He |].
    apply (klt_le K HO), IH; discriminate.
Qed.
Lemma weight_nonneg l : Forall positive l -> kle K 0 (TotalWeight K l).
Proof.
  intros H; destruct l as [| e l]; [apply (kle_refl K HO) | apply (klt_le K HO), weight_pos; [exact H | discriminate]].
Qed.
Lemma exceed_positive zs : Forall positive zs -> Forall positive (WExceedances K lr thr zs).
Proof.
  intros H; unfold WExceedances; apply Forall_forall; intros e He; apply filter_In in He; destruct He as [He _].
  apply in_map_iff in He; destruct He as [a [<- Ha]]; rewrite Forall_forall in H; exact (H a Ha).
Qed.

Lemma wrefits_from zss : forall m v w W f d out, Forall (fun zs => zs <> [] /\ Forall positive zs) zss ->
  kle K 0 w -> kle K 0 W ->
  (match zss with zs :: _ => klt K 0 (w + TotalWeight K (WExceedances K lr thr zs)) | [] => True end) ->
  exists os, snd (fold_left (wpot_step K pw lr) (concat (map wstage zss))
    (W, {| wo_w := w; wo_mu := Some m; wo_sigma2 := Some v; wo_threshold := mir thr; wo_fit := f; wo_dirty := d |}, out))
    = out ++ os /\ WRefits K pw lr thr m v w W zss os.
Proof.
  induction zss as [| zs zss IH]; intros m v w W f d out HF Hw HW Hn.
  - exists []; cbn; rewrite app_nil_r; split; [reflexivity | constructor].
  - inversion_clear HF as [| ? ? [Hz Hp] HF']; cbn [map concat].
    unfold wstage at 1; rewrite <- app_assoc, fold_left_app, (wpushes_state _ _ _ _ _ _ _ _ Hz).
    cbn [app fold_left wpot_step]; unfold wpot_extract; cbn [wo_dirty wo_w wo_mu wo_sigma2 wo_threshold].
    set (w' := w + TotalWeight K (WExceedances K lr thr zs)) in *.
    assert (Hs : w' <> 0) by (intros E; rewrite E in Hn; exact (klt_irrefl K HO 0 Hn)).
    rewrite (keqb_neq K HO _ Hs).
    set (m' := (mir m + wtotal (WExceedances K lr thr zs)) / w').
    set (v' := (v + wtotal2 (WExceedances K lr thr zs)) / w' - power K m' 2).
    assert (Em : sg ((m + mir (wtotal (WExceedances K lr thr zs))) / w') = m').
    { rewrite (sgn_div K HO) by exact Hs; unfold m'; f_equal; change (sg ?a) with (mir a).
      rewrite mir_add, mir_mir; reflexivity. }
    rewrite Em; replace (m' * m') with (power K m' 2) by (cbn [power]; ring); fold v'; cbn [wo_fit].
    set (W' := W + TotalWeight K zs).
    assert (HW' : klt K 0 W').
    { unfold W'; replace 0 with (0 + 0) by ring.
      replace (W + TotalWeight K zs) with (TotalWeight K zs + W) by ring.
      apply (kadd_lt_le K HO); [now apply weight_pos | exact HW]. }
    destruct (IH m' v' w' W' (pot_fit K pw m' v' (mir thr) ((W' - w') / W')) false
      (out ++ [pot_fit K pw m' v' (mir thr) ((W' - w') / W')]) HF') as (os & E & HR).
    { apply (klt_le K HO); exact Hn. }
    { apply (klt_le K HO); exact HW'. }
    { destruct zss as [| y zss]; [exact I |]; inversion_clear HF' as [| ? ? [_ Hp'] _].
      replace 0 with (0 + 0) by ring; apply (kadd_lt_le K HO); [exact Hn |]; apply weight_nonneg, exceed_positive, Hp'. }
    exists (pot_fit K pw m' v' (mir thr) ((W' - w') / W') :: os); split.
    { rewrite E, <- app_assoc; reflexivity. }
    unshelve econstructor; cbv zeta.
    + apply fit_is; fold w' W'; field; intros E0; rewrite E0 in HW'; exact (klt_irrefl K HO 0 HW').
    + exact HR.
Qed.

Lemma wpot_every zs zss : WExceedances K lr thr zs <> [] -> Forall (fun zs => zs <> [] /\ Forall positive zs) (zs :: zss) ->
  WRefits K pw lr thr 0 0 0 0 (zs :: zss) (wpot_out K pw lr 0 0 thr (concat (map wstage (zs :: zss)))).
Proof.
  intros H1 H2.
  destruct (wrefits_from (zs :: zss) 0 0 0 0 (Ok (0, 0, 0)) true []) as (os & E & HR).
  - exact H2.
  - apply (kle_refl K HO).
  - apply (kle_refl K HO).
  - replace (0 + TotalWeight K (WExceedances K lr thr zs)) with (TotalWeight K (WExceedances K lr thr zs)) by ring.
    apply weight_pos; [| exact H1]; inversion_clear H2 as [| ? ? [_ Hp] _]; now apply exceed_positive.
  - unfold wpot_out, wpot_session.
    replace (wpot_init K lr 0 0 thr)
      with {| wo_w := 0; wo_mu := Some 0; wo_sigma2 := Some 0; wo_threshold := mir thr; wo_fit := Ok (0, 0, 0); wo_dirty := true |}.
    { rewrite E; exact HR. }
    unfold wpot_init; assert (H := one_neq0 K HK); replace (0 / 1) with 0 by (field; exact H).
    f_equal; f_equal; unfold sgn; destruct lr; [ring | reflexivity].
Qed.
End Again.

From Coq Require Import QArith Qcanon.
Lemma again_ex : exists zs y, Exceedances QcN Left (Q2Qc 0) zs <> [] /\
  match pot_out QcN (fun x _ => x) Left (zero QcN) (Q2Qc 0)
    (concat (map (fun zs => map (fun x => PPush QcN x (one QcN)) zs ++ [PExtract QcN]) [zs; [y]])) with
  | [Ok (_, _, xi1); Ok (_, _, xi2)] => (this xi1, this xi2) = ((-19 # 16), (5 # 1))%Q
  | _ => False
  end.
Proof.
  exists [Q2Qc (-1 # 1); Q2Qc (-3 # 1); Q2Qc (-5 # 1)], (Q2Qc (2 # 1)).
  split; [discriminate |]; vm_compute; reflexivity.
Qed.
