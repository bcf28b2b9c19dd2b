(** The peaks-over-threshold quantile and tail mean over the reals. *)
From Coq Require Import List Arith Bool Lia Field Reals Lra.
From Verif Require Import Num NumFacts ModelTail ModelPSquare ModelPot SpecStats SpecTail SpecPot
  ProofBasic ProofOrder ProofPot.
Import ListNotations.

(** At the share of the threshold the quantile is the threshold, whatever std::pow is. *)
Section AtThreshold.
Variable K : Num.
Hypothesis HO : OrderedLaws K.
Add Field KfieldAT : (fl_field K (ord_field K HO)).
Lemma quantile_at_threshold (pw : car K -> car K -> car K) (lr : side) m v u share p :
  Xi K m v u <> zero K -> TailShare K lr p = share ->
  pot_quantile_result K pw lr (PotParameters K pw m v u share) p = Mirror K lr u.
Proof.
  intros Hx Hs. unfold PotParameters, pot_quantile_result. change (sgn K lr) with (Mirror K lr). f_equal.
  replace (match lr with Left => p | Right => sub K (one K) p end) with share by (rewrite <- Hs; destruct lr; reflexivity).
  field. exact Hx.
Qed.
Lemma Mirror_invol lr (x : car K) : Mirror K lr (Mirror K lr x) = x.
Proof. destruct lr; cbn; [ring|reflexivity]. Qed.
End AtThreshold.

Local Open Scope R_scope.
Local Notation quant := (pot_quantile_result RN Rpower).
Local Notation tmean := (pot_tail_mean_result RN Rpower).

Lemma Rpower_pos x y : 0 < Rpower x y.
Proof. apply exp_pos. Qed.
Lemma Rpower_dec x y a : 0 < x < y -> a < 0 -> Rpower y a < Rpower x a.
Proof.
  intros [Hx Hy] Ha. unfold Rpower. apply exp_increasing.
  assert (L : ln x < ln y) by (apply ln_increasing; lra). apply Rmult_lt_gt_compat_neg_l with (r := a) in L; lra.
Qed.
Lemma Rpower_inc x y a : 0 < x < y -> 0 < a -> Rpower x a < Rpower y a.
Proof. intros Hx Ha. apply Rlt_Rpower_l; lra. Qed.

(** The function of the share behind both sides. *)
Definition qs (u b xi s : R) : R := u + b / xi * (Rpower s (- xi) - 1).
Lemma qs_dec u b xi s s' : 0 < b -> xi <> 0 -> 0 < s < s' -> qs u b xi s' < qs u b xi s.
Proof.
  intros Hb Hx Hs. unfold qs. apply Rplus_lt_compat_l.
  destruct (Rtotal_order xi 0) as [C|[C|C]]; [|contradiction|].
  - assert (P := Rpower_inc s s' (- xi) Hs ltac:(lra)).
    assert (B : b / xi < 0) by (unfold Rdiv; rewrite <- (Rmult_0_r b); apply Rmult_lt_compat_l; [exact Hb|apply Rinv_lt_0_compat; exact C]).
    apply Rmult_lt_gt_compat_neg_l; lra.
  - assert (P := Rpower_dec s s' (- xi) Hs ltac:(lra)).
    assert (B : 0 < b / xi) by (apply Rdiv_lt_0_compat; lra).
    apply Rmult_lt_compat_l; lra.
Qed.
Lemma quant_qs lr u b xi p : quant lr (u, b, xi) p = Mirror RN lr (qs u b xi (TailShare RN lr p)).
Proof. destruct lr; reflexivity. Qed.

Lemma quantile_increasing lr u b xi p p' : 0 < b -> xi <> 0 -> 0 < p -> p < p' -> p' < 1 ->
  quant lr (u, b, xi) p < quant lr (u, b, xi) p'.
Proof.
  intros Hb Hx H0 H1 H2. rewrite !quant_qs. destruct lr; cbn [Mirror TailShare RN opp sub one].
  - apply Ropp_lt_contravar. apply qs_dec; try assumption. lra.
  - apply qs_dec; try assumption. lra.
Qed.

Lemma tmean_beyond_right u b xi p : 0 < b -> xi < 1 -> quant Right (u, b, xi) p < tmean Right (u, b, xi) p.
Proof.
  intros Hb Hx. unfold pot_tail_mean_result, pot_tail_mean_of. cbn [sgn RN sub mul div one opp].
  assert (B : b / (xi - 1) < 0) by (unfold Rdiv; rewrite <- (Rmult_0_r b); apply Rmult_lt_compat_l; [exact Hb|apply Rinv_lt_0_compat; lra]).
  assert (P := Rpower_pos (1 - p) (- xi)). set (c := b / (xi - 1)) in *. set (w := Rpower _ _) in *. clearbody c w.
  assert (c * w < 0) by (rewrite <- (Rmult_0_l w); apply Rmult_lt_compat_r; assumption).
  match goal with |- ?a < ?a - _ => generalize a end. intros a. cbn in a. lra.
Qed.
Lemma tmean_beyond_left u b xi p : 0 < b -> xi < 1 -> tmean Left (u, b, xi) p < quant Left (u, b, xi) p.
Proof.
  intros Hb Hx. unfold pot_tail_mean_result, pot_tail_mean_of. cbn [sgn RN sub mul div one opp].
  assert (B : b / (xi - 1) < 0) by (unfold Rdiv; rewrite <- (Rmult_0_r b); apply Rmult_lt_compat_l; [exact Hb|apply Rinv_lt_0_compat; lra]).
  assert (P := Rpower_pos p (- xi)). set (c := b / (xi - 1)) in *. set (w := Rpower _ _) in *. clearbody c w.
  assert (c * w < 0) by (rewrite <- (Rmult_0_l w); apply Rmult_lt_compat_r; assumption).
  match goal with |- ?a - _ < ?a => generalize a end. intros a. cbn in a. lra.
Qed.

(** The tail mean is the average of the quantile over the tail: with [s] the share of the tail,
    [s * tail mean] is an antiderivative of the quantile that tends to 0 with [s]. *)
Definition AtShare (lr : side) (s : R) : R := match lr with Left => s | Right => 1 - s end.
Lemma share_at lr s : TailShare RN lr (AtShare lr s) = s.
Proof. destruct lr; cbn; lra. Qed.
Definition ms (u b xi s : R) : R := (u - b / xi) * s - b / (xi * (xi - 1)) * Rpower s (1 - xi).
Lemma Rpower_split s xi : 0 < s -> Rpower s (1 - xi) = s * Rpower s (- xi).
Proof. intros Hs. replace (1 - xi) with (1 + - xi) by ring. rewrite Rpower_plus, Rpower_1 by exact Hs. reflexivity. Qed.
Lemma tmean_ms lr u b xi s : 0 < s -> xi <> 0 -> xi <> 1 ->
  s * tmean lr (u, b, xi) (AtShare lr s) = Mirror RN lr (ms u b xi s).
Proof.
  intros Hs Hx H1. unfold pot_tail_mean_result, pot_tail_mean_of. rewrite quant_qs, share_at. unfold qs, ms. rewrite (Rpower_split s xi Hs).
  destruct lr; cbn [Mirror AtShare sgn RN sub mul div one opp]; change (car RN) with R.
  - field. split; lra.
  - replace (1 - (1 - s)) with s by ring. field. split; lra.
Qed.
Lemma ms_deriv u b xi s : 0 < s -> xi <> 0 -> xi <> 1 -> derivable_pt_lim (ms u b xi) s (qs u b xi s).
Proof.
  intros Hs Hx H1. unfold ms.
  replace (qs u b xi s) with ((u - b / xi) * 1 - b / (xi * (xi - 1)) * ((1 - xi) * Rpower s (1 - xi - 1))).
  - apply derivable_pt_lim_minus.
    + apply derivable_pt_lim_scal. apply derivable_pt_lim_id.
    + apply (derivable_pt_lim_scal (fun s => Rpower s (1 - xi)) (b / (xi * (xi - 1))) s). apply derivable_pt_lim_power. exact Hs.
  - unfold qs. replace (1 - xi - 1) with (- xi) by ring. field. split; lra.
Qed.
Lemma ms_mirror_deriv lr u b xi s : 0 < s -> xi <> 0 -> xi <> 1 ->
  derivable_pt_lim (fun s => Mirror RN lr (ms u b xi s)) s (Mirror RN lr (qs u b xi s)).
Proof.
  intros Hs Hx H1. assert (D := ms_deriv u b xi s Hs Hx H1). destruct lr; cbn [Mirror RN opp].
  - apply (derivable_pt_lim_opp (ms u b xi)). exact D.
  - exact D.
Qed.
(** local equality is enough for the derivative *)
Lemma deriv_local f g x l d : 0 < d -> (forall y, Rabs (y - x) < d -> f y = g y) ->
  derivable_pt_lim f x l -> derivable_pt_lim g x l.
Proof.
  intros Hd E H eps He. destruct (H eps He) as [del Hdel].
  assert (Hm : 0 < Rmin del d) by (apply Rmin_pos; [apply cond_pos|exact Hd]).
  exists (mkposreal _ Hm). intros h Hh Hl. cbn in Hl. rewrite <- (E (x + h)), <- (E x).
  - apply Hdel; [exact Hh|]. eapply Rlt_le_trans; [exact Hl|apply Rmin_l].
  - rewrite Rminus_diag_eq, Rabs_R0 by reflexivity. exact Hd.
  - replace (x + h - x) with h by ring. eapply Rlt_le_trans; [exact Hl|apply Rmin_r].
Qed.
Lemma tmean_deriv lr u b xi s : 0 < s -> xi <> 0 -> xi <> 1 ->
  derivable_pt_lim (fun s => s * tmean lr (u, b, xi) (AtShare lr s)) s (quant lr (u, b, xi) (AtShare lr s)).
Proof.
  intros Hs Hx H1. rewrite quant_qs, share_at.
  apply (deriv_local (fun s => Mirror RN lr (ms u b xi s)) _ s _ s Hs).
  - intros y Hy. symmetry. apply tmean_ms; [|assumption|assumption]. apply Rabs_def2 in Hy. lra.
  - apply ms_mirror_deriv; assumption.
Qed.
Lemma Rpower_small a e : 0 < a -> 0 < e -> exists d, 0 < d /\ forall s, 0 < s < d -> Rpower s a < e.
Proof.
  intros Ha He. exists (Rpower e (/ a)). split; [apply Rpower_pos|]. intros s Hs.
  replace e with (Rpower (Rpower e (/ a)) a).
  - apply Rpower_inc; assumption.
  - rewrite Rpower_mult. replace (/ a * a) with 1 by (field; lra). apply Rpower_1. exact He.
Qed.
Lemma tmean_limit lr u b xi : xi <> 0 -> xi < 1 ->
  forall e, 0 < e -> exists d, 0 < d /\ forall s, 0 < s < d -> Rabs (s * tmean lr (u, b, xi) (AtShare lr s)) < e.
Proof.
  intros Hx H1 e He.
  set (A := Rabs (u - b / xi)). set (B := Rabs (b / (xi * (xi - 1)))).
  assert (HA : 0 <= A) by apply Rabs_pos. assert (HB : 0 <= B) by apply Rabs_pos.
  destruct (Rpower_small (1 - xi) (e / 2 / (B + 1))) as (d & Hd & Hp); [lra|apply Rdiv_lt_0_compat; lra|].
  exists (Rmin d (e / 2 / (A + 1))). split; [apply Rmin_pos; [exact Hd|apply Rdiv_lt_0_compat; lra]|].
  intros s [H0 Hs]. assert (S1 := Rlt_le_trans _ _ _ Hs (Rmin_l _ _)). assert (S2 := Rlt_le_trans _ _ _ Hs (Rmin_r _ _)).
  rewrite tmean_ms by lra.
  replace (Rabs (Mirror RN lr (ms u b xi s))) with (Rabs (ms u b xi s)) by (destruct lr; cbn; [rewrite Rabs_Ropp|]; reflexivity).
  unfold ms. eapply Rle_lt_trans; [apply Rabs_triang|]. rewrite Rabs_Ropp, !Rabs_mult.
  fold A B. rewrite (Rabs_pos_eq s) by lra. rewrite (Rabs_pos_eq (Rpower _ _)) by (left; apply Rpower_pos).
  specialize (Hp s (conj H0 S1)). assert (P := Rpower_pos s (1 - xi)). set (w := Rpower s (1 - xi)) in *. clearbody w.
  assert (X1 : A * s < e / 2).
  { apply Rlt_le_trans with ((A + 1) * s); [|].
    - rewrite Rmult_plus_distr_r. lra.
    - apply (Rmult_le_compat_l (A + 1)) in S2 || idtac.
      assert (S3 : (A + 1) * s < (A + 1) * (e / 2 / (A + 1))) by (apply Rmult_lt_compat_l; lra).
      replace ((A + 1) * (e / 2 / (A + 1))) with (e / 2) in S3 by (field; lra). lra. }
  assert (X2 : B * w < e / 2).
  { apply Rlt_le_trans with ((B + 1) * w); [|].
    - rewrite Rmult_plus_distr_r. lra.
    - assert (S3 : (B + 1) * w < (B + 1) * (e / 2 / (B + 1))) by (apply Rmult_lt_compat_l; lra).
      replace ((B + 1) * (e / 2 / (B + 1))) with (e / 2) in S3 by (field; lra). lra. }
  lra.
Qed.

(** What a fit of real samples satisfies. *)
Section Fit.
Variable lr : side.
Lemma total_gt (u : R) (l : list R) : Forall (fun y => u < y) l -> ofnat RN (length l) * u <= total RN (fun y => y) l.
Proof.
  induction 1 as [|y l Hy _ IH]; [cbn; lra|]. rewrite total_cons. cbn [length ofnat RN add mul one zero] in *. change (car RN) with R in *.
  set (n := ofnat RN (length l)) in *. set (t := total RN _ l) in *. clearbody n t. cbn in n, t. nra.
Qed.
Lemma total_gt_strict (u : R) (l : list R) : l <> [] -> Forall (fun y => u < y) l -> ofnat RN (length l) * u < total RN (fun y => y) l.
Proof.
  destruct l as [|y l]; [congruence|]. intros _ H. inversion_clear H as [|? ? Hy Hl].
  assert (T := total_gt u l Hl). rewrite total_cons. cbn [length ofnat RN add mul one zero] in *. change (car RN) with R in *.
  set (n := ofnat RN (length l)) in *. set (t := total RN _ l) in *. clearbody n t. cbn in n, t. nra.
Qed.
Lemma ofnat_pos_R n : (0 < n)%nat -> 0 < ofnat RN n.
Proof. induction n as [|n IH]; [lia|]. intros _. destruct n; [cbn; lra|]. specialize (IH ltac:(lia)). cbn [ofnat RN add one] in *. lra. Qed.
Lemma mean_gt (u : R) (l : list R) : l <> [] -> Forall (fun y => u < y) l -> u < Mean RN l.
Proof.
  intros Hne H. assert (T := total_gt_strict u l Hne H). unfold Mean, average. cbn [RN div].
  assert (P : 0 < ofnat RN (length l)) by (apply ofnat_pos_R; destruct l; [congruence|cbn; lia]).
  apply (Rmult_lt_reg_l (ofnat RN (length l))); [exact P|].
  change (car RN) with R in *. set (n := ofnat RN (length l)) in *. set (t := total RN _ l) in *. clearbody n t. cbn in n, t.
  replace (n * (t / n)) with t by (field; lra). exact T.
Qed.
Lemma total_sq_nonneg (f : R -> R) (l : list R) : 0 <= total RN (fun x => power RN (f x) 2) l.
Proof.
  induction l as [|x l IH]; [cbn; lra|]. rewrite total_cons. cbn [power RN mul one add] in *. change (car RN) with R in *.
  assert (0 <= f x * f x) by nra. replace (f x * (f x * 1)) with (f x * f x) by ring. lra.
Qed.
Lemma variance_nonneg (l : list R) : l <> [] -> 0 <= Variance RN l.
Proof.
  intros Hne. assert (P : 0 < ofnat RN (length l)) by (apply ofnat_pos_R; destruct l; [congruence|cbn; lia]).
  unfold Variance, CentralMoment, average. cbn [RN div]. assert (T := total_sq_nonneg (fun x => x - Mean RN l) l).
  unfold Rdiv. apply Rmult_le_pos; [exact T|]. left. apply Rinv_0_lt_compat. exact P.
Qed.
Lemma exceed_gt thr xs : Forall (fun y => Mirror RN lr thr < y) (Exceedances RN lr thr xs).
Proof.
  apply Forall_forall. intros y Hy. apply filter_In in Hy. destruct Hy as [_ Hy]. cbn [RN ltb] in Hy.
  unfold Rltb in Hy. destruct (Rlt_dec _ _); [assumption|discriminate].
Qed.
Lemma fit_props m v u share : u < m -> 0 < v -> 0 < snd (fst (PotParameters RN Rpower m v u share)) /\ Xi RN m v u < 1 / 2.
Proof.
  intros Hm Hv. unfold PotParameters. cbn [fst snd].
  assert (T : 0 < power RN (m - u) 2 / v).
  { cbn [power RN mul one]. change (car RN) with R. apply Rdiv_lt_0_compat; [|exact Hv]. nra. }
  split.
  - unfold Beta. cbn [RN mul div add sub one]. change (car RN) with R in *.
    apply Rmult_lt_0_compat; [|apply Rpower_pos]. apply Rmult_lt_0_compat; [|lra]. apply Rdiv_lt_0_compat; lra.
  - unfold Xi. cbn [RN mul div add sub one]. change (car RN) with R in *. lra.
Qed.
End Fit.

(** Everything together, for the fit of an actual history. *)
Lemma pot_consistent (lr : side) (thr : R) (xs : list R) (fit : R * R * R) :
  pot_out RN Rpower lr 0 thr (map (fun x => PPush RN x 1) xs ++ [PExtract RN]) = [Ok fit] ->
  let share := ofnat RN (length (Exceedances RN lr thr xs)) / ofnat RN (length xs) in
  (forall p, TailShare RN lr p = share -> quant lr fit p = thr) /\
  (forall p p', 0 < p -> p < p' -> p' < 1 -> quant lr fit p < quant lr fit p') /\
  (forall p, match lr with
             | Right => quant lr fit p < tmean lr fit p
             | Left => tmean lr fit p < quant lr fit p
             end) /\
  (forall s, 0 < s -> derivable_pt_lim (fun s => s * tmean lr fit (AtShare lr s)) s (quant lr fit (AtShare lr s))) /\
  (forall e, 0 < e -> exists d, 0 < d /\ forall s, 0 < s < d -> Rabs (s * tmean lr fit (AtShare lr s)) < e).
Proof.
  intros E share. set (ys := Exceedances RN lr thr xs) in *.
  assert (N := pot_nan RN RN_ordered Rpower lr thr xs 1). fold ys in N. cbn [repeat] in N. cbn zeta in N.
  assert (F := pot_first RN RN_ordered Rpower lr thr xs 1). fold ys in F. cbn [repeat] in F. cbn zeta in F.
  change (zero RN) with 0 in *. change (one RN) with 1 in *.
  assert (Hne : ys <> []).
  { intros C. rewrite N in E by auto. discriminate. }
  assert (Hv : Variance RN ys <> 0) by (intros C; rewrite N in E by auto; discriminate).
  assert (Hx : Xi RN (Mean RN ys) (Variance RN ys) (Mirror RN lr thr) <> 0) by (intros C; rewrite N in E by auto; discriminate).
  specialize (F Hne Hv Hx). rewrite F in E. injection E as <-.
  assert (Hm := mean_gt _ _ Hne (exceed_gt lr thr xs)).
  assert (Hv' : 0 < Variance RN ys) by (assert (V := variance_nonneg ys Hne); change (car RN) with R in *; lra).
  destruct (fit_props _ _ _ share Hm Hv') as [Hb Hxi].
  change (div RN (ofnat RN (length ys)) (ofnat RN (length xs))) with share in *.
  unfold PotParameters in Hb |- *. cbn [fst snd] in Hb.
  assert (Hq : forall p, TailShare RN lr p = share -> quant lr (PotParameters RN Rpower (Mean RN ys) (Variance RN ys) (Mirror RN lr thr) share) p = thr).
  { intros p Hp. rewrite (quantile_at_threshold RN RN_ordered) by assumption. apply (Mirror_invol RN RN_ordered). }
  unfold PotParameters in Hq. set (b := mul RN (Beta _ _ _ _) _) in *. set (u := sub RN (Mirror _ _ _) _) in *.
  set (xi := Xi _ _ _ _) in *. clearbody b u xi. cbn in b, u, xi.
  split; [exact Hq|]. split; [intros; apply quantile_increasing; assumption|].
  split; [intros p; destruct lr; [apply tmean_beyond_left|apply tmean_beyond_right]; lra|].
  split; [intros s Hs; apply tmean_deriv; lra|]. apply tmean_limit; lra.
Qed.

Lemma pot_ex : exists fit, pot_out RN Rpower Right 0 0 (map (fun x => PPush RN x 1) [1; 3; 5] ++ [PExtract RN]) = [Ok fit].
Proof.
  assert (E : Exceedances RN Right 0 [1; 3; 5] = [1; 3; 5]).
  { unfold Exceedances. cbn [map Mirror filter RN ltb]. unfold Rltb.
    repeat (destruct (Rlt_dec _ _); [|exfalso; lra]). reflexivity. }
  assert (EM : Mean RN [1; 3; 5] = 3) by (unfold Mean, average; cbn; lra).
  assert (EV : Variance RN [1; 3; 5] = 8/3) by (unfold Variance, CentralMoment, average; rewrite EM; cbn; lra).
  eexists. assert (F := pot_first RN RN_ordered Rpower Right 0 [1; 3; 5] 1). cbn zeta in F. cbn [repeat] in F.
  apply F; rewrite E.
  - discriminate.
  - rewrite EV. cbn. lra.
  - rewrite EV, EM. unfold Xi. cbn. lra.
Qed.
