(** Extremes of doubles; what a sample that is not a number does; weighted variance of doubles. *)
From Coq Require Import ZArith List Bool Reals Lra Lia Arith.
From Flocq Require Import Core IEEE754.BinarySingleNaN.
From Verif Require Import Num NumFacts ModelBasic ModelMinMax ModelRounding ModelDouble SpecStats SpecDouble ProofBasic ProofKahan ProofDouble ProofDouble2 ProofDouble3.
Import ListNotations.
Local Open Scope R_scope.

(** ** The order of the doubles that are numbers *)
Definition rank (x : double) : R :=
  match x with B754_infinity false => bpow radix2 1024 | B754_infinity true => - bpow radix2 1024 | _ => B2R x end.
Lemma rank_finite (x : double) : is_finite x = true -> rank x = B2R x /\ Rabs (rank x) < bpow radix2 1024.
Proof.
  intros F. assert (E : rank x = B2R x) by (destruct x; try discriminate F; reflexivity). split; [exact E |]. rewrite E. apply abs_B2R_lt_emax.
Qed.
Lemma lt_rank (x y : double) : is_nan x = false -> is_nan y = false -> d_lt x y = Rlt_bool (rank x) (rank y).
Proof.
  intros Nx Ny. assert (P : 0 < bpow radix2 1024) by apply bpow_gt_0.
  destruct (is_finite x) eqn:Fx; [destruct (is_finite y) eqn:Fy |].
  - destruct (rank_finite x Fx) as [-> _]. destruct (rank_finite y Fy) as [-> _]. apply lt_fin; assumption.
  - destruct (rank_finite x Fx) as [_ B]. apply Rabs_def2 in B.
    destruct y as [s|[]| |s m e H]; try discriminate; [replace (d_lt x (B754_infinity true)) with false by (destruct x as [[]|[]| |[]]; try discriminate; reflexivity) |
      replace (d_lt x (B754_infinity false)) with true by (destruct x as [[]|[]| |[]]; try discriminate; reflexivity)]; symmetry.
    + apply Rlt_bool_false. cbn [rank]. lra.
    + apply Rlt_bool_true. cbn [rank]. lra.
  - assert (B : is_finite y = true -> - bpow radix2 1024 < rank y < bpow radix2 1024) by (intros F; destruct (rank_finite y F) as [_ B]; apply Rabs_def2 in B; lra).
    destruct x as [|[]| |]; try discriminate; destruct (is_finite y) eqn:Fy.
    + replace (d_lt (B754_infinity true) y) with true by (destruct y as [[]|[]| |[]]; try discriminate; reflexivity).
      symmetry. apply Rlt_bool_true. specialize (B eq_refl). cbn [rank]. lra.
    + destruct y as [|[]| |]; try discriminate; symmetry; [apply Rlt_bool_false | apply Rlt_bool_true]; cbn [rank]; lra.
    + replace (d_lt (B754_infinity false) y) with false by (destruct y as [[]|[]| |[]]; try discriminate; reflexivity).
      symmetry. apply Rlt_bool_false. specialize (B eq_refl). cbn [rank]. lra.
    + destruct y as [|[]| |]; try discriminate; symmetry; apply Rlt_bool_false; cbn [rank]; lra.
Qed.
Lemma lt_nan_l (x y : double) : is_nan x = true -> d_lt x y = false.
Proof. destruct x; try discriminate. reflexivity. Qed.
Lemma lt_nan_r (x y : double) : is_nan y = true -> d_lt x y = false.
Proof. destruct y; try discriminate. destruct x as [[]|[]| |[]]; reflexivity. Qed.
Lemma lt_numbers (x y : double) : d_lt x y = true -> is_nan x = false /\ is_nan y = false.
Proof.
  intros H. destruct (is_nan x) eqn:Nx; [rewrite lt_nan_l in H by exact Nx; discriminate |].
  destruct (is_nan y) eqn:Ny; [rewrite lt_nan_r in H by exact Ny; discriminate | auto].
Qed.
Lemma lt_rank_true (x y : double) : is_nan x = false -> is_nan y = false -> (d_lt x y = true <-> rank x < rank y).
Proof. intros Nx Ny. rewrite lt_rank by assumption. destruct (Rlt_bool_spec (rank x) (rank y)); split; auto; [discriminate | lra]. Qed.
Lemma lt_rank_false (x y : double) : is_nan x = false -> is_nan y = false -> (d_lt x y = false <-> rank y <= rank x).
Proof. intros Nx Ny. rewrite lt_rank by assumption. destruct (Rlt_bool_spec (rank x) (rank y)); split; auto; [discriminate | lra]. Qed.

(** The largest double. *)
Lemma max_value : B2R d_max = bpow radix2 1024 - bpow radix2 971.
Proof.
  transitivity (F2R (Float radix2 9007199254740991 971)); [reflexivity |]. unfold F2R. cbn [Fnum Fexp].
  change 1024%Z with (53 + 971)%Z. rewrite bpow_plus, <- (IZR_Zpower radix2 53) by lia.
  replace (IZR (Zpower radix2 53)) with (IZR 9007199254740991 + 1); [ring |]. rewrite <- plus_IZR. reflexivity.
Qed.
Lemma max_largest (x : double) : is_finite x = true -> Rabs (B2R x) <= B2R d_max.
Proof. intros _. rewrite max_value. apply (abs_B2R_le_emax_minus_prec 53 1024 prec_pos). Qed.
Lemma max_pos : 0 < B2R d_max.
Proof. rewrite max_value. assert (bpow radix2 971 < bpow radix2 1024) by (apply bpow_lt; lia). lra. Qed.
Lemma top_rank (x : double) : is_nan x = false -> d_lt x d_max = false -> x = d_max \/ x = d_inf.
Proof.
  intros N H. destruct (is_finite x) eqn:F; [left | destruct x as [|[]| |]; try discriminate; right; reflexivity].
  apply (lt_false x d_max F eq_refl) in H. assert (M := max_largest x F). assert (P := max_pos).
  assert (E : B2R x = B2R d_max) by (apply Rabs_le_inv in M; lra).
  apply B2R_inj; [| reflexivity | exact E]. destruct x as [s| | |s m e He]; try discriminate F; [| reflexivity].
  exfalso. change (0 = B2R d_max) in E. lra.
Qed.
Lemma bottom_rank (x : double) : is_nan x = false -> d_lt (d_opp d_max) x = false -> x = d_opp d_max \/ x = d_opp d_inf.
Proof.
  intros N H. destruct (is_finite x) eqn:F; [left | destruct x as [|[]| |]; try discriminate; right; reflexivity].
  apply (lt_false (d_opp d_max) x eq_refl F) in H. assert (M := max_largest x F). assert (P := max_pos).
  assert (O : B2R (d_opp d_max) = - B2R d_max) by apply B2R_Bopp.
  assert (E : B2R x = B2R (d_opp d_max)) by (apply Rabs_le_inv in M; lra).
  apply B2R_inj; [| reflexivity | exact E]. destruct x as [s| | |s m e He]; try discriminate F; [| reflexivity].
  exfalso. change (0 = B2R (d_opp d_max)) in E. rewrite O in E. lra.
Qed.

(** ** Minimum and maximum *)
Lemma minimum_snoc xs x : minimum (xs ++ [x]) = if d_lt x (minimum xs) then x else minimum xs.
Proof. unfold minimum, min_run. rewrite fold_left_app. reflexivity. Qed.
Lemma maximum_snoc xs x : maximum (xs ++ [x]) = if d_lt (maximum xs) x then x else maximum xs.
Proof. unfold maximum, max_run. rewrite fold_left_app. reflexivity. Qed.

Lemma minimum_number xs : is_nan (minimum xs) = false.
Proof.
  induction xs as [|x xs IH] using rev_ind; [reflexivity |]. rewrite minimum_snoc.
  destruct (d_lt x (minimum xs)) eqn:E; [apply lt_numbers in E; tauto | exact IH].
Qed.
Lemma maximum_number xs : is_nan (maximum xs) = false.
Proof.
  induction xs as [|x xs IH] using rev_ind; [reflexivity |]. rewrite maximum_snoc.
  destruct (d_lt (maximum xs) x) eqn:E; [apply lt_numbers in E; tauto | exact IH].
Qed.
Lemma minimum_least xs x : In x xs -> d_lt x (minimum xs) = false.
Proof.
  induction xs as [|y xs IH] using rev_ind; intros I; [destruct I |]. rewrite minimum_snoc.
  destruct (is_nan x) eqn:Nx; [apply lt_nan_l; exact Nx |].
  assert (Nm := minimum_number xs).
  apply in_app_or in I as [I | [<- | []]].
  - specialize (IH I). destruct (d_lt y (minimum xs)) eqn:E; [| exact IH].
    destruct (lt_numbers _ _ E) as [Ny _]. apply lt_rank_false in IH; [| assumption | assumption]. apply lt_rank_true in E; [| assumption | assumption].
    apply lt_rank_false; [assumption | assumption | lra].
  - destruct (d_lt y (minimum xs)) eqn:E; [apply lt_rank_false; [assumption | assumption | lra] | exact E].
Qed.
Lemma maximum_greatest xs x : In x xs -> d_lt (maximum xs) x = false.
Proof.
  induction xs as [|y xs IH] using rev_ind; intros I; [destruct I |]. rewrite maximum_snoc.
  destruct (is_nan x) eqn:Nx; [apply lt_nan_r; exact Nx |].
  assert (Nm := maximum_number xs).
  apply in_app_or in I as [I | [<- | []]].
  - specialize (IH I). destruct (d_lt (maximum xs) y) eqn:E; [| exact IH].
    destruct (lt_numbers _ _ E) as [_ Ny]. apply lt_rank_false in IH; [| assumption | assumption]. apply lt_rank_true in E; [| assumption | assumption].
    apply lt_rank_false; [assumption | assumption | lra].
  - destruct (d_lt (maximum xs) y) eqn:E; [apply lt_rank_false; [assumption | assumption | lra] | exact E].
Qed.
Lemma minimum_from xs : In (minimum xs) xs \/ minimum xs = d_max.
Proof.
  induction xs as [|x xs IH] using rev_ind; [right; reflexivity |]. rewrite minimum_snoc.
  destruct (d_lt x (minimum xs)); [left; apply in_or_app; right; left; reflexivity |].
  destruct IH as [IH | IH]; [left; apply in_or_app; left; exact IH | right; exact IH].
Qed.
Lemma maximum_from xs : In (maximum xs) xs \/ maximum xs = d_opp d_max.
Proof.
  induction xs as [|x xs IH] using rev_ind; [right; reflexivity |]. rewrite maximum_snoc.
  destruct (d_lt (maximum xs) x); [left; apply in_or_app; right; left; reflexivity |].
  destruct IH as [IH | IH]; [left; apply in_or_app; left; exact IH | right; exact IH].
Qed.
Lemma minimum_in xs x : In x xs -> is_nan x = false -> x <> d_inf -> In (minimum xs) xs.
Proof.
  intros I N F. destruct (minimum_from xs) as [H | H]; [exact H |]. assert (L := minimum_least xs x I). rewrite H in *.
  destruct (top_rank x N L) as [-> | ->]; [exact I | congruence].
Qed.
Lemma maximum_in xs x : In x xs -> is_nan x = false -> x <> d_opp d_inf -> In (maximum xs) xs.
Proof.
  intros I N F. destruct (maximum_from xs) as [H | H]; [exact H |]. assert (L := maximum_greatest xs x I). rewrite H in *.
  destruct (bottom_rank x N L) as [-> | ->]; [exact I | congruence].
Qed.
Lemma minimum_filter xs : minimum (filter (fun x => negb (is_nan x)) xs) = minimum xs.
Proof.
  induction xs as [|x xs IH] using rev_ind; [reflexivity |]. rewrite filter_app, minimum_snoc. cbn [filter].
  destruct (is_nan x) eqn:N; cbn [negb]; [rewrite app_nil_r, lt_nan_l by exact N; exact IH |].
  rewrite minimum_snoc, IH. reflexivity.
Qed.
Lemma maximum_filter xs : maximum (filter (fun x => negb (is_nan x)) xs) = maximum xs.
Proof.
  induction xs as [|x xs IH] using rev_ind; [reflexivity |]. rewrite filter_app, maximum_snoc. cbn [filter].
  destruct (is_nan x) eqn:N; cbn [negb]; [rewrite app_nil_r, lt_nan_r by exact N; exact IH |].
  rewrite maximum_snoc, IH. reflexivity.
Qed.

(** ** Not a number, for ever *)
Lemma nan_add_l (x y : double) : is_nan x = true -> is_nan (d_add x y) = true.
Proof. destruct x; try discriminate. reflexivity. Qed.
Lemma nan_add_r (x y : double) : is_nan y = true -> is_nan (d_add x y) = true.
Proof. destruct y; try discriminate. destruct x; reflexivity. Qed.
Lemma nan_sub_r (x y : double) : is_nan y = true -> is_nan (d_sub x y) = true.
Proof. destruct y; try discriminate. destruct x; reflexivity. Qed.
Lemma nan_mul_l (x y : double) : is_nan x = true -> is_nan (d_mul x y) = true.
Proof. destruct x; try discriminate. reflexivity. Qed.
Lemma nan_div_l (x y : double) : is_nan x = true -> is_nan (d_div x y) = true.
Proof. destruct x; try discriminate. reflexivity. Qed.

Lemma sum_nan xs x : In x xs -> nan x -> nan (sum_run DoubleN d_zero xs).
Proof.
  intros I N. induction xs as [|y xs IH] using rev_ind; [destruct I |]. rewrite sum_snoc.
  apply in_app_or in I as [I | [-> | []]]; [apply nan_add_l, IH, I | apply nan_add_r, N].
Qed.
Lemma lazy_mean_nan xs x : In x xs -> nan x -> nan (lazy_mean xs).
Proof. intros I N. rewrite lazy_mean_is. apply nan_div_l, (sum_nan xs x I N). Qed.
Lemma immediate_mean_nan xs x : In x xs -> nan x -> nan (immediate_mean xs).
Proof.
  intros I N. induction xs as [|y xs IH] using rev_ind; [destruct I |]. rewrite imean_snoc. apply nan_div_l.
  apply in_app_or in I as [I | [-> | []]]; [apply nan_add_l, nan_mul_l, IH, I | apply nan_add_r, N].
Qed.
Lemma variance_nan xs x : In x xs -> nan x -> (2 <= length xs)%nat -> nan (immediate_variance xs).
Proof.
  intros I N L. destruct xs as [|y xs _] using rev_ind; [destruct I |].
  destruct xs as [|z xs]; [cbn in L; lia |]. rewrite variance_snoc by discriminate.
  apply nan_add_r, nan_div_l, nan_mul_l, nan_sub_r, (immediate_mean_nan _ x I N).
Qed.

(** ** Weighted variance *)
Lemma unsigned_finite_sign (x : double) : unsigned x -> is_finite x = true -> Bsign x = false.
Proof. intros [N | S] F; [destruct x; discriminate | exact S]. Qed.
Lemma unsigned_back a w : unsigned a -> unsigned w -> unsigned (d_sub (d_add a w) w).
Proof.
  intros Ua Uw. assert (Us := unsigned_add a w Ua Uw).
  destruct (is_finite (d_add a w)) eqn:Fs.
  - destruct (add_fin a w Fs) as (Fa & Fw & E).
    assert (P : B2R w <= B2R (d_add a w)).
    { rewrite E, <- (round_format (B2R w)) at 1 by apply val_format. apply round_le. assert (V := unsigned_value a Ua). lra. }
    pose proof (Bminus_correct 53 1024 prec_pos prec_max mode_NE (d_add a w) w Fs Fw) as C. rewrite round_is in C.
    destruct (Rlt_bool _ _).
    + right. destruct C as (_ & _ & C). unfold d_sub. rewrite C.
      destruct (Rcompare_spec (B2R (d_add a w) - B2R w) 0); [lra | | reflexivity].
      rewrite (unsigned_finite_sign _ Us Fs). reflexivity.
    + destruct C as [C _]. apply overflow_inf in C. right. unfold d_sub. rewrite C. cbn. apply unsigned_finite_sign; assumption.
  - destruct (d_add a w) as [s|s| |s m e H]; try discriminate; [| left; reflexivity].
    destruct Us as [Us | Us]; [discriminate | cbn in Us; subst].
    destruct w as [s|[]| |s m e H]; try (right; reflexivity); left; reflexivity.
Qed.

Section AnyNumbers.
  Context (K : Num).
  Lemma wvset_step s0 w0 h x w :
    let s := wvar_set_run K s0 w0 h in let s' := wvar_set_run K s0 w0 (h ++ [(x, w)]) in
    wv_count K s' = S (wv_count K s) /\ wv_W K s' = add K (wv_W K s) w /\
    wv_var K s' = weighted_variance_op K (wv_var K s) (wv_mean K s') (wv_W K s') (wv_count K s') x w.
  Proof. unfold wvar_set_run. rewrite fold_left_app. cbn [fold_left]. repeat split. Qed.
  Lemma wvset_closed (P : car K -> Prop) s0 w0 h :
    P (sum_init K w0) -> P (weighted_variance_init K s0) ->
    (forall x y, P x -> P y -> P (add K x y)) -> (forall x y, P x -> P y -> P (mul K x y)) -> (forall x y, P x -> P y -> P (div K x y)) ->
    (forall x, P (mul K x x)) -> (forall a w, P a -> P w -> P (sub K (add K a w) w)) ->
    Forall (fun p => P (snd p)) h ->
    P (wv_W K (wvar_set_run K s0 w0 h)) /\ P (wv_var K (wvar_set_run K s0 w0 h)).
  Proof.
    intros P0 P1 Padd Pmul Pdiv Psq Pback. induction h as [|[x w] h IH] using rev_ind; intros H; [split; assumption |].
    apply Forall_app in H as [H Hw]. inversion Hw as [|? ? Uw _]; subst. cbn [snd] in Uw.
    destruct (IH H) as [UW UV]. destruct (wvset_step s0 w0 h x w) as (_ & EW & EV). rewrite EV.
    rewrite EW. split; [apply Padd; assumption |]. unfold weighted_variance_op. destruct (Nat.ltb 1 _); [| exact UV].
    apply Padd; apply Pdiv; auto.
  Qed.
End AnyNumbers.

Lemma weighted_variance_unsigned h : Forall (fun p => unsigned (snd p)) h ->
  unsigned (weighted_variance h).
Proof.
  intros H. apply (wvset_closed DoubleN unsigned d_zero d_zero h); try assumption; try (right; reflexivity).
  - exact unsigned_add.
  - exact unsigned_mul.
  - exact unsigned_div.
  - exact unsigned_square.
  - exact unsigned_back.
Qed.
