(** Integer arithmetic and integer samples: lemmas behind C52. *)
From Coq Require Import List ZArith Bool Lia Znumtheory.
From Verif Require Import Num ModelPSquare ModelMinMax ModelBasic ModelRolling ModelNumeric ModelInteger SpecInteger SpecRolling ProofRolling.
Import ListNotations.
Open Scope Z_scope.

(** ** Representable, conv, arith *)
Lemma fits_iff T z : fits T z = true <-> Representable T z.
Proof.
  unfold fits, Representable. destruct (signed T); rewrite andb_true_iff, Z.leb_le, Z.ltb_lt; reflexivity.
Qed.
Lemma fits_dec T z : {Representable T z} + {~ Representable T z}.
Proof. destruct (fits T z) eqn:E; [left | right; intros H]; [now apply fits_iff | apply fits_iff in H; congruence]. Qed.
Lemma fits_false T z : ~ Representable T z -> fits T z = false.
Proof. intros H. destruct (fits T z) eqn:E; [|reflexivity]. apply fits_iff in E. contradiction. Qed.

Lemma width_pos T : StandardWidth T -> 1 <= bits T.
Proof. intros [->|[->|[->| ->]]]; lia. Qed.
Lemma half_pow b : 1 <= b -> 2 ^ b = 2 * 2 ^ (b - 1).
Proof. intros H. rewrite <- Z.pow_succ_r by lia. f_equal. lia. Qed.

Lemma conv_wraps T z : 1 <= bits T -> WrapsTo T z (conv T z).
Proof.
  intros Hb. assert (Hh := half_pow _ Hb).
  assert (Hp : 0 < 2 ^ (bits T - 1)) by (apply Z.pow_pos_nonneg; lia).
  unfold WrapsTo, conv, Representable. destruct (signed T).
  - assert (Hm := Z.mod_pos_bound (z + 2 ^ (bits T - 1)) (2 ^ bits T) ltac:(lia)). split; [lia|].
    exists (- ((z + 2 ^ (bits T - 1)) / 2 ^ bits T)).
    assert (Hd := Z.div_mod (z + 2 ^ (bits T - 1)) (2 ^ bits T) ltac:(lia)). lia.
  - assert (Hm := Z.mod_pos_bound z (2 ^ bits T) ltac:(lia)). split; [lia|].
    exists (- (z / 2 ^ bits T)). assert (Hd := Z.div_mod z (2 ^ bits T) ltac:(lia)). lia.
Qed.
Lemma rep_unique T r r' : 1 <= bits T -> Representable T r -> Representable T r' -> (2 ^ bits T | r - r') -> r = r'.
Proof.
  intros Hb Hr Hr' [k Hk]. assert (Hh := half_pow _ Hb).
  assert (Hp : 0 < 2 ^ (bits T - 1)) by (apply Z.pow_pos_nonneg; lia).
  assert (Hlt : Z.abs (r - r') < 2 ^ bits T) by (unfold Representable in *; destruct (signed T); lia).
  assert (k = 0) by nia. subst k. lia.
Qed.
Lemma conv_unique T z r : 1 <= bits T -> WrapsTo T z r -> r = conv T z.
Proof.
  intros Hb [Hr Hd]. destruct (conv_wraps T z Hb) as [Hr' Hd']. apply (rep_unique T); try assumption.
  replace (r - conv T z) with ((r - z) - (conv T z - z)) by ring. now apply Z.divide_sub_r.
Qed.
Lemma conv_id T z : 1 <= bits T -> Representable T z -> conv T z = z.
Proof. intros Hb Hr. symmetry. apply conv_unique; [exact Hb|]. split; [exact Hr|]. rewrite Z.sub_diag. apply Z.divide_0_r. Qed.
Lemma conv_cong T a b : 1 <= bits T -> (2 ^ bits T | a - b) -> conv T a = conv T b.
Proof.
  intros Hb Hd. apply conv_unique; [exact Hb|]. destruct (conv_wraps T a Hb) as [Hr Hda]. split; [exact Hr|].
  replace (conv T a - b) with ((conv T a - a) + (a - b)) by ring. now apply Z.divide_add_r.
Qed.
Lemma conv_rep T z : 1 <= bits T -> Representable T (conv T z).
Proof. intros Hb. apply conv_wraps; exact Hb. Qed.
Lemma conv_add T a b : 1 <= bits T -> conv T (conv T a + b) = conv T (a + b).
Proof.
  intros Hb. apply conv_cong; [exact Hb|]. replace (conv T a + b - (a + b)) with (conv T a - a) by ring.
  apply conv_wraps; exact Hb.
Qed.
Lemma conv_add_r T a b : 1 <= bits T -> conv T (a + conv T b) = conv T (a + b).
Proof. intros Hb. rewrite Z.add_comm, conv_add, Z.add_comm by exact Hb. reflexivity. Qed.
Lemma conv_sub T a b : 1 <= bits T -> conv T (conv T a - b) = conv T (a - b).
Proof.
  intros Hb. apply conv_cong; [exact Hb|]. replace (conv T a - b - (a - b)) with (conv T a - a) by ring.
  apply conv_wraps; exact Hb.
Qed.
Lemma conv_mul T a b : 1 <= bits T -> conv T (conv T a * b) = conv T (a * b).
Proof.
  intros Hb. apply conv_cong; [exact Hb|]. replace (conv T a * b - a * b) with ((conv T a - a) * b) by ring.
  apply Z.divide_mul_l. apply conv_wraps; exact Hb.
Qed.
Lemma conv_mul_r T a b : 1 <= bits T -> conv T (a * conv T b) = conv T (a * b).
Proof. intros Hb. rewrite Z.mul_comm, conv_mul, Z.mul_comm by exact Hb. reflexivity. Qed.

Lemma promote_pos T : 1 <= bits T -> 1 <= bits (promote T).
Proof. intros Hb. unfold promote. destruct (bits T <? 32); [cbn; lia | exact Hb]. Qed.
Lemma common_same T : common T T = promote T.
Proof. unfold common. rewrite eqb_reflx, Z.ltb_irrefl. reflexivity. Qed.

(** widths as numbers *)
Ltac pows := repeat match goal with
  | H : context [2 ^ ?e] |- _ => let v := eval vm_compute in (2 ^ e) in progress change (2 ^ e) with v in H
  | |- context [2 ^ ?e] => let v := eval vm_compute in (2 ^ e) in progress change (2 ^ e) with v
  end.
Ltac widths T HW := destruct T as [bw sg]; unfold StandardWidth in HW; cbn [bits] in HW;
  destruct HW as [->|[->|[->| ->]]]; destruct sg.

Lemma rep_promote T z : StandardWidth T -> Representable T z -> Representable (promote T) z.
Proof.
  intros HW. widths T HW; unfold promote, Representable, Int; cbn [bits signed Z.ltb Z.compare Pos.compare Pos.compare_cont];
    pows; lia.
Qed.
Lemma rep_small T : StandardWidth T -> Representable T 0 /\ Representable T 1.
Proof. intros HW. widths T HW; unfold Representable; cbn [bits signed]; pows; lia. Qed.

(** one operator, both operands values of the type *)
Lemma arith_exact T f a b : StandardWidth T -> Representable T a -> Representable T b ->
  Representable (promote T) (f a b) -> arith T T f a b = Ok (f a b).
Proof.
  intros HW Ha Hb Hf. unfold arith. rewrite common_same.
  assert (Hp := promote_pos _ (width_pos _ HW)).
  rewrite !conv_id by auto using rep_promote.
  apply fits_iff in Hf. rewrite Hf. now destruct (signed (promote T)).
Qed.
Lemma store_exact T f a b : StandardWidth T -> Representable T a -> Representable T b ->
  Representable T (f a b) -> store T (arith T T f a b) = Ok (f a b).
Proof.
  intros HW Ha Hb Hf. rewrite arith_exact by auto using rep_promote. cbn [store obnd].
  now rewrite conv_id by auto using width_pos.
Qed.
Definition Wrapping (T : itype) : Prop := signed T = false \/ bits T < 32.
Lemma wrapping_dec T : StandardWidth T -> {Wrapping T} + {signed T = true /\ 32 <= bits T}.
Proof.
  intros _. unfold Wrapping. destruct (signed T); [|left; now left].
  destruct (Z_lt_dec (bits T) 32); [left; now right | right; split; [reflexivity | lia]].
Qed.
Lemma store_wraps T f a b : StandardWidth T -> Representable T a -> Representable T b ->
  (bits T < 32 -> Representable Int (f a b)) -> Wrapping T ->
  store T (arith T T f a b) = Ok (conv T (f a b)).
Proof.
  intros HW Ha Hb Hf Hw. unfold arith. rewrite common_same.
  assert (Hp := promote_pos _ (width_pos _ HW)).
  rewrite !conv_id by auto using rep_promote. unfold promote in *.
  destruct (bits T <? 32) eqn:E.
  - apply Z.ltb_lt in E. cbn [signed Int]. fold Int. rewrite (proj2 (fits_iff _ _) (Hf E)). reflexivity.
  - apply Z.ltb_ge in E. destruct Hw as [Hw|Hw]; [|lia]. rewrite Hw. cbn [store obnd].
    f_equal. apply conv_id; [apply width_pos; exact HW|]. apply conv_rep. apply width_pos; exact HW.
Qed.
Lemma store_overflow T f a b : StandardWidth T -> signed T = true -> 32 <= bits T ->
  Representable T a -> Representable T b -> ~ Representable T (f a b) -> store T (arith T T f a b) = UB.
Proof.
  intros HW Hs Hb32 Ha Hb Hf. unfold arith. rewrite common_same.
  assert (E : promote T = T) by (unfold promote; destruct (Z.ltb_spec (bits T) 32); [lia | reflexivity]).
  rewrite E, !conv_id, Hs, fits_false by auto using width_pos. reflexivity.
Qed.
Lemma narrow_add T a b : StandardWidth T -> Representable T a -> Representable T b -> bits T < 32 ->
  Representable Int (a + b).
Proof.
  intros HW. widths T HW; unfold Representable, Int; cbn [bits signed]; pows; lia.
Qed.
Lemma narrow_sub T a b : StandardWidth T -> Representable T a -> Representable T b -> bits T < 32 ->
  Representable Int (a - b).
Proof.
  intros HW. widths T HW; unfold Representable, Int; cbn [bits signed]; pows; lia.
Qed.

(** ** Prefixes *)
Lemma prefix_snoc {A} (P : list A -> Prop) xs x :
  AtEveryPrefix P (xs ++ [x]) <-> AtEveryPrefix P xs /\ P (xs ++ [x]).
Proof.
  split.
  - intros H. split; [|apply (H _ []); [now rewrite app_nil_r | destruct xs; discriminate]].
    intros p q E Hp. apply (H p (q ++ [x])); [now rewrite E, app_assoc | exact Hp].
  - intros [H HP] p q E Hp. destruct q as [|y q] using rev_ind; [rewrite app_nil_r in E; now subst|].
    rewrite app_assoc in E. apply app_inj_tail in E as [E _]. now apply (H p q).
Qed.
Lemma prefix_nil {A} (P : list A -> Prop) : AtEveryPrefix P [].
Proof. intros p q E Hp. symmetry in E. apply app_eq_nil in E as [E _]. contradiction. Qed.
Lemma prefix_dec {A} (P : list A -> Prop) (D : forall l, {P l} + {~ P l}) xs :
  {AtEveryPrefix P xs} + {~ AtEveryPrefix P xs}.
Proof.
  rewrite <- (rev_involutive xs). induction (rev xs) as [|x l IH]; [left; apply prefix_nil|]. cbn [rev].
  destruct IH as [IH|IH].
  - destruct (D (rev l ++ [x])) as [d|d]; [left | right]; rewrite prefix_snoc; tauto.
  - right. rewrite prefix_snoc. tauto.
Qed.
Lemma Sum_app a b : Sum (a ++ b) = Sum a + Sum b.
Proof. unfold Sum. induction a as [|x a IH]; cbn [app fold_right]; lia. Qed.
Lemma Sum_snoc a x : Sum (a ++ [x]) = Sum a + x.
Proof. rewrite Sum_app. cbn. lia. Qed.

(** Folding an operation on outcomes. *)
Lemma run_snoc {A} (f : Z -> A -> outcome Z) xs x o :
  fold_left (fun o x => obnd o (fun s => f s x)) (xs ++ [x]) o
  = obnd (fold_left (fun o x => obnd o (fun s => f s x)) xs o) (fun s => f s x).
Proof. rewrite fold_left_app. reflexivity. Qed.

(** ** sum *)
Section Typed.
Variable T : itype.
Hypothesis HW : StandardWidth T.
Let Hpos : 1 <= bits T := width_pos T HW.
Notation Rep := (Representable T).
Notation Wide := (signed T = true /\ 32 <= bits T).

Lemma sum_wraps xs : Wrapping T -> Forall Rep xs -> int_sum_run T xs = Ok (conv T (Sum xs)).
Proof.
  intros Hw. induction xs as [|x xs IH] using rev_ind; intros HF.
  - cbn. rewrite conv_id; [reflexivity | exact Hpos | apply rep_small; exact HW].
  - apply Forall_app in HF as [HF Hx]. inversion Hx as [|? ? Hx' _]; subst.
    unfold int_sum_run in *. rewrite run_snoc, (IH HF), Sum_snoc. cbn [obnd]. unfold int_sum_op.
    rewrite store_wraps; [now rewrite conv_add | exact HW | now apply conv_rep | exact Hx' | | exact Hw].
    intros Hb. apply (narrow_add T); auto using conv_rep.
Qed.
Lemma sum_exact xs : Forall Rep xs -> AtEveryPrefix (fun p => Rep (Sum p)) xs -> int_sum_run T xs = Ok (Sum xs).
Proof.
  induction xs as [|x xs IH] using rev_ind; intros HF HP; [reflexivity|].
  apply prefix_snoc in HP as [HP Hl]. apply Forall_app in HF as [HF Hx]. inversion Hx as [|? ? Hx' _]; subst.
  unfold int_sum_run in *. rewrite run_snoc, (IH HF HP). cbn [obnd]. unfold int_sum_op.
  rewrite Sum_snoc in *. apply store_exact; auto.
  destruct xs as [|y xs] using rev_ind; [apply rep_small; exact HW | apply prefix_snoc in HP; tauto].
Qed.
Lemma sum_overflow xs : Wide -> Forall Rep xs -> ~ AtEveryPrefix (fun p => Rep (Sum p)) xs -> int_sum_run T xs = UB.
Proof.
  intros [Hs Hb]. induction xs as [|x xs IH] using rev_ind; intros HF HP; [exfalso; apply HP, prefix_nil|].
  rewrite prefix_snoc in HP. apply Forall_app in HF as [HF Hx]. inversion Hx as [|? ? Hx' _]; subst.
  unfold int_sum_run in *. rewrite run_snoc.
  destruct (prefix_dec (fun p => Rep (Sum p)) (fun l => fits_dec T (Sum l)) xs) as [D|D]; [|now rewrite IH].
  assert (E := sum_exact xs HF D). unfold int_sum_run in E. rewrite E. cbn [obnd]. unfold int_sum_op.
  apply store_overflow; auto.
  - destruct xs as [|y xs] using rev_ind; [apply rep_small; exact HW | apply prefix_snoc in D; tauto].
  - rewrite <- Sum_snoc. tauto.
Qed.

(** ** pow *)
Lemma rep_lower_power x m n : Rep x -> Rep (x ^ Z.of_nat n) -> (1 <= m <= n)%nat -> Rep (x ^ Z.of_nat m).
Proof.
  intros Hx Hn [H1 H2]. destruct (Nat.eq_dec m n) as [->|Hne]; [exact Hn|].
  assert (Hmn : (m < n)%nat) by lia. clear H2 Hne.
  destruct (Z.eq_dec x 0) as [->|H0]; [rewrite Z.pow_0_l by lia; apply rep_small; exact HW|].
  destruct (Z.eq_dec x 1) as [->|H11]; [rewrite Z.pow_1_l by lia; apply rep_small; exact HW|].
  destruct (Z.eq_dec x (-1)) as [->|Hm1].
  { destruct (Nat.Even_or_Odd m) as [[k ->]|[k ->]].
    - replace ((-1) ^ Z.of_nat (2 * k)) with 1; [apply rep_small; exact HW|].
      rewrite Nat2Z.inj_mul, Z.pow_mul_r by lia. now rewrite Z.pow_1_l by lia.
    - replace ((-1) ^ Z.of_nat (2 * k + 1)) with (-1); [exact Hx|].
      rewrite Nat2Z.inj_add, Nat2Z.inj_mul, Z.pow_add_r, Z.pow_mul_r by lia.
      change ((-1) ^ Z.of_nat 2) with 1. rewrite Z.pow_1_l by lia. reflexivity. }
  assert (Ha : 2 <= Z.abs x) by lia.
  assert (E : Z.abs (x ^ Z.of_nat n) = Z.abs (x ^ Z.of_nat m) * Z.abs x ^ Z.of_nat (n - m)).
  { rewrite <- Z.abs_pow, <- Z.abs_mul, <- Z.pow_add_r by lia. do 2 f_equal. lia. }
  assert (H2 : 2 <= Z.abs x ^ Z.of_nat (n - m)).
  { replace (n - m)%nat with (S (n - m - 1)) by lia. rewrite Nat2Z.inj_succ, Z.pow_succ_r by lia.
    assert (0 < Z.abs x ^ Z.of_nat (n - m - 1)) by (apply Z.pow_pos_nonneg; lia). nia. }
  assert (H3 : 2 * Z.abs (x ^ Z.of_nat m) <= Z.abs (x ^ Z.of_nat n)) by nia.
  assert (Hh := half_pow _ Hpos). unfold Representable in *. destruct (signed T).
  - assert (0 < 2 ^ (bits T - 1)) by (apply Z.pow_pos_nonneg; lia). lia.
  - assert (0 <= x ^ Z.of_nat m) by (apply Z.pow_nonneg; lia). lia.
Qed.
Lemma pow_halves x n : x ^ Z.of_nat n =
  if Nat.eqb (Nat.modulo n 2) 0 then x ^ Z.of_nat (n / 2) * x ^ Z.of_nat (n / 2)
  else x ^ Z.of_nat (n / 2) * x ^ Z.of_nat (n / 2) * x.
Proof.
  assert (E := Nat.div_mod n 2 ltac:(lia)). assert (B := Nat.mod_upper_bound n 2 ltac:(lia)).
  destruct (Nat.eqb_spec (Nat.modulo n 2) 0) as [H0|H0].
  - rewrite <- Z.pow_add_r by lia. f_equal. lia.
  - rewrite <- Z.pow_add_r by lia. replace (Z.of_nat n) with (Z.succ (Z.of_nat (n / 2) + Z.of_nat (n / 2))) by lia.
    rewrite Z.pow_succ_r by lia. ring.
Qed.
Lemma pow_fuel_exact f x n : (n <= f)%nat -> (1 <= n)%nat -> Rep x -> Rep (x ^ Z.of_nat n) ->
  int_pow_fuel T f x n = Ok (x ^ Z.of_nat n).
Proof.
  revert n. induction f as [|f IH]; intros n Hnf H1 Hx Hn; [lia|]. cbn [int_pow_fuel].
  destruct (Nat.eqb_spec n 1) as [->|Hn1]; [now rewrite Z.pow_1_r|].
  assert (Hd : (1 <= n / 2)%nat) by (apply Nat.div_le_lower_bound; lia).
  assert (Hd' : (n / 2 < n)%nat) by (apply Nat.div_lt; lia).
  assert (Hd2 : (2 * (n / 2) <= n)%nat) by (apply Nat.mul_div_le; lia).
  assert (Ry : Rep (x ^ Z.of_nat (n / 2))) by (apply (rep_lower_power x _ n); auto; lia).
  rewrite IH by (auto; lia). cbn [obnd].
  assert (Rz : Rep (x ^ Z.of_nat (n / 2) * x ^ Z.of_nat (n / 2))).
  { rewrite <- Z.pow_add_r by lia. rewrite <- Nat2Z.inj_add. apply (rep_lower_power x _ n); auto; lia. }
  rewrite (store_exact T Z.mul) by auto. cbn [obnd]. rewrite (pow_halves x n).
  rewrite (pow_halves x n) in Hn.
  destruct (Nat.eqb (Nat.modulo n 2) 0); [reflexivity|]. now apply (store_exact T Z.mul).
Qed.
Lemma pow_exact x n : (1 <= n)%nat -> Rep x -> Rep (x ^ Z.of_nat n) -> int_pow T x n = Ok (x ^ Z.of_nat n).
Proof. apply pow_fuel_exact. lia. Qed.
(** every type but [unsigned short] and the signed types of at least the width of int *)
Definition ClosedProduct : Prop := (signed T = false /\ 32 <= bits T) \/ (signed T = true /\ bits T = 16) \/ bits T = 8.
Lemma closed_wrapping : ClosedProduct -> Wrapping T.
Proof. unfold ClosedProduct, Wrapping. intros [[H _]|[[_ H]|H]]; [now left | right; lia | right; lia]. Qed.
Lemma closed_mul a b : ClosedProduct -> Rep a -> Rep b -> store T (arith T T Z.mul a b) = Ok (conv T (a * b)).
Proof.
  intros HC Ha Hb. apply store_wraps; auto using closed_wrapping. intros Hb32.
  destruct HC as [[H1 H2]|[[H1 H2]|H2]]; [lia| |]; unfold Representable, Int in *; cbn [bits signed];
    rewrite H2 in *; [rewrite H1 in * | destruct (signed T)]; clear - Ha Hb; pows; nia.
Qed.
Lemma pow_fuel_wraps f x n : ClosedProduct -> (n <= f)%nat -> (1 <= n)%nat -> Rep x ->
  int_pow_fuel T f x n = Ok (conv T (x ^ Z.of_nat n)).
Proof.
  intros HC. revert n. induction f as [|f IH]; intros n Hnf H1 Hx; [lia|]. cbn [int_pow_fuel].
  destruct (Nat.eqb_spec n 1) as [->|Hn1]; [now rewrite Z.pow_1_r, conv_id|].
  assert (Hd : (1 <= n / 2)%nat) by (apply Nat.div_le_lower_bound; lia).
  assert (Hd' : (n / 2 < n)%nat) by (apply Nat.div_lt; lia).
  rewrite IH by (auto; lia). cbn [obnd].
  rewrite closed_mul by auto using conv_rep. cbn [obnd]. rewrite (pow_halves x n).
  destruct (Nat.eqb (Nat.modulo n 2) 0).
  - now rewrite conv_mul, conv_mul_r.
  - rewrite closed_mul by auto using conv_rep. rewrite conv_mul by exact Hpos.
    f_equal. apply conv_cong; [exact Hpos|].
    match goal with |- (_ | conv T ?y * _ * x - _) => assert (D := proj2 (conv_wraps T y Hpos)); set (c := conv T y) in *; set (z := y) in * end.
    replace (c * c * x - z * z * x) with ((c - z) * ((c + z) * x)) by ring. now apply Z.divide_mul_l.
Qed.
Lemma pow_wraps x n : ClosedProduct -> (1 <= n)%nat -> Rep x -> int_pow T x n = Ok (conv T (x ^ Z.of_nat n)).
Proof. intros HC. apply pow_fuel_wraps; [exact HC | lia]. Qed.
Lemma pow_fuel_overflow f x n : Wide -> (n <= f)%nat -> (1 <= n)%nat -> Rep x -> ~ Rep (x ^ Z.of_nat n) ->
  int_pow_fuel T f x n = UB.
Proof.
  intros [Hs Hb]. revert n. induction f as [|f IH]; intros n Hnf H1 Hx Hn; [lia|]. cbn [int_pow_fuel].
  destruct (Nat.eqb_spec n 1) as [->|Hn1]; [now rewrite Z.pow_1_r in Hn|].
  assert (Hd : (1 <= n / 2)%nat) by (apply Nat.div_le_lower_bound; lia).
  assert (Hd' : (n / 2 < n)%nat) by (apply Nat.div_lt; lia).
  destruct (fits_dec T (x ^ Z.of_nat (n / 2))) as [D|D].
  2:{ rewrite IH by (auto; lia). reflexivity. }
  rewrite pow_fuel_exact by (auto; lia). cbn [obnd]. rewrite (pow_halves x n) in Hn.
  destruct (fits_dec T (x ^ Z.of_nat (n / 2) * x ^ Z.of_nat (n / 2))) as [D2|D2].
  - rewrite (store_exact T Z.mul) by auto. cbn [obnd].
    destruct (Nat.eqb (Nat.modulo n 2) 0); [contradiction|]. now apply (store_overflow T Z.mul).
  - rewrite (store_overflow T Z.mul) by auto. reflexivity.
Qed.
Lemma pow_overflow x n : Wide -> (1 <= n)%nat -> Rep x -> ~ Rep (x ^ Z.of_nat n) -> int_pow T x n = UB.
Proof. intros Hw. apply pow_fuel_overflow; [exact Hw | lia]. Qed.

(** ** moment *)
Lemma SumOfPowers_snoc n xs x : SumOfPowers n (xs ++ [x]) = SumOfPowers n xs + x ^ Z.of_nat n.
Proof. unfold SumOfPowers. rewrite map_app. cbn [map]. apply Sum_snoc. Qed.
Lemma prefix_last (P : list Z -> Prop) xs : P [] -> AtEveryPrefix P xs -> P xs.
Proof. intros H0 H. destruct xs as [|x xs]; [exact H0|]. apply (H _ []); [now rewrite app_nil_r | discriminate]. Qed.
Lemma moment_exact n xs : (1 <= n)%nat -> Forall Rep xs -> Forall (fun x => Rep (x ^ Z.of_nat n)) xs ->
  AtEveryPrefix (fun p => Rep (SumOfPowers n p)) xs -> int_moment_sum T n xs = Ok (SumOfPowers n xs).
Proof.
  intros Hn. induction xs as [|x xs IH] using rev_ind; intros HF HQ HP; [reflexivity|].
  apply prefix_snoc in HP as [HP Hl]. apply Forall_app in HF as [HF Hx]. inversion Hx as [|? ? Hx' _]; subst.
  apply Forall_app in HQ as [HQ Hq]. inversion Hq as [|? ? Hq' _]; subst.
  unfold int_moment_sum in *. rewrite run_snoc, (IH HF HQ HP). cbn [obnd]. unfold int_moment_op.
  rewrite pow_exact by auto. cbn [obnd]. rewrite SumOfPowers_snoc in *. apply store_exact; auto.
  apply (prefix_last (fun p => Rep (SumOfPowers n p))); [apply rep_small; exact HW | exact HP].
Qed.
Lemma moment_wraps n xs : ClosedProduct -> (1 <= n)%nat -> Forall Rep xs ->
  int_moment_sum T n xs = Ok (conv T (SumOfPowers n xs)).
Proof.
  intros HC Hn. induction xs as [|x xs IH] using rev_ind; intros HF.
  - cbn. rewrite conv_id; [reflexivity | exact Hpos | apply rep_small; exact HW].
  - apply Forall_app in HF as [HF Hx]. inversion Hx as [|? ? Hx' _]; subst.
    unfold int_moment_sum in *. rewrite run_snoc, (IH HF). cbn [obnd]. unfold int_moment_op.
    rewrite pow_wraps by auto. cbn [obnd]. rewrite SumOfPowers_snoc.
    rewrite store_wraps; auto using conv_rep, closed_wrapping.
    + now rewrite conv_add, conv_add_r.
    + intros Hb. apply (narrow_add T); auto using conv_rep.
Qed.
Lemma moment_overflow n xs : Wide -> (1 <= n)%nat -> Forall Rep xs ->
  ~ (Forall (fun x => Rep (x ^ Z.of_nat n)) xs /\ AtEveryPrefix (fun p => Rep (SumOfPowers n p)) xs) ->
  int_moment_sum T n xs = UB.
Proof.
  intros Hwide Hn. induction xs as [|x xs IH] using rev_ind; intros HF HP.
  { exfalso. apply HP. split; [constructor | apply prefix_nil]. }
  rewrite prefix_snoc, Forall_app in HP.
  apply Forall_app in HF as [HF Hx]. inversion Hx as [|? ? Hx' _]; subst.
  unfold int_moment_sum in *. rewrite run_snoc.
  destruct (Forall_dec _ (fun x => fits_dec T (x ^ Z.of_nat n)) xs) as [D1|D1]; [|now rewrite IH by tauto].
  destruct (prefix_dec _ (fun l => fits_dec T (SumOfPowers n l)) xs) as [D|D]; [|now rewrite IH by tauto].
  assert (E := moment_exact n xs Hn HF D1 D). unfold int_moment_sum in E. rewrite E. cbn [obnd]. unfold int_moment_op.
  destruct (fits_dec T (x ^ Z.of_nat n)) as [D2|D2].
  - rewrite pow_exact by auto. cbn [obnd]. apply store_overflow; try tauto.
    + apply (prefix_last (fun p => Rep (SumOfPowers n p))); [apply rep_small; exact HW | exact D].
    + rewrite <- SumOfPowers_snoc. intros C. apply HP. repeat split; auto.
  - rewrite pow_overflow by auto. reflexivity.
Qed.
End Typed.
