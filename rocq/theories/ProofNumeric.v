(** The numeric helpers. *)
From Coq Require Import List ZArith QArith Qcanon Bool Lia Field.
From Verif Require Import Num NumFacts SpecVector ModelPSquare ModelMinMax ModelVector ModelNumeric ProofMinMax ProofVector ProofVector2.
Import ListNotations.
Open Scope nat_scope.

Section Laws.
Variable K : Num.
Hypothesis HO : OrderedLaws K.
Local Notation T := (car K).
Let HK := ord_field K HO.
Add Field Kf : (fl_field K HK).

Lemma square_nonneg (x : T) : ltb K (mul K x x) (zero K) = false.
Proof.
  destruct (ltb K (zero K) x) eqn:E1.
  - pose proof (ord_mul K HO x x E1 E1) as H. destruct (ltb K (mul K x x) (zero K)) eqn:E; auto.
    pose proof (ord_trans K HO _ _ _ H E) as H'. now rewrite (ord_irrefl K HO) in H'.
  - destruct (ltb K x (zero K)) eqn:E2.
    + pose proof (ord_add K HO x (zero K) (opp K x) E2) as H.
      replace (add K x (opp K x)) with (zero K) in H by ring.
      replace (add K (zero K) (opp K x)) with (opp K x) in H by ring.
      pose proof (ord_mul K HO _ _ H H) as H2. replace (mul K (opp K x) (opp K x)) with (mul K x x) in H2 by ring.
      destruct (ltb K (mul K x x) (zero K)) eqn:E; auto.
      pose proof (ord_trans K HO _ _ _ H2 E) as H'. now rewrite (ord_irrefl K HO) in H'.
    + rewrite (ord_total K HO _ _ E2 E1). replace (mul K (zero K) (zero K)) with (zero K) by ring. apply (ord_irrefl K HO).
Qed.
Lemma square_pos (x : T) : x <> zero K -> ltb K (zero K) (mul K x x) = true.
Proof.
  intros H. destruct (ltb K (zero K) (mul K x x)) eqn:E; auto.
  exfalso. pose proof (ord_total K HO _ _ E (square_nonneg x)) as E'.
  apply H. assert (HF : mul K x (div K x x) = x) by (field; auto).
  rewrite <- HF. replace (mul K x (div K x x)) with (div K (mul K x x) x) by (field; auto). rewrite <- E'. field. auto.
Qed.
Lemma cnorm_nonzero (a : T * T) : a <> zero_complex K -> cnorm K a <> zero K.
Proof.
  destruct a as [x y]. unfold zero_complex, cnorm. cbn [fst snd]. intros H E.
  assert (Hx : {x = zero K} + {x <> zero K}).
  { destruct (ltb K x (zero K)) eqn:E1; [right; intros ->; now rewrite (ord_irrefl K HO) in E1|].
    destruct (ltb K (zero K) x) eqn:E2; [right; intros ->; now rewrite (ord_irrefl K HO) in E2|].
    left. now apply (ord_total K HO). }
  destruct Hx as [->|Hx].
  - assert (Hy : y <> zero K) by congruence.
    pose proof (square_pos y Hy) as P. replace (mul K y y) with (zero K) in P; [now rewrite (ord_irrefl K HO) in P|].
    rewrite <- E. ring.
  - pose proof (square_pos x Hx) as P. apply (ord_add K HO _ _ (mul K y y)) in P. rewrite E in P.
    replace (add K (zero K) (mul K y y)) with (mul K y y) in P by ring. now rewrite square_nonneg in P.
Qed.
Lemma cof_nat n : ofnat (ComplexN K) n = (ofnat K n, zero K).
Proof. induction n as [|n IH]; [reflexivity|]. cbn [ofnat] in *. rewrite IH. unfold ComplexN, cadd. cbn. f_equal; ring. Qed.
Lemma complex_field : FieldLaws (ComplexN K).
Proof.
  split.
  - constructor.
    + constructor; intros; cbn; unfold cadd, cmul, csub, copp, zero_complex; cbn; f_equal; try ring; try (destruct x; cbn; f_equal; ring).
    + cbn. unfold zero_complex. intros E. injection E as E. exact (F_1_neq_0 (fl_field K HK) E).
    + intros p q. reflexivity.
    + intros p Hp. pose proof (cnorm_nonzero p Hp) as Hn. destruct p as [x y]. cbn. unfold cmul, cinv, cnorm in *. cbn [fst snd] in *.
      f_equal; field; exact Hn.
  - intros n. rewrite cof_nat. cbn. unfold zero_complex. intros E. injection E as E. exact (fl_char0 K HK n E).
Qed.

Lemma of_Z_nonzero b : b <> 0%Z -> of_Z K b <> zero K.
Proof.
  intros Hb. destruct b as [|p|p]; [congruence| |]; cbn [of_Z]; destruct (Pos2Nat.is_succ p) as [n ->].
  - apply (fl_char0 K HK).
  - intros E. apply (fl_char0 K HK n).
    replace (ofnat K (S n)) with (opp K (opp K (ofnat K (S n)))) by ring. rewrite E. ring.
Qed.
Lemma of_Z_of_nat n : of_Z K (Z.of_nat n) = ofnat K n.
Proof. destruct n as [|n]; [reflexivity|]. cbn [Z.of_nat of_Z]. now rewrite SuccNat2Pos.id_succ. Qed.
Lemma fdiv_exact a b : b <> 0%Z -> mul K (fdiv_int K a b) (of_Z K b) = of_Z K a.
Proof. intros Hb. unfold fdiv_int. field. now apply of_Z_nonzero. Qed.
Lemma fdiv_vec_exact v b : b <> 0%Z -> vmuls K (fdiv_vec_int K v b) (of_Z K b) = map (of_Z K) v.
Proof.
  intros Hb. unfold vmuls, fdiv_vec_int. rewrite map_map. apply map_ext. intros a. now apply (fdiv_exact a b).
Qed.
Lemma fdiv_float_exact (a b : T) : b <> zero K -> mul K (fdiv_float K a b) b = a.
Proof. intros Hb. unfold fdiv_float. field. auto. Qed.
Lemma fdiv_mixed_exact (a : T) b : b <> 0%Z -> mul K (fdiv_mixed K a b) (of_Z K b) = a.
Proof. intros Hb. unfold fdiv_mixed. field. now apply of_Z_nonzero. Qed.
Lemma fdiv_all :
  (forall a b, b <> 0%Z -> mul K (fdiv_int K a b) (of_Z K b) = of_Z K a)
  /\ (forall a b : T, b <> zero K -> mul K (fdiv_float K a b) b = a)
  /\ (forall (a : T) b, b <> 0%Z -> mul K (fdiv_mixed K a b) (of_Z K b) = a)
  /\ (forall v b, b <> 0%Z -> vmuls K (fdiv_vec_int K v b) (of_Z K b) = map (of_Z K) v)
  /\ (forall b, b <> 0%Z -> of_Z K b <> zero K).
Proof. exact (conj fdiv_exact (conj fdiv_float_exact (conj fdiv_mixed_exact (conj fdiv_vec_exact of_Z_nonzero)))). Qed.

Lemma identities_scalar :
  (forall n : Z, (n + zero_int = n)%Z /\ (zero_int + n = n)%Z /\ (n * one_int = n)%Z /\ (one_int * n = n)%Z)
  /\ (forall x : T, add K x (zero_float K) = x /\ add K (zero_float K) x = x
                    /\ mul K x (one_float K) = x /\ mul K (one_float K) x = x)
  /\ (forall c : T * T, cadd K c (zero_complex K) = c /\ cadd K (zero_complex K) c = c).
Proof.
  unfold zero_int, one_int, zero_float, one_float. repeat split; try lia; try ring;
    destruct c as [x y]; unfold cadd; cbn; f_equal; ring.
Qed.
Lemma vzip_repeat op (e : T) v : (forall a, op a e = a) -> vzip K op v (repeat e (length v)) = Ok v.
Proof. intros H. induction v as [|a v IH]; cbn; auto. now rewrite IH, H. Qed.
Lemma repeat_vzip op (e : T) v : (forall a, op e a = a) -> vzip K op (repeat e (length v)) v = Ok v.
Proof. intros H. induction v as [|a v IH]; cbn; auto. now rewrite IH, H. Qed.
Lemma identities_vector v :
  vzip K (add K) v (as_zero_vec K v) = Ok v /\ vzip K (add K) (as_zero_vec K v) v = Ok v
  /\ vplus_assign K v (as_zero_vec K v) = Ok v
  /\ vzip K (mul K) v (as_one_vec K v) = Ok v /\ vzip K (mul K) (as_one_vec K v) v = Ok v.
Proof.
  unfold as_zero_vec, as_one_vec. repeat split.
  - apply vzip_repeat. intros; ring.
  - apply repeat_vzip. intros; ring.
  - unfold vplus_assign. rewrite repeat_length, Nat.eqb_refl. apply vzip_repeat. intros; ring.
  - apply vzip_repeat. intros; ring.
  - apply repeat_vzip. intros; ring.
Qed.
Lemma zero_one_vec v : v <> [] ->
  vzip K (add K) (zero_vec K) v <> Ok v /\ vzip K (add K) v (zero_vec K) = UB /\ vplus_assign K v (zero_vec K) = UB
  /\ ((forall a, v <> [a]) -> vzip K (mul K) v (one_vec K) <> Ok v)
  /\ (forall a, a <> zero K -> vzip K (mul K) [a] (one_vec K) <> Ok [a]).
Proof.
  intros Hv. destruct v as [|a v]; [congruence|]. repeat split.
  - discriminate.
  - intros H. destruct v as [|b v]; [exfalso; now apply (H a)|]. discriminate.
  - intros b Hb E. cbn in E. injection E as E. apply Hb. rewrite <- E. ring.
Qed.
Lemma one_complex_wrong c : c <> zero_complex K -> cmul K c (one_complex K) <> c /\ cmul K (one_complex K) c <> c.
Proof.
  destruct c as [x y]. unfold cmul, one_complex, zero_complex. cbn [fst snd]. intros H. split; intros E; apply H; injection E as E1 E2.
  - assert (Hy : y = zero K).
    { replace y with (sub K x (sub K (mul K x (one K)) (mul K y (one K)))) by ring. rewrite E1. ring. }
    assert (Hx : x = zero K).
    { replace x with (sub K (add K (mul K x (one K)) (mul K y (one K))) y) by ring. rewrite E2. ring. }
    congruence.
  - assert (Hy : y = zero K).
    { replace y with (sub K x (sub K (mul K (one K) x) (mul K (one K) y))) by ring. rewrite E1. ring. }
    assert (Hx : x = zero K).
    { replace x with (sub K (add K (mul K (one K) y) (mul K (one K) x)) y) by ring. rewrite E2. ring. }
    congruence.
Qed.
Lemma complex_weighted_sum_wrong s0 : s0 <> zero_complex K -> complex_weighted_sum_run K s0 [] <> s0.
Proof. intros H. cbn. now apply one_complex_wrong. Qed.
Lemma complex_weighted_sum_ok h :
  complex_weighted_sum_run K (zero_complex K) h
  = fold_right (fun p acc => cadd K (cmul K (fst p) (snd p)) acc) (zero_complex K) h.
Proof.
  unfold complex_weighted_sum_run.
  assert (E : forall a, fold_left (fun s p => cadd K s (cmul K (fst p) (snd p))) h a
     = cadd K a (fold_right (fun p acc => cadd K (cmul K (fst p) (snd p)) acc) (zero_complex K) h)).
  { induction h as [|p h IH]; intros [x y]; cbn [fold_left fold_right].
    - unfold cadd, zero_complex. cbn. f_equal; ring.
    - rewrite IH. unfold cadd. cbn. f_equal; ring. }
  rewrite E. unfold cadd, cmul, zero_complex, one_complex. cbn. destruct (fold_right _ _ h) as [x y] eqn:E'. cbn. f_equal; ring.
Qed.
Lemma complex_scalar_ops c n : n <> 0 ->
  cdiv_scalar K c (Z.of_nat n) = div (ComplexN K) c (ofnat (ComplexN K) n)
  /\ cmul_scalar K c (Z.of_nat n) = mul (ComplexN K) c (ofnat (ComplexN K) n).
Proof.
  intros Hn. rewrite cof_nat. destruct c as [x y]. unfold cdiv_scalar, cmul_scalar. rewrite of_Z_of_nat.
  destruct n as [|n]; [congruence|]. pose proof (fl_char0 K HK n) as H. set (k := ofnat K (S n)) in *.
  cbn. unfold cdiv, cmul, cinv, cnorm. cbn [fst snd]. split; f_equal; try ring; field; auto;
    repeat split; auto; intros E; apply H.
  all: assert (E2 : mul K k k = zero K) by (rewrite <- E; ring);
    replace k with (div K (mul K k k) k) by (field; auto); rewrite E2; field; auto.
Qed.
Lemma complex_total {A} (f : A -> T * T) l :
  SpecStats.total (ComplexN K) f l = (SpecStats.total K (fun a => fst (f a)) l, SpecStats.total K (fun a => snd (f a)) l).
Proof. unfold SpecStats.total. induction l as [|a l IH]; [reflexivity|]. cbn [fold_right]. rewrite IH. reflexivity. Qed.
Lemma complex_mean (xs : list (T * T)) : xs <> [] ->
  SpecStats.Mean (ComplexN K) xs = (SpecStats.Mean K (map fst xs), SpecStats.Mean K (map snd xs)).
Proof.
  intros Hne. unfold SpecStats.Mean, SpecStats.average. rewrite complex_total, !map_length.
  assert (Hn : length xs <> 0) by (destruct xs; [congruence|discriminate]).
  rewrite <- (proj1 (complex_scalar_ops _ _ Hn)). unfold cdiv_scalar. rewrite of_Z_of_nat. cbn [fst snd].
  f_equal; f_equal; unfold SpecStats.total; clear; induction xs as [|a xs IH]; cbn [map fold_right]; congruence.
Qed.
End Laws.

Lemma fdiv_vectors_truncate : exists (l r : list Z) (q : list Z), length l = length r /\ Forall (fun b => b <> 0%Z) r /\
  fdiv_vec_vec l r = Ok q /\
  map (fun p => mul QcN (of_Z QcN (fst p)) (of_Z QcN (snd p))) (combine q r) <> map (of_Z QcN) l.
Proof.
  exists [7%Z], [2%Z], [3%Z]. split; [reflexivity|]. split; [repeat constructor; discriminate|]. split; [reflexivity|].
  cbn [combine map fst snd]. intros E. apply (f_equal (fun l => this (hd 0%Qc l))) in E. revert E. vm_compute. discriminate.
Qed.

(** min_assign, max_assign *)
Lemma assign_min_max (L : Limits) : OrderLaws L -> forall a b : lcar L,
  (min_assign L a b = a \/ min_assign L a b = b) /\ lltb L a (min_assign L a b) = false /\ lltb L b (min_assign L a b) = false
  /\ (max_assign L a b = a \/ max_assign L a b = b) /\ lltb L (max_assign L a b) a = false /\ lltb L (max_assign L a b) b = false.
Proof.
  intros HL a b. unfold min_assign, max_assign. destruct HL as [Hi Ht Htot].
  assert (Has : forall x y, lltb L x y = true -> lltb L y x = false).
  { intros x y H. destruct (lltb L y x) eqn:E; auto. rewrite <- (Hi x). symmetry. now apply (Ht x y x). }
  destruct (lltb L b a) eqn:E1, (lltb L a b) eqn:E2; repeat split; auto.
  all: try (apply Has in E1; congruence).
Qed.

Lemma divides_spec : forall a b : Z,
  (b = 0%Z <-> divides_int a b = UB)
  /\ (b <> 0%Z -> exists q, divides_int a b = Ok q /\ (Z.abs (a - q * b) < Z.abs b)%Z /\ (Z.abs (q * b) <= Z.abs a)%Z).
Proof.
  intros a b; unfold divides_int; destruct (Z.eqb_spec b 0) as [-> | Hb].
  - split; [tauto | congruence].
  - split; [split; [congruence | discriminate] |]; intros _; exists (Z.quot a b); split; [reflexivity |].
    pose proof (Z.quot_rem' a b) as E; pose proof (Z.rem_bound_abs a b Hb) as B.
    split; [replace (a - Z.quot a b * b)%Z with (Z.rem a b) by lia; exact B |].
    rewrite Z.abs_mul, <- Z.quot_abs, Z.mul_comm by exact Hb.
    apply Z.mul_quot_le; [apply Z.abs_nonneg | lia].
Qed.
