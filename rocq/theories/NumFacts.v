(** Facts about the numeric instances. *)
From Coq Require Import List Arith ZArith QArith Qcanon Field Reals Lia Lqa Lra Psatz.
From Verif Require Import Num.
Import ListNotations.

Lemma Qcltb_lt x y : Qcltb x y = true <-> (x < y)%Qc.
Proof.
  unfold Qcltb, Qclt. rewrite Bool.negb_true_iff. split.
  - intro H. apply Qnot_le_lt. intro C. apply Qle_bool_iff in C. congruence.
  - intro H. destruct (Qle_bool y x) eqn:E; auto.
    apply Qle_bool_iff in E. exfalso. apply (Qlt_not_le _ _ H E).
Qed.

Lemma Qcltb_ge x y : Qcltb x y = false <-> (y <= x)%Qc.
Proof.
  unfold Qcltb, Qcle. rewrite Bool.negb_false_iff. apply Qle_bool_iff.
Qed.

Lemma Qcltb_spec x y : Bool.reflect (x < y)%Qc (Qcltb x y).
Proof.
  destruct (Qcltb x y) eqn:E; constructor.
  - apply Qcltb_lt; auto.
  - apply Qcltb_ge in E. intro C. exact (Qcle_not_lt _ _ E C).
Qed.

(** Bridge from Qc to Q for [lra]/[nra]. *)
Lemma Qc_eq_iff (x y : Qc) : x = y <-> (this x == this y)%Q.
Proof. split; [intros ->; reflexivity | apply Qc_is_canon]. Qed.

Lemma this_Q2Qc q : (this (Q2Qc q) == q)%Q.
Proof. unfold Q2Qc, this. apply Qred_correct. Qed.

Class QRep (x : Qc) (q : Q) : Prop := qrep : (this x == q)%Q.

Lemma QRep_add x y p q : QRep x p -> QRep y q -> QRep (x + y)%Qc (p + q)%Q.
Proof. unfold QRep, Qcplus; intros Hx Hy. rewrite this_Q2Qc, Hx, Hy. reflexivity. Qed.
Lemma QRep_mul x y p q : QRep x p -> QRep y q -> QRep (x * y)%Qc (p * q)%Q.
Proof. unfold QRep, Qcmult; intros Hx Hy. rewrite this_Q2Qc, Hx, Hy. reflexivity. Qed.
Lemma QRep_opp x p : QRep x p -> QRep (- x)%Qc (- p)%Q.
Proof. unfold QRep, Qcopp; intros Hx. rewrite this_Q2Qc, Hx. reflexivity. Qed.
Lemma QRep_sub x y p q : QRep x p -> QRep y q -> QRep (x - y)%Qc (p - q)%Q.
Proof. unfold Qcminus, Qminus; intros Hx Hy. apply QRep_add; auto using QRep_opp. Qed.
Lemma QRep_inv x p : QRep x p -> QRep (/ x)%Qc (/ p)%Q.
Proof. unfold QRep, Qcinv; intros Hx. rewrite this_Q2Qc, Hx. reflexivity. Qed.
Lemma QRep_div x y p q : QRep x p -> QRep y q -> QRep (x / y)%Qc (p / q)%Q.
Proof. unfold Qcdiv, Qdiv; intros Hx Hy. apply QRep_mul; auto using QRep_inv. Qed.
Lemma QRep_Q2Qc q : QRep (Q2Qc q) q.
Proof. apply this_Q2Qc. Qed.
Lemma QRep_0 : QRep 0%Qc 0%Q.
Proof. reflexivity. Qed.
Lemma QRep_1 : QRep 1%Qc 1%Q.
Proof. reflexivity. Qed.
Lemma QRep_atom x : QRep x (this x) .
Proof. reflexivity. Qed.

Ltac qrep_solve :=
  lazymatch goal with
  | |- QRep (Qcplus _ _) _ => apply QRep_add; qrep_solve
  | |- QRep (Qcmult _ _) _ => apply QRep_mul; qrep_solve
  | |- QRep (Qcminus _ _) _ => apply QRep_sub; qrep_solve
  | |- QRep (Qcopp _) _ => apply QRep_opp; qrep_solve
  | |- QRep (Qcdiv _ _) _ => apply QRep_div; qrep_solve
  | |- QRep (Qcinv _) _ => apply QRep_inv; qrep_solve
  | |- QRep 0%Qc _ => exact QRep_0
  | |- QRep 1%Qc _ => exact QRep_1
  | |- QRep (Q2Qc _) _ => apply QRep_Q2Qc
  | |- QRep _ _ => apply QRep_atom
  end.
#[export] Hint Extern 0 (QRep _ _) => qrep_solve : typeclass_instances.

Lemma QRep_lt x y p q : QRep x p -> QRep y q -> ((x < y)%Qc <-> (p < q)%Q).
Proof. unfold QRep, Qclt. intros -> ->. reflexivity. Qed.
Lemma QRep_le x y p q : QRep x p -> QRep y q -> ((x <= y)%Qc <-> (p <= q)%Q).
Proof. unfold QRep, Qcle. intros -> ->. reflexivity. Qed.
Lemma QRep_eq x y p q : QRep x p -> QRep y q -> (x = y <-> (p == q)%Q).
Proof. unfold QRep. intros Hx Hy. rewrite Qc_eq_iff, Hx, Hy. reflexivity. Qed.

(** Turn every Qc (in)equation of the context and the goal into one over Q. *)
Ltac qc_prep :=
  repeat match goal with
  | H : Qcltb _ _ = true |- _ => apply Qcltb_lt in H
  | H : Qcltb _ _ = false |- _ => apply Qcltb_ge in H
  | H : (_ /\ _)%Qc |- _ => destruct H
  end.

Ltac qc_hyps :=
  repeat match goal with
  | H : Qclt ?x ?y |- _ => apply (proj1 (QRep_lt x y _ _ _ _)) in H
  | H : Qcle ?x ?y |- _ => apply (proj1 (QRep_le x y _ _ _ _)) in H
  | H : @eq Qc ?x ?y |- _ => apply (proj1 (QRep_eq x y _ _ _ _)) in H
  | H : ~ Qclt ?x ?y |- _ => rewrite (QRep_lt x y _ _ _ _) in H
  | H : ~ Qcle ?x ?y |- _ => rewrite (QRep_le x y _ _ _ _) in H
  end.

Ltac qc_goal :=
  match goal with
  | |- Qclt ?x ?y => apply (proj2 (QRep_lt x y _ _ _ _))
  | |- Qcle ?x ?y => apply (proj2 (QRep_le x y _ _ _ _))
  | |- @eq Qc ?x ?y => apply (proj2 (QRep_eq x y _ _ _ _))
  | |- ~ @eq Qc ?x ?y => intro
  | |- ~ Qclt ?x ?y => intro
  | |- ~ Qcle ?x ?y => intro
  | |- _ => idtac
  end.

Ltac qc_all := intros; qc_prep; qc_goal; qc_hyps; unfold Qdiv in *; cbn [Qinv Qnum Qden inject_Z] in *.
Ltac qlra := qc_all; Lqa.lra.
Ltac qnra := qc_all; Lqa.nra.

Lemma qlra_test1 (x y z : Qc) : (x < y -> y <= z -> x + 1 < z + 1)%Qc.
Proof. qlra. Qed.
Lemma qlra_test2 (x y z : Qc) : (x < y -> y <= z -> x <> z)%Qc.
Proof. qlra. Qed.
Lemma qlra_test3 (x y z : Qc) : (0 < x -> 0 < y -> 0 < x * y / Q2Qc 2)%Qc.
Proof. qnra. Qed.

(** ** Fields *)
Lemma QcN_field : FieldLaws QcN.
Proof.
  assert (Hf : field_theory (zero QcN) (one QcN) (add QcN) (mul QcN) (sub QcN) (opp QcN)
                          (div QcN) (inv QcN) (@eq (car QcN))) by exact Qcft.
  assert (Hpos : forall n, (0 <= ofnat QcN n)%Qc).
  { induction n as [|n IH]; cbn [ofnat QcN zero add one] in *; qlra. }
  constructor; [exact Hf|].
  intros n. specialize (Hpos n). cbn [ofnat QcN zero add one car] in *.
  generalize dependent (ofnat QcN n). cbn [car QcN]. qlra.
Qed.

Lemma RN_field : FieldLaws RN.
Proof.
  assert (Hpos : forall n, (0 <= ofnat RN n)%R).
  { induction n as [|n IH]; cbn [ofnat RN zero add one] in *; Lra.lra. }
  constructor.
  - exact Rfield.
  - intros n. specialize (Hpos n). cbn [ofnat RN zero add one car] in *. Lra.lra.
Qed.

Lemma QcN_ordered : OrderedLaws QcN.
Proof.
  constructor; [exact QcN_field| | | | |]; cbn [ltb QcN car add mul zero]; intros.
  - apply Qcltb_ge. apply Qcle_refl.
  - apply Qcltb_lt. qlra.
  - qlra.
  - apply Qcltb_lt. qlra.
  - apply Qcltb_lt. qnra.
Qed.

Lemma Rltb_lt x y : Rltb x y = true <-> (x < y)%R.
Proof. unfold Rltb. destruct (Rlt_dec x y); split; intros; auto; discriminate. Qed.
Lemma Rltb_ge x y : Rltb x y = false <-> (y <= x)%R.
Proof.
  unfold Rltb. destruct (Rlt_dec x y) as [H|H]; split; intros H'; auto; try discriminate.
  - exfalso. Lra.lra.
  - Lra.lra.
Qed.

Lemma RN_ordered : OrderedLaws RN.
Proof.
  constructor; [exact RN_field| | | | |]; cbn [ltb RN car add mul zero]; intros;
    repeat match goal with
    | H : Rltb _ _ = true |- _ => apply Rltb_lt in H
    | H : Rltb _ _ = false |- _ => apply Rltb_ge in H
    end; try apply Rltb_lt; try apply Rltb_ge.
  - Lra.lra.
  - Lra.lra.
  - Lra.lra.
  - Lra.lra.
  - apply Rmult_lt_0_compat; assumption.
Qed.
