(** Property theorems C04, and C02 for machine integers. *)
From Coq Require Import List ZArith Bool Permutation Lia.
From Verif Require Import Num ModelMinMax ProofMinMax.
Import ListNotations.

(** ** C04.  It suffices that one sample is not beyond the largest (lowest) value of the
    type, which always holds for integers. *)
Theorem C04_min : forall (L : Limits), OrderLaws L -> forall xs : list (lcar L),
  (exists x, In x xs /\ lltb L (highest L) x = false) ->
  In (min_run L xs) xs /\ (forall x, In x xs -> lltb L x (min_run L xs) = false).
Proof. exact min_run_spec. Qed.
Print Assumptions C04_min.
Theorem C04_max : forall (L : Limits), OrderLaws L -> forall xs : list (lcar L),
  (exists x, In x xs /\ lltb L x (lowest L) = false) ->
  In (max_run L xs) xs /\ (forall x, In x xs -> lltb L (max_run L xs) x = false).
Proof. exact max_run_spec. Qed.
Print Assumptions C04_max.
Theorem C04_empty : forall (L : Limits), min_run L [] = highest L /\ max_run L [] = lowest L.
Proof. exact (fun L => conj eq_refl eq_refl). Qed.
Print Assumptions C04_empty.
Theorem C04_int_order : forall w : Z, OrderLaws (IntL w).
Proof. exact IntL_laws. Qed.
Theorem C04_float_order : forall m : Z, OrderLaws (FloatL m).
Proof. exact FloatL_laws. Qed.
Theorem C11_min_any_order : forall (L : Limits), OrderLaws L -> forall xs ys : list (lcar L),
  Permutation xs ys -> min_run L xs = min_run L ys.
Proof. exact min_run_perm. Qed.
Print Assumptions C11_min_any_order.
Theorem C11_max_any_order : forall (L : Limits), OrderLaws L -> forall xs ys : list (lcar L),
  Permutation xs ys -> max_run L xs = max_run L ys.
Proof. exact max_run_perm. Qed.
Print Assumptions C11_max_any_order.
(** Finding: with infinite samples the initial finite limit wins. *)
Theorem C04_infinite_samples_refuted : forall m : Z, exists xs : list xval, xs <> [] /\
  ~ In (min_run (FloatL m) xs) xs /\ exists ys : list xval, ys <> [] /\ ~ In (max_run (FloatL m) ys) ys.
Proof.
  exact infinite_samples.
Qed.
Print Assumptions C04_infinite_samples_refuted.
Example C04_ex : min_run (IntL 32) [3; -7; 5]%Z = (-7)%Z /\ max_run (IntL 32) [3; -7; 5]%Z = 5%Z
  /\ (exists x, In x [3; -7; 5]%Z /\ lltb (IntL 32) (highest (IntL 32)) x = false).
Proof. split; [reflexivity|]. split; [reflexivity|]. exists 3%Z. split; [left|]; reflexivity. Qed.

(** ** C02, machine integers *)
Theorem C02_signed_sum_in_range : forall (w s0 : Z) (xs : list Z),
  (forall p q, xs = p ++ q -> p <> [] -> (- 2 ^ (w - 1) <= s0 + Ztotal p < 2 ^ (w - 1))%Z) ->
  isum_run w s0 xs = Ok (s0 + Ztotal xs)%Z.
Proof. exact isum_run_ok'. Qed.
Print Assumptions C02_signed_sum_in_range.
Theorem C02_signed_sum_overflow : forall (w s0 : Z) (xs p q : list Z),
  xs = p ++ q -> p <> [] -> ~ (- 2 ^ (w - 1) <= s0 + Ztotal p < 2 ^ (w - 1))%Z ->
  isum_run w s0 xs = UB.
Proof. exact isum_run_bad'. Qed.
Print Assumptions C02_signed_sum_overflow.
Theorem C02_unsigned_sum : forall (w s0 : Z) (xs : list Z), (0 <= w)%Z -> (0 <= s0 < 2 ^ w)%Z ->
  usum_run w s0 xs = ((s0 + Ztotal xs) mod 2 ^ w)%Z.
Proof. exact usum_run_spec. Qed.
Print Assumptions C02_unsigned_sum.
Example C02_int_ex : isum_run 32 0 [2147483647; -5; 5]%Z = Ok 2147483647%Z
  /\ isum_run 32 0 [2147483647; 5; -5]%Z = UB /\ usum_run 8 250 [10; 3]%Z = 7%Z.
Proof. repeat split; vm_compute; reflexivity. Qed.
