(** Property theorems C47 (numeric helpers). *)
From Coq Require Import List ZArith QArith Qcanon.
From Verif Require Import Num NumFacts SpecStats SpecVector ModelPSquare ModelMinMax ModelVector ModelNumeric
  ProofMinMax ProofVector ProofVector2 ProofNumeric.
Import ListNotations.
Open Scope nat_scope.

(** zero and one: identities for integers and floating types; zero for complex numbers. *)
Theorem C47_identities : forall (K : Num), OrderedLaws K ->
  (forall n : Z, (n + zero_int = n)%Z /\ (zero_int + n = n)%Z /\ (n * one_int = n)%Z /\ (one_int * n = n)%Z)
  /\ (forall x : car K, add K x (zero_float K) = x /\ add K (zero_float K) x = x
                        /\ mul K x (one_float K) = x /\ mul K (one_float K) x = x)
  /\ (forall c : car K * car K, cadd K c (zero_complex K) = c /\ cadd K (zero_complex K) c = c).
Proof. exact identities_scalar. Qed.
Print Assumptions C47_identities.
(** as_zero and as_one of a vector *)
Theorem C47_vector_identities : forall (K : Num), OrderedLaws K -> forall v : list (car K),
  vzip K (add K) v (as_zero_vec K v) = Ok v /\ vzip K (add K) (as_zero_vec K v) v = Ok v
  /\ vplus_assign K v (as_zero_vec K v) = Ok v
  /\ vzip K (mul K) v (as_one_vec K v) = Ok v /\ vzip K (mul K) (as_one_vec K v) v = Ok v.
Proof. exact identities_vector. Qed.
Print Assumptions C47_vector_identities.
(** Finding: one<complex> is 1 + i: it is an identity for no number but 0.  A weighted sum with complex
    weights therefore starts with the wrong value, except at 0. *)
Theorem C47_complex_one_refuted : forall (K : Num), OrderedLaws K -> forall c : car K * car K, c <> zero_complex K ->
  cmul K c (one_complex K) <> c /\ cmul K (one_complex K) c <> c.
Proof. exact one_complex_wrong. Qed.
Print Assumptions C47_complex_one_refuted.
Theorem C47_complex_weighted_sum_refuted : forall (K : Num), OrderedLaws K -> forall s0 : car K * car K,
  s0 <> zero_complex K -> complex_weighted_sum_run K s0 [] <> s0.
Proof. exact complex_weighted_sum_wrong. Qed.
Print Assumptions C47_complex_weighted_sum_refuted.
Theorem C47_complex_weighted_sum : forall (K : Num), OrderedLaws K -> forall h : list ((car K * car K) * (car K * car K)),
  complex_weighted_sum_run K (zero_complex K) h
  = fold_right (fun p acc => cadd K (cmul K (fst p) (snd p)) acc) (zero_complex K) h.
Proof. exact complex_weighted_sum_ok. Qed.
Print Assumptions C47_complex_weighted_sum.
(** Finding: zero<vector> is the empty vector and one<vector> the vector (0): no identities (as_zero and
    as_one are). *)
Theorem C47_vector_constants_refuted : forall (K : Num), OrderedLaws K -> forall v : list (car K), v <> [] ->
  vzip K (add K) (zero_vec K) v <> Ok v /\ vzip K (add K) v (zero_vec K) = UB /\ vplus_assign K v (zero_vec K) = UB
  /\ ((forall a, v <> [a]) -> vzip K (mul K) v (one_vec K) <> Ok v)
  /\ (forall a, a <> zero K -> vzip K (mul K) [a] (one_vec K) <> Ok [a]).
Proof. exact zero_one_vec. Qed.
Print Assumptions C47_vector_constants_refuted.

(** min_assign and max_assign leave the smaller (larger) of the two values. *)
Theorem C47_min_max_assign : forall (L : Limits), OrderLaws L -> forall a b : lcar L,
  (min_assign L a b = a \/ min_assign L a b = b) /\ lltb L a (min_assign L a b) = false /\ lltb L b (min_assign L a b) = false
  /\ (max_assign L a b = a \/ max_assign L a b = b) /\ lltb L (max_assign L a b) a = false /\ lltb L (max_assign L a b) b = false.
Proof. exact assign_min_max. Qed.
Print Assumptions C47_min_max_assign.
(** on vectors of the same size, element by element *)
Theorem C47_vector_min_max_assign : forall (L : Limits) (d : nat) (g h : nat -> lcar L),
  vassign L (min_assign L) (vector d g) (vector d h) = Ok (vector d (fun j => min_assign L (g j) (h j)))
  /\ vassign L (max_assign L) (vector d g) (vector d h) = Ok (vector d (fun j => max_assign L (g j) (h j))).
Proof. exact (fun L d g h => conj (vassign_vector L (min_assign L) d g h) (vassign_vector L (max_assign L) d g h)). Qed.
Print Assumptions C47_vector_min_max_assign.

(** Division of integers truncates towards zero, and is undefined exactly for the divisor zero. *)
Theorem C47_divides : forall a b : Z,
  (b = 0%Z <-> divides_int a b = UB)
  /\ (b <> 0%Z -> exists q, divides_int a b = Ok q /\ (Z.abs (a - q * b) < Z.abs b)%Z /\ (Z.abs (q * b) <= Z.abs a)%Z).
Proof. exact divides_spec. Qed.
Print Assumptions C47_divides.
(** fdiv is exact division: quotient times divisor gives back the dividend, integers included. *)
Theorem C47_fdiv : forall (K : Num), OrderedLaws K ->
  (forall a b : Z, b <> 0%Z -> mul K (fdiv_int K a b) (of_Z K b) = of_Z K a)
  /\ (forall a b : car K, b <> zero K -> mul K (fdiv_float K a b) b = a)
  /\ (forall (a : car K) (b : Z), b <> 0%Z -> mul K (fdiv_mixed K a b) (of_Z K b) = a)
  /\ (forall (v : list Z) (b : Z), b <> 0%Z -> vmuls K (fdiv_vec_int K v b) (of_Z K b) = map (of_Z K) v)
  /\ (forall b : Z, b <> 0%Z -> of_Z K b <> zero K).
Proof. exact fdiv_all. Qed.
Print Assumptions C47_fdiv.
(** Finding: fdiv of two vectors of integers truncates. *)
Theorem C47_fdiv_vectors_refuted : exists (l r : list Z) (q : list Z), length l = length r /\ Forall (fun b => b <> 0%Z) r /\
  fdiv_vec_vec l r = Ok q /\
  map (fun p => mul QcN (of_Z QcN (fst p)) (of_Z QcN (snd p))) (combine q r) <> map (of_Z QcN) l.
Proof. exact fdiv_vectors_truncate. Qed.
Print Assumptions C47_fdiv_vectors_refuted.

(** Complex samples: the complex numbers over an ordered field are again a field, so that every
    theorem about FieldLaws (C02, C03, C05-C11, C46, ...) holds for them; the operators of complex.hpp are its
    division and multiplication by an integer; and the mean is the mean of the parts. *)
Theorem C47_complex_field : forall (K : Num), OrderedLaws K -> FieldLaws (ComplexN K).
Proof. exact complex_field. Qed.
Print Assumptions C47_complex_field.
Theorem C47_complex_scalar : forall (K : Num), OrderedLaws K -> forall (c : car K * car K) (n : nat), n <> 0 ->
  cdiv_scalar K c (Z.of_nat n) = div (ComplexN K) c (ofnat (ComplexN K) n)
  /\ cmul_scalar K c (Z.of_nat n) = mul (ComplexN K) c (ofnat (ComplexN K) n).
Proof. exact complex_scalar_ops. Qed.
Print Assumptions C47_complex_scalar.
Theorem C47_complex_mean : forall (K : Num), OrderedLaws K -> forall xs : list (car K * car K), xs <> [] ->
  Mean (ComplexN K) xs = (Mean K (map fst xs), Mean K (map snd xs)).
Proof. exact complex_mean. Qed.
Print Assumptions C47_complex_mean.

Example C47_ex : OrderedLaws QcN /\ this (fdiv_int QcN 7 2) = (7 # 2)%Q
  /\ (let c := cmul QcN (Q2Qc 2, Q2Qc 3) (one_complex QcN) in (this (fst c), this (snd c)) = (-1 # 1, 5 # 1)%Q)
  /\ min_assign (IntL 32) 3%Z (-2)%Z = (-2)%Z.
Proof. split; [exact QcN_ordered|]. repeat split; vm_compute; reflexivity. Qed.
