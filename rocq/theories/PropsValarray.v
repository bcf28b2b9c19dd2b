(** Property theorems C70: samples that are std::valarrays, and vectors or valarrays of integers. *)
From Coq Require Import List ZArith Arith QArith Qcanon.
From Verif Require Import Num NumFacts SpecVector SpecInteger ModelBasic ModelPSquare ModelMinMax ModelVector ModelNumeric
  ModelInteger ModelValarray ProofValarray.
Import ListNotations.
Open Scope nat_scope.
Local Notation "[[ q ]]" := (Q2Qc q).

(** ** C70.  Valarrays of a floating type: with samples of the length of the initial one, every statistic
    is that of the set of vectors (and with C46 that of the scalar sets, component by component); with any
    other sample every one of them is undefined, wherever that sample stands in the history. *)
Theorem C70_same_type : forall (K : Num) (s0 : list (car K)) (xs : list (list (car K))),
  (AllDim (length s0) xs ->
     va_sum_run K s0 xs = vsum_run K s0 xs /\ va_mean_run K s0 xs = vmean_run K s0 xs
     /\ va_imean_run K s0 xs = vimean_run K s0 xs /\ va_var_run K s0 xs = vvar_run K s0 xs
     /\ va_lazy_variance_run K s0 xs = vlazy_variance_run K s0 xs
     /\ forall N, 1 <= N -> va_moment_run K N s0 xs = vmoment_run K N s0 xs)
  /\ (~ AllDim (length s0) xs ->
     va_sum_run K s0 xs = UB /\ va_mean_run K s0 xs = UB /\ va_imean_run K s0 xs = UB /\ va_var_run K s0 xs = UB
     /\ va_lazy_variance_run K s0 xs = UB /\ forall N, 1 <= N -> va_moment_run K N s0 xs = UB).
Proof. exact valarray_same_type. Qed.
Print Assumptions C70_same_type.
Theorem C70_weighted_same_type : forall (K : Num) (s0 : list (car K)) (h : list (list (car K) * car K)),
  (AllDim (length s0) (map fst h) ->
     va_weighted_sum_run K s0 h = vweighted_sum_run K s0 h /\ va_weighted_mean_run K s0 h = vweighted_mean_run K s0 h
     /\ va_wimean_run K s0 h = vwimean_run K s0 h)
  /\ (~ AllDim (length s0) (map fst h) ->
     va_weighted_sum_run K s0 h = UB /\ va_weighted_mean_run K s0 h = UB /\ va_wimean_run K s0 h = UB).
Proof. exact valarray_weighted_same_type. Qed.
Print Assumptions C70_weighted_same_type.

(** Vectors or valarrays of integers, started with d zeros: sum and mean are defined exactly when all
    lengths are d and no component's sum overflows, and are then those of the components; the immediate
    mean converts every element and cannot overflow. *)
Theorem C70_integer : forall (E : itype) (K : Num) (d : nat) (xs : list (list Z)),
  (forall v, ia_sum_run E (vector d (fun _ => 0%Z)) xs = Ok v <->
     AllDim d xs /\ length v = d /\ forall j, j < d -> int_sum_run E (column 0%Z j xs) = Ok (nth j v 0%Z))
  /\ (forall v, ia_mean_run E K (vector d (fun _ => 0%Z)) xs = Ok v <->
     AllDim d xs /\ length v = d /\ forall j, j < d -> int_mean_run E K (column 0%Z j xs) = Ok (nth j v (zero K)))
  /\ (AllDim d xs -> ia_imean_run K (vector d (fun _ => 0%Z)) xs
        = Ok (vector d (fun j => int_immediate_mean_run K (column 0%Z j xs)))).
Proof. exact valarray_integer. Qed.
Print Assumptions C70_integer.
(** weights of the element type, which is not narrower than int *)
Theorem C70_integer_weighted : forall (E : itype) (K : Num) (d : nat) (h : list (list Z * Z)), (32 <= bits E)%Z -> 0 < d ->
  (forall v, ia_weighted_sum_run E (vector d (fun _ => 0%Z)) h = Ok v <->
     AllDim d (map fst h) /\ length v = d
     /\ forall j, j < d -> int_weighted_sum_run E E (wcolumn 0%Z j h) = Ok (nth j v 0%Z))
  /\ (forall v, ia_weighted_mean_run E K (vector d (fun _ => 0%Z)) h = Ok v <->
     AllDim d (map fst h) /\ length v = d
     /\ forall j, j < d -> int_weighted_mean_run E E K (wcolumn 0%Z j h) = Ok (nth j v (zero K))).
Proof. exact valarray_integer_weighted. Qed.
Print Assumptions C70_integer_weighted.
(** Finding: with integer elements the immediate mean does not notice longer samples, vectors and valarrays
    alike: it answers as if they had been cut off.  Only shorter ones are undefined. *)
Theorem C70_mixed_lengths_refuted : forall (K : Num) (d : nat) (xs : list (list Z)),
  (Forall (fun x => d <= length x) xs ->
     ia_imean_run K (vector d (fun _ => 0%Z)) xs = ia_imean_run K (vector d (fun _ => 0%Z)) (map (firstn d) xs)
     /\ exists v, ia_imean_run K (vector d (fun _ => 0%Z)) xs = Ok v)
  /\ ((exists x, In x xs /\ length x < d) -> ia_imean_run K (vector d (fun _ => 0%Z)) xs = UB).
Proof. exact valarray_mixed_lengths. Qed.
Print Assumptions C70_mixed_lengths_refuted.
(** Comparing two valarrays with promote<bool>(a == b): true exactly for equal ones; of different lengths
    undefined, not false. *)
Theorem C70_equality : forall (K : Num) (eq : car K -> car K -> bool), (forall a b, eq a b = true <-> a = b) ->
  forall l r, (length l = length r -> va_equal K eq l r = Ok true <-> l = r) /\ (length l <> length r -> va_equal K eq l r = UB).
Proof. exact valarray_equality. Qed.
Print Assumptions C70_equality.

(** test/valarray.cpp: sums of 1, 2, 3; means of 1, 0, 2; the weighted mean 84 / 14. *)
Definition shown (o : outcome (list Qc)) : option (list Q) := match o with Ok l => Some (map this l) | _ => None end.
Example C70_integer_ex :
  ia_sum_run Int (vector 3 (fun _ => 0%Z)) [ [1; 1; 1]; [2; 2; 2]; [3; 3; 3] ]%Z = Ok [6; 6; 6]%Z
  /\ shown (ia_mean_run Int QcN (vector 2 (fun _ => 0%Z)) [ [1; 5]; [0; 5]; [3; 1] ]%Z) = Some [4 # 3; 11 # 3]%Q
  /\ shown (ia_imean_run QcN (vector 2 (fun _ => 0%Z)) [ [1; 5]; [0; 5]; [3; 1] ]%Z) = Some [4 # 3; 11 # 3]%Q
  /\ shown (ia_weighted_mean_run Int QcN (vector 3 (fun _ => 0%Z))
       [ ([10; 10; 10], 2); ([6; 6; 6], 3); ([4; 4; 4], 4); ([6; 6; 6], 5) ]%Z) = Some [6 # 1; 6 # 1; 6 # 1]%Q
  /\ ia_sum_run Int (vector 2 (fun _ => 0%Z)) [ [2147483647; 0]; [1; 0] ]%Z = UB
  /\ shown (ia_imean_run QcN (vector 1 (fun _ => 0%Z)) [ [1]; [3; 100] ]%Z) = Some [2 # 1]%Q.
Proof. repeat split; vm_compute; reflexivity. Qed.
Example C70_same_type_ex :
  shown (va_var_run QcN (vector 2 (fun _ => 0%Qc)) [ [ [[1]]; [[2]] ]; [ [[3]]; [[5]] ]; [ [[2]]; [[2]] ] ]) = Some [2 # 3; 2 # 1]%Q
  /\ va_var_run QcN (vector 2 (fun _ => 0%Qc)) [ [ [[1]]; [[2]] ]; [ [[3]]; [[5]]; [[4]] ] ] = UB
  /\ shown (vimean_run QcN (vector 2 (fun _ => 0%Qc)) [ [ [[1]]; [[2]] ]; [ [[3]]; [[5]]; [[4]] ] ]) = Some [2 # 1; 7 # 2]%Q
  /\ va_equal QcN Qc_eq_bool [ [[1]]; [[2]] ] [ [[1]]; [[2]] ] = Ok true.
Proof. repeat split; vm_compute; reflexivity. Qed.
