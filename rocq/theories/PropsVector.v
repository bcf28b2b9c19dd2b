(** Property theorems C46, and C08 and C09 for vectors. *)
From Coq Require Import List Arith QArith Qcanon.
From Verif Require Import Num NumFacts SpecStats SpecVector ModelBasic ModelPSquare ModelMinMax ModelVector
  ProofVector ProofVector2 ProofVector3.
Import ListNotations.
Open Scope nat_scope.
Local Notation "[[ q ]]" := (Q2Qc q).

(** ** C46.  On vectors of a common dimension d each statistic is, component by component, what the
    scalar set answers for the history of that component -- the same operations in the same order, so
    this holds for every number type, floating point included. *)
Theorem C46_componentwise : forall (K : Num) (d : nat) (s0 : nat -> car K) (xs : list (list (car K))), AllDim d xs ->
  vsum_run K (vector d s0) xs = Ok (vector d (fun j => sum_run K (s0 j) (column (zero K) j xs)))
  /\ vmean_run K (vector d s0) xs
     = Ok (vector d (fun j => mean_set_mean K (mean_set_run K (s0 j) (column (zero K) j xs))))
  /\ vimean_run K (vector d s0) xs
     = Ok (vector d (fun j => im_mean K (imean_set_run K (s0 j) (column (zero K) j xs))))
  /\ vvar_run K (vector d s0) xs
     = Ok (vector d (fun j => vs_var K (var_set_run K (s0 j) (column (zero K) j xs))))
  /\ (forall m, (forall j, j < d -> lazy_variance_run K (s0 j) (column (zero K) j xs) = Some (m j)) ->
        vlazy_variance_run K (vector d s0) xs = Ok (vector d m))
  /\ (forall N m, 1 <= N -> (forall j, j < d -> moment_run K N (s0 j) (column (zero K) j xs) = Some (m j)) ->
        vmoment_run K N (vector d s0) xs = Ok (vector d m)).
Proof. exact vector_componentwise. Qed.
Print Assumptions C46_componentwise.
Theorem C46_weighted_componentwise : forall (K : Num) (d : nat) (s0 : nat -> car K) (h : list (list (car K) * car K)),
  AllDim d (map fst h) ->
  vweighted_sum_run K (vector d s0) h
    = Ok (vector d (fun j => wm_sum K (wmean_set_run K (s0 j) (zero K) (wcolumn (zero K) j h))))
  /\ vweighted_mean_run K (vector d s0) h
     = Ok (vector d (fun j => wmean_set_mean K (wmean_set_run K (s0 j) (zero K) (wcolumn (zero K) j h))))
  /\ vwimean_run K (vector d s0) h
     = Ok (vector d (fun j => wv_mean K (wvar_set_run K (s0 j) (zero K) (wcolumn (zero K) j h))))
  /\ vwvar_run K (vector d s0) h
     = Ok (vector d (fun j => wv_var K (wvar_set_run K (s0 j) (zero K) (wcolumn (zero K) j h))))
  /\ (forall m, (forall j, j < d -> lazy_weighted_variance_run K (s0 j) (wcolumn (zero K) j h) = Some (m j)) ->
        vlazy_weighted_variance_run K (vector d s0) h = Ok (vector d m))
  /\ (forall N m, 1 <= N ->
        (forall j, j < d -> weighted_moment_run K N (s0 j) (wcolumn (zero K) j h) = Some (m j)) ->
        vweighted_moment_run K N (vector d s0) h = Ok (vector d m)).
Proof. exact vector_weighted_componentwise. Qed.
Print Assumptions C46_weighted_componentwise.
(** the scalar moments of positive order and the lazy variances are always defined *)
Theorem C46_moments_defined : forall (K : Num) (N : nat) (s0 : car K) (l : list (car K)), 1 <= N ->
  (exists m, moment_run K N s0 l = Some m) /\ (exists m, lazy_variance_run K s0 l = Some m)
  /\ forall h, (exists m, weighted_moment_run K N s0 h = Some m) /\ (exists m, lazy_weighted_variance_run K s0 h = Some m).
Proof. exact vector_moments_defined. Qed.
Print Assumptions C46_moments_defined.
Theorem C46_min_max : forall (L : Limits) (s0 : list (lcar L)) (any : lcar L) (xs : list (list (lcar L))),
  AllDim (length s0) xs ->
  vmin_run L s0 xs = Ok (vector (length s0) (fun j => min_run L (column any j xs)))
  /\ vmax_run L s0 xs = Ok (vector (length s0) (fun j => max_run L (column any j xs))).
Proof. exact vector_min_max. Qed.
Print Assumptions C46_min_max.

(** In exact arithmetic, with a zero initial sample of the dimension of the samples: the textbook
    statistics of each component. *)
Theorem C46_textbook : forall (K : Num), FieldLaws K ->
  forall (d : nat) (s0 : nat -> car K) (N : nat) (xs : list (list (car K))),
  xs <> [] -> 1 <= N -> AllDim d xs ->
  vsum_run K (vector d (fun _ => zero K)) xs = Ok (vector d (fun j => total K (fun x => x) (column (zero K) j xs)))
  /\ vmean_run K (vector d (fun _ => zero K)) xs = Ok (vector d (fun j => Mean K (column (zero K) j xs)))
  /\ vimean_run K (vector d s0) xs = Ok (vector d (fun j => Mean K (column (zero K) j xs)))
  /\ vvar_run K (vector d (fun _ => zero K)) xs = Ok (vector d (fun j => Variance K (column (zero K) j xs)))
  /\ vlazy_variance_run K (vector d (fun _ => zero K)) xs = Ok (vector d (fun j => Variance K (column (zero K) j xs)))
  /\ vmoment_run K N (vector d (fun _ => zero K)) xs = Ok (vector d (fun j => Moment K N (column (zero K) j xs))).
Proof. exact vector_textbook. Qed.
Print Assumptions C46_textbook.
Theorem C46_weighted_textbook : forall (K : Num), FieldLaws K ->
  forall (d : nat) (s0 : nat -> car K) (N : nat) (h : list (list (car K) * car K)),
  h <> [] -> 1 <= N -> AllDim d (map fst h) -> PrefixWeightsNonzero K h ->
  vweighted_sum_run K (vector d (fun _ => zero K)) h
    = Ok (vector d (fun j => total K (fun p => mul K (snd p) (fst p)) (wcolumn (zero K) j h)))
  /\ vweighted_mean_run K (vector d (fun _ => zero K)) h = Ok (vector d (fun j => WMean K (wcolumn (zero K) j h)))
  /\ vwimean_run K (vector d s0) h = Ok (vector d (fun j => WMean K (wcolumn (zero K) j h)))
  /\ vwvar_run K (vector d (fun _ => zero K)) h = Ok (vector d (fun j => WVariance K (wcolumn (zero K) j h)))
  /\ vlazy_weighted_variance_run K (vector d (fun _ => zero K)) h
     = Ok (vector d (fun j => WVariance K (wcolumn (zero K) j h)))
  /\ vweighted_moment_run K N (vector d (fun _ => zero K)) h
     = Ok (vector d (fun j => WMoment K N (wcolumn (zero K) j h))).
Proof. exact vector_weighted_textbook. Qed.
Print Assumptions C46_weighted_textbook.

(** Sums, means, minima and maxima are defined exactly when every sample has the dimension of the
    initial one. *)
Theorem C46_dimension : forall (K : Num) (L : Limits),
  (forall (s0 : list (car K)) xs, ((exists v, vsum_run K s0 xs = Ok v) <-> AllDim (length s0) xs)
     /\ ((exists v, vmean_run K s0 xs = Ok v) <-> AllDim (length s0) xs))
  /\ (forall (s0 : list (lcar L)) xs, ((exists v, vmin_run L s0 xs = Ok v) <-> AllDim (length s0) xs)
     /\ ((exists v, vmax_run L s0 xs = Ok v) <-> AllDim (length s0) xs)).
Proof. exact vector_dimension. Qed.
Print Assumptions C46_dimension.
(** Finding: the immediate mean does not notice samples that are too long: it answers as for the
    truncated samples. *)
Theorem C46_dimension_refuted : forall (K : Num) (s0 : nat -> car K) (d : nat) (xs : list (list (car K))),
  Forall (fun x => d <= length x) xs ->
  vimean_run K (vector d s0) xs = vimean_run K (vector d s0) (map (firstn d) xs)
  /\ exists v, vimean_run K (vector d s0) xs = Ok v.
Proof. exact vector_truncation. Qed.
Print Assumptions C46_dimension_refuted.
(** Finding: a set constructed without an initial sample has dimension 0.  The first sample breaks sum
    and mean, the second one the variance; the immediate mean stays empty for ever. *)
Theorem C46_no_initial_sample_refuted : forall K : Num,
  (forall x xs, x <> [] -> vsum_run K [] (x :: xs) = UB /\ vmean_run K [] (x :: xs) = UB)
  /\ (forall xs, vimean_run K [] xs = Ok [])
  /\ (forall x y xs, y <> [] -> vvar_run K [] (x :: y :: xs) = UB).
Proof. exact vector_no_initial_sample. Qed.
Print Assumptions C46_no_initial_sample_refuted.

(** test/vector.cpp-like histories *)
Definition ex_vectors : list (list Qc) := [ [ [[1]]; [[2]]; [[3]] ]; [ [[3]]; [[5]]; [[-1]] ]; [ [[2]]; [[2]]; [[4]] ] ].
Example C46_ex : AllDim 3 ex_vectors /\ ex_vectors <> [] /\
  match vvar_run QcN (vector 3 (fun _ => 0%Qc)) ex_vectors with
  | Ok v => map this v = [2 # 3; 2 # 1; 14 # 3]%Q
  | _ => False
  end.
Proof. split; [repeat constructor|]. split; [discriminate|]. vm_compute. reflexivity. Qed.
Definition ex_wvectors : list (list Qc * Qc) := [ ([ [[1]]; [[2]] ], [[1#2]]); ([ [[3]]; [[5]] ], [[1]]); ([ [[2]]; [[2]] ], [[1#2]]) ].
Example C46_weighted_ex : AllDim 2 (map fst ex_wvectors) /\
  match vweighted_mean_run QcN (vector 2 (fun _ => 0%Qc)) ex_wvectors with
  | Ok v => map this v = [9 # 4; 7 # 2]%Q
  | _ => False
  end.
Proof. split; [repeat constructor|]. vm_compute. reflexivity. Qed.
Example C46_min_max_ex : vmin_run (IntL 32) [0; 0]%Z [ [3; -1]; [2; 5] ]%Z = Ok [2; -1]%Z
  /\ vmax_run (IntL 32) [0; 0]%Z [ [3; -1]; [2; 5] ]%Z = Ok [3; 5]%Z.
Proof. split; vm_compute; reflexivity. Qed.

(** ** C08, C09 for vectors: with samples and variates of the same dimension, entry (i, j) is the
    covariance of component j of the samples and component i of the variates. *)
Theorem C08_vector_covariance : forall (K : Num), FieldLaws K -> forall (d : nat) (h : list (list (car K) * list (car K))),
  h <> [] -> AllDim d (map fst h) -> AllDim d (map snd h) ->
  vcov_run K (vector d (fun _ => zero K)) (vector d (fun _ => zero K)) h
  = Ok (matrix d d (fun i j => Covariance K (columns (zero K) j i h))).
Proof. exact vector_covariance. Qed.
Print Assumptions C08_vector_covariance.
Theorem C08_vector_scalar_covariance : forall (K : Num), FieldLaws K -> forall (d : nat) (h : list (list (car K) * car K)),
  h <> [] -> AllDim d (map fst h) ->
  vscov_run K (vector d (fun _ => zero K)) (zero K) h = Ok (vector d (fun j => Covariance K (vscolumn (zero K) j h))).
Proof. exact vector_scalar_covariance. Qed.
Print Assumptions C08_vector_scalar_covariance.
Theorem C08_scalar_vector_covariance : forall (K : Num), FieldLaws K -> forall (d : nat) (h : list (car K * list (car K))),
  h <> [] -> AllDim d (map snd h) ->
  svcov_run K (zero K) (vector d (fun _ => zero K)) h = Ok (vector d (fun j => Covariance K (svcolumn (zero K) j h))).
Proof. exact scalar_vector_covariance. Qed.
Print Assumptions C08_scalar_vector_covariance.
Theorem C09_vector_weighted_covariance : forall (K : Num), FieldLaws K ->
  forall (d : nat) (h : list (list (car K) * list (car K) * car K)),
  h <> [] -> AllDim d (map (fun p => fst (fst p)) h) -> AllDim d (map (fun p => snd (fst p)) h) ->
  PrefixWeightsNonzero K h ->
  vwcov_run K (vector d (fun _ => zero K)) (vector d (fun _ => zero K)) h
  = Ok (matrix d d (fun i j => WCovariance K (wcolumns (zero K) j i h))).
Proof. exact vector_weighted_covariance. Qed.
Print Assumptions C09_vector_weighted_covariance.
(** Finding: the documented Cov(X, X') for a sample X and a variate X' has entries
    Cov(X_i, X'_j); the result is its transpose. *)
Theorem C08_vector_orientation_refuted : exists h : list (list Qc * list Qc),
  h <> [] /\ AllDim 2 (map fst h) /\ AllDim 2 (map snd h) /\
  vcov_run QcN (vector 2 (fun _ => 0%Qc)) (vector 2 (fun _ => 0%Qc)) h
  <> Ok (matrix 2 2 (fun i j => Covariance QcN (columns 0%Qc i j h))).
Proof. exact vector_orientation. Qed.
Print Assumptions C08_vector_orientation_refuted.
(** Finding: because of the transposition, samples and variates of different dimensions are not
    supported: the second sample adds matrices of different shapes. *)
Theorem C08_vector_dimensions_refuted : forall (K : Num) (d e : nat) (s0 v0 : nat -> car K)
  (h : list (list (car K) * list (car K))),
  d <> e -> AllDim d (map fst h) /\ AllDim e (map snd h) -> 2 <= length h ->
  vcov_run K (vector d s0) (vector e v0) h = UB.
Proof. exact vcov_run_mismatch. Qed.
Print Assumptions C08_vector_dimensions_refuted.
(** test/covariance.cpp 52-88 *)
Example C08_vector_ex :
  match vcov_run QcN (vector 2 (fun _ => 0%Qc)) (vector 2 (fun _ => 0%Qc))
    [ ([ [[1]]; [[2]] ], [ [[3]]; [[4]] ]); ([ [[3]]; [[4]] ], [ [[2]]; [[5]] ]);
      ([ [[1]]; [[2]] ], [ [[2]]; [[5]] ]); ([ [[4]]; [[2]] ], [ [[3]]; [[4]] ]) ] with
  | Ok m => map (map this) m = [ [1 # 8; - 1 # 4]; [- 1 # 8; 1 # 4] ]%Q
  | _ => False
  end.
Proof. vm_compute. reflexivity. Qed.
Example C08_vector_scalar_ex :
  match vscov_run QcN (vector 2 (fun _ => 0%Qc)) 0%Qc
    [ ([ [[1]]; [[2]] ], [[1]]); ([ [[3]]; [[4]] ], [[1]]); ([ [[2]]; [[5]] ], [[2]]); ([ [[4]]; [[2]] ], [[6]]) ] with
  | Ok m => map this m = [7 # 4; - 9 # 8]%Q
  | _ => False
  end.
Proof. vm_compute. reflexivity. Qed.
