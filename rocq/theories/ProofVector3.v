(** Vectors: the statements of the properties. *)
From Coq Require Import List Arith Bool Lia Field QArith Qcanon.
From Verif Require Import Num NumFacts SpecStats SpecVector ModelBasic ModelPSquare ModelMinMax ModelVector
  ProofBasic ProofBasic2 ProofBasic3 ProofVector ProofVector2.
Import ListNotations.
Open Scope nat_scope.

Lemma vector_componentwise K (d : nat) (s0 : nat -> car K) (xs : list (list (car K))) : AllDim d xs ->
  vsum_run K (vector d s0) xs = Ok (vector d (fun j => sum_run K (s0 j) (column (zero K) j xs)))
  /\ vmean_run K (vector d s0) xs
     = Ok (vector d (fun j => mean_set_mean K (mean_set_run K (s0 j) (column (zero K) j xs))))
  /\ vimean_run K (vector d s0) xs
     = Ok (vector d (fun j => im_mean K (imean_set_run K (s0 j) (column (zero K) j xs))))
  /\ vvar_run K (vector d s0) xs
     = Ok (vector d (fun j => vs_var K (var_set_run K (s0 j) (column (zero K) j xs))))
  /\ (forall m, (forall j, j < d -> lazy_variance_run K (s0 j) (column (zero K) j xs) = Some (m j)) ->
        vlazy_variance_run K (vector d s0) xs = Ok (vector d m))
  /\ (forall N m, 1 <= N -> (forall j, j < d -> moment_run K N (s0 j) (column (zero K) j xs) = Some (m j)) ->
        vmoment_run K N (vector d s0) xs = Ok (vector d m)).
Proof.
  intros H. repeat split.
  - now apply vsum_run_spec.
  - rewrite vmean_run_spec by auto. f_equal. apply vector_ext. intros j _. now rewrite <- (col_length K j xs), sum_mean.
  - now apply vimean_run_spec.
  - now apply vvar_run_spec.
  - intros m. now apply vlazy_variance_run_componentwise.
  - intros N m. intros. now apply vmoment_run_componentwise.
Qed.
Lemma vector_weighted_componentwise K (d : nat) (s0 : nat -> car K) (h : list (list (car K) * car K)) :
  AllDim d (map fst h) ->
  vweighted_sum_run K (vector d s0) h
    = Ok (vector d (fun j => wm_sum K (wmean_set_run K (s0 j) (zero K) (wcolumn (zero K) j h))))
  /\ vweighted_mean_run K (vector d s0) h
     = Ok (vector d (fun j => wmean_set_mean K (wmean_set_run K (s0 j) (zero K) (wcolumn (zero K) j h))))
  /\ vwimean_run K (vector d s0) h
     = Ok (vector d (fun j => wv_mean K (wvar_set_run K (s0 j) (zero K) (wcolumn (zero K) j h))))
  /\ vwvar_run K (vector d s0) h
     = Ok (vector d (fun j => wv_var K (wvar_set_run K (s0 j) (zero K) (wcolumn (zero K) j h))))
  /\ (forall m, (forall j, j < d -> lazy_weighted_variance_run K (s0 j) (wcolumn (zero K) j h) = Some (m j)) ->
        vlazy_weighted_variance_run K (vector d s0) h = Ok (vector d m))
  /\ (forall N m, 1 <= N ->
        (forall j, j < d -> weighted_moment_run K N (s0 j) (wcolumn (zero K) j h) = Some (m j)) ->
        vweighted_moment_run K N (vector d s0) h = Ok (vector d m)).
Proof.
  intros H. repeat split.
  - now apply vweighted_sum_run_spec.
  - now apply vweighted_mean_run_spec.
  - now apply vwimean_run_spec.
  - now apply vwvar_run_spec.
  - intros m. now apply vlazy_weighted_variance_run_componentwise.
  - intros N m. intros. now apply vweighted_moment_run_componentwise.
Qed.
Lemma vector_min_max (L : Limits) (s0 : list (lcar L)) (any : lcar L) (xs : list (list (lcar L))) : AllDim (length s0) xs ->
  vmin_run L s0 xs = Ok (vector (length s0) (fun j => min_run L (column any j xs)))
  /\ vmax_run L s0 xs = Ok (vector (length s0) (fun j => max_run L (column any j xs))).
Proof. intros H. split; [now apply vmin_run_spec|now apply vmax_run_spec]. Qed.
Lemma vector_moments_defined K N s0 (l : list (car K)) : 1 <= N ->
  (exists m, moment_run K N s0 l = Some m) /\ (exists m, lazy_variance_run K s0 l = Some m)
  /\ forall h, (exists m, weighted_moment_run K N s0 h = Some m) /\ (exists m, lazy_weighted_variance_run K s0 h = Some m).
Proof.
  intros HN. repeat split.
  - eexists. now apply moment_run_msum.
  - eexists. apply lazy_variance_run_msum.
  - eexists. unfold weighted_moment_run. rewrite wmom_run_wmsum by auto. reflexivity.
  - eexists. unfold lazy_weighted_variance_run. rewrite wmom_run_wmsum by auto. reflexivity.
Qed.
Lemma vector_dimension K (L : Limits) :
  (forall (s0 : list (car K)) xs, ((exists v, vsum_run K s0 xs = Ok v) <-> AllDim (length s0) xs)
     /\ ((exists v, vmean_run K s0 xs = Ok v) <-> AllDim (length s0) xs))
  /\ (forall (s0 : list (lcar L)) xs, ((exists v, vmin_run L s0 xs = Ok v) <-> AllDim (length s0) xs)
     /\ ((exists v, vmax_run L s0 xs = Ok v) <-> AllDim (length s0) xs)).
Proof.
  split.
  - intros s0 xs.
    assert (D : {AllDim (length s0) xs} + {~ AllDim (length s0) xs}) by (apply Forall_dec; intros x; apply Nat.eq_dec).
    assert (Hs : AllDim (length s0) xs -> exists v, vsum_run K s0 xs = Ok v).
    { intros H. rewrite (list_vector (zero K) s0). eexists. now apply vsum_run_spec. }
    split; split.
    + intros [v H]. destruct D as [D|D]; auto. rewrite vsum_dims in H by auto. discriminate.
    + exact Hs.
    + intros [v H]. destruct D as [D|D]; auto. rewrite vmean_dims in H by auto. discriminate.
    + intros H. unfold vmean_run. destruct (Hs H) as [v ->]. eexists. reflexivity.
  - intros s0 xs. split; [apply vmin_dim|apply vmax_dim].
Qed.
Lemma vector_no_initial_sample K :
  (forall x xs, x <> [] -> vsum_run K [] (x :: xs) = UB /\ vmean_run K [] (x :: xs) = UB)
  /\ (forall xs, vimean_run K [] xs = Ok [])
  /\ (forall x y xs, y <> [] -> vvar_run K [] (x :: y :: xs) = UB).
Proof.
  repeat split.
  - now apply vsum_no_seed.
  - unfold vmean_run. now rewrite vsum_no_seed.
  - intros xs. apply vimean_no_seed.
  - intros x y xs. apply vvar_no_seed.
Qed.
Lemma vector_orientation : exists h : list (list Qc * list Qc),
  h <> [] /\ AllDim 2 (map fst h) /\ AllDim 2 (map snd h) /\
  vcov_run QcN (vector 2 (fun _ => 0%Qc)) (vector 2 (fun _ => 0%Qc)) h
  <> Ok (matrix 2 2 (fun i j => Covariance QcN (columns 0%Qc i j h))).
Proof.
  (* test/covariance.cpp: 0, 1 -> -0.25 *)
  exists [ ([Q2Qc 1; Q2Qc 2], [Q2Qc 3; Q2Qc 4]); ([Q2Qc 3; Q2Qc 4], [Q2Qc 2; Q2Qc 5]);
           ([Q2Qc 1; Q2Qc 2], [Q2Qc 2; Q2Qc 5]); ([Q2Qc 4; Q2Qc 2], [Q2Qc 3; Q2Qc 4]) ].
  split; [discriminate|]. split; [repeat constructor|]. split; [repeat constructor|].
  intros H.
  apply (f_equal (fun o => match o with Ok m => this (nth 1 (nth 0 m []) 0%Qc) | _ => 0%Q end)) in H.
  revert H. vm_compute. discriminate.
Qed.
Lemma vector_truncation K (s0 : nat -> car K) d xs : Forall (fun x => d <= length x) xs ->
  vimean_run K (vector d s0) xs = vimean_run K (vector d s0) (map (firstn d) xs)
  /\ exists v, vimean_run K (vector d s0) xs = Ok v.
Proof.
  intros H. rewrite vimean_truncates by auto. split; auto. eexists. apply vimean_run_spec.
  unfold AllDim. apply Forall_map. eapply Forall_impl; [|exact H]. cbn. intros x Hx. rewrite firstn_length. lia.
Qed.
