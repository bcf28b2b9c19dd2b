(** Model of the statistics whose sample type is std::complex<T> and whose weights are of type T: the templates of
    ModelBasic instantiated with complex numbers.  The documentation promises that they work (doc/accumulators.qbk
    430-432, 565-572).  A complex number multiplied or divided by a count or a weight is multiplied or divided in each
    part (numeric/functional/complex.hpp 25-48; for a scalar of type T itself the standard library does the same).
    Products of two complex numbers are (ac - bd) + (ad + bc)i; the recovery of infinities that some compilers add to
    the product of non-finite numbers is not modelled.  min, max and everything that sorts does not compile. *)
From Coq Require Import List Arith Bool.
From Verif Require Import Num ModelBasic ModelRolling ModelNumeric.
Import ListNotations.

Section Complex.
Variable K : Num.
Local Notation T := (car K).
Local Notation C := (T * T)%type.
Local Notation "# n" := (ofnat K n) (at level 2).

(** complex.hpp 25-35 and 37-47 *)
Definition cmuls (c : C) (u : T) : C := (mul K (fst c) u, mul K (snd c) u).
Definition cdivs (c : C) (u : T) : C := (div K (fst c) u, div K (snd c) u).

(** sum.hpp 29-62 *)
Definition csum_op (sum x : C) : C := cadd K sum x.
Definition csum_run (s0 : C) (xs : list C) : C := fold_left csum_op xs s0.
(** sum_kahan.hpp 29-80 *)
Definition ckahan_op (st : C * C) (x : C) : C * C :=
  let tmp1 := csub K x (snd st) in
  let tmp2 := cadd K (fst st) tmp1 in
  (tmp2, csub K (csub K tmp2 (fst st)) tmp1).
Definition ckahan_run (s0 : C) (xs : list C) : C * C := fold_left ckahan_op xs (s0, (zero K, zero K)).
(** mean.hpp 29-48 *)
Definition cmean_run (s0 : C) (xs : list C) : C := cdivs (csum_run s0 xs) (#(length xs)).
(** mean.hpp 50-86: count and mean *)
Definition cimm_mean_op (mean : C) (cnt : nat) (x : C) : C :=
  cdivs (cadd K (cmuls mean (#(cnt - 1))) x) (#cnt).
(** variance.hpp 87-129 *)
Definition cvariance_op (var mean : C) (cnt : nat) (x : C) : C :=
  if Nat.ltb 1 cnt then
    let tmp := csub K x mean in
    cadd K (cdivs (cmuls var (#(cnt - 1))) (#cnt)) (cdivs (cmul K tmp tmp) (#(cnt - 1)))
  else var.
(** stats<tag::immediate_mean, tag::variance>: count, mean and variance *)
Definition cvar_push (s : nat * C * C) (x : C) : nat * C * C :=
  let '(cnt, mean, var) := s in
  let cnt := S cnt in
  let mean := cimm_mean_op mean cnt x in
  (cnt, mean, cvariance_op var mean cnt x).
Definition cvar_run (s0 : C) (xs : list C) : nat * C * C :=
  fold_left cvar_push xs (0, cdivs s0 (one K), cdivs s0 (one K)).
Definition cvar_mean (s : nat * C * C) : C := snd (fst s).
Definition cvar_variance (s : nat * C * C) : C := snd s.
(** moment.hpp 52-87; the power is computed by multiplications only. *)
Definition cmoment_run (N : nat) (s0 : C) (xs : list C) : option C :=
  match fold_left (fun o x => match o, npow (ComplexN K) x N with Some s, Some p => Some (cadd K s p) | _, _ => None end)
          xs (Some s0) with
  | Some s => Some (cdivs s (#(length xs)))
  | None => None
  end.
(** variance.hpp 40-60 *)
Definition clazy_variance_run (s0 : C) (xs : list C) : option C :=
  match cmoment_run 2 s0 xs with
  | Some m2 => let m := cmean_run s0 xs in Some (csub K m2 (cmul K m m))
  | None => None
  end.

(** Weighted: a history is a list of (sample, weight).  weighted_sum.hpp 28-68, weighted_mean.hpp 33-58 *)
Definition cweighted_sum_run (s0 : C) (h : list (C * T)) : C :=
  fold_left (fun s p => cadd K s (cmuls (fst p) (snd p))) h (cmuls s0 (one K)).
Definition cweight_sum (h : list (C * T)) : T := fold_left (fun s p => add K s (snd p)) h (zero K).
Definition cweighted_mean_run (s0 : C) (h : list (C * T)) : C := cdivs (cweighted_sum_run s0 h) (cweight_sum h).
(** weighted_mean.hpp 63-109, weighted_variance.hpp 70-115: count, sum of weights, mean, variance *)
Definition cimm_weighted_mean_op (mean : C) (W : T) (x : C) (w : T) : C :=
  cdivs (cadd K (cmuls mean (sub K W w)) (cmuls x w)) W.
Definition cweighted_variance_op (var mean : C) (W : T) (cnt : nat) (x : C) (w : T) : C :=
  if Nat.ltb 1 cnt then
    let tmp := csub K x mean in
    cadd K (cdivs (cmuls var (sub K W w)) W) (cdivs (cmuls (cmul K tmp tmp) w) (sub K W w))
  else var.
Definition cwvar_push (s : nat * T * C * C) (p : C * T) : nat * T * C * C :=
  let '(cnt, W, mean, var) := s in
  let cnt := S cnt in
  let W := add K W (snd p) in
  let mean := cimm_weighted_mean_op mean W (fst p) (snd p) in
  (cnt, W, mean, cweighted_variance_op var mean W cnt (fst p) (snd p)).
Definition cwvar_run (s0 : C) (h : list (C * T)) : nat * T * C * C :=
  fold_left cwvar_push h (0, zero K, cdivs (cmuls s0 (one K)) (one K), cdivs s0 (one K)).

(** rolling_sum.hpp 27-63 and the lazy rolling mean, rolling_mean.hpp 30-50; [buf] is the plus-one buffer.
    The immediate rolling mean and the immediate rolling variance compare samples and do not compile. *)
Definition crolling_push (N : nat) (s : option (list C * C)) (x : C) : option (list C * C) :=
  match s with
  | None => None
  | Some (buf, sum) =>
      let buf := rwp1_op N buf x in
      if rwp1_full N buf then
        match buf with
        | [] => None
        | front :: _ => Some (buf, cadd K (csub K sum front) x)
        end
      else Some (buf, cadd K sum x)
  end.
Definition crolling_run (N : nat) (s0 : C) (xs : list C) : option (list C * C) :=
  fold_left (crolling_push N) xs (Some (rwp1_init, s0)).
Definition crolling_mean (N : nat) (s : list C * C) : C := cdivs (snd s) (#(rolling_count_result N (fst s))).
End Complex.
