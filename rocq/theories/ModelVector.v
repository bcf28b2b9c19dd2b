(** Model of the numeric operators on std::vector (numeric/functional/vector.hpp) and of the basic
    statistics when the sample type is std::vector<double> (test/vector.cpp), the weight type a
    scalar.  The accumulators are the templates of ModelBasic, instantiated with vectors. *)
From Coq Require Import List Arith Bool.
From Verif Require Import Num ModelPSquare ModelMinMax.
Import ListNotations.

Section Vector.
Variable K : Num.
Local Notation T := (car K).
Local Notation vec := (list T).

(** ** Operators *)

(** result(left.size()); for i < left.size(): result[i] = left[i] Op right[i].  There is no check of
    the sizes: a shorter [right] is read outside its bounds, of a longer one the rest is ignored.
    vector.hpp 59-72 (/), 110-123 (multiplication), 125-138 (+), 140-153 (-). *)
Fixpoint vzip (op : T -> T -> T) (l r : vec) : outcome vec :=
  match l, r with
  | [], _ => Ok []
  | a :: l, b :: r => obnd (vzip op l r) (fun res => Ok (op a b :: res))
  | _ :: _, [] => UB
  end.
(** vector / scalar, vector times scalar, scalar times vector: vector.hpp 40-57, 74-90, 92-108. *)
Definition vdivs (l : vec) (r : T) : vec := map (fun a => div K a r) l.
Definition vmuls (l : vec) (r : T) : vec := map (fun a => mul K a r) l.
Definition smulv (l : T) (r : vec) : vec := map (fun b => mul K l b) r.
(** operator +=, 155-167: BOOST_ASSERT(left.size() == right.size()); a failed assertion is [UB]. *)
Definition vplus_assign (l r : vec) : outcome vec :=
  if Nat.eqb (length l) (length r) then vzip (add K) l r else UB.
(** unary minus, 169-182 *)
Definition vneg (arg : vec) : vec := map (opp K) arg.

(** numeric::pow on vectors, moment.hpp 27-42 (see ModelBasic.npow). *)
Fixpoint vpow_fuel (fuel : nat) (x : vec) (n : nat) : outcome vec :=
  match fuel with
  | O => UB
  | S f =>
      if Nat.eqb n 1 then Ok x
      else obnd (vpow_fuel f x (Nat.div n 2)) (fun y =>
           obnd (vzip (mul K) y y) (fun z =>
             if Nat.eqb (Nat.modulo n 2) 0 then Ok z else vzip (mul K) z x))
  end.
Definition vpow (x : vec) (n : nat) : outcome vec := vpow_fuel n x n.

(** ** Accumulators; [s0] is [args[sample | Sample()]]: a set that is constructed without
    sample= starts with the empty vector. *)
Local Notation "# n" := (ofnat K n) (at level 2).

(** sum.hpp 29-62 *)
Definition vsum_op (sum x : vec) : outcome vec := vplus_assign sum x.
(** mean.hpp 29-48 *)
Definition vmean_result (sum : vec) (cnt : nat) : vec := vdivs sum (#cnt).
(** mean.hpp 50-86: fdiv((this->mean * (cnt - 1)) + args[sample], cnt) *)
Definition vimm_mean_init (s0 : vec) : vec := vdivs s0 (one K).
Definition vimm_mean_op (mean : vec) (cnt : nat) (x : vec) : outcome vec :=
  obnd (vzip (add K) (vmuls mean (#(cnt - 1))) x) (fun s => Ok (vdivs s (#cnt))).
(** moment.hpp 52-87 *)
Definition vmoment_op (N : nat) (sum x : vec) : outcome vec :=
  obnd (vpow x N) (fun p => vplus_assign sum p).
Definition vmoment_result (sum : vec) (cnt : nat) : vec := vdivs sum (#cnt).
(** variance.hpp 40-60 *)
Definition vlazy_variance_result (moment2 mean : vec) : outcome vec :=
  obnd (vzip (mul K) mean mean) (fun t => vzip (sub K) moment2 t).
(** variance.hpp 87-129 *)
Definition vvariance_init (s0 : vec) : vec := vdivs s0 (one K).
Definition vvariance_op (var mean : vec) (cnt : nat) (x : vec) : outcome vec :=
  if Nat.ltb 1 cnt then
    obnd (vzip (sub K) x mean) (fun tmp =>
    obnd (vzip (mul K) tmp tmp) (fun sq =>
      vzip (add K) (vdivs (vmuls var (#(cnt - 1))) (#cnt)) (vdivs sq (#(cnt - 1)))))
  else Ok var.
(** weighted_sum.hpp 28-68 *)
Definition vweighted_sum_init (s0 : vec) : vec := vmuls s0 (one K).
Definition vweighted_sum_op (wsum x : vec) (w : T) : outcome vec := vplus_assign wsum (vmuls x w).
(** weighted_mean.hpp 33-58, 63-109 *)
Definition vweighted_mean_result (wsum : vec) (W : T) : vec := vdivs wsum W.
Definition vimm_weighted_mean_init (s0 : vec) : vec := vdivs (vmuls s0 (one K)) (one K).
Definition vimm_weighted_mean_op (mean : vec) (W : T) (x : vec) (w : T) : outcome vec :=
  obnd (vzip (add K) (vmuls mean (sub K W w)) (vmuls x w)) (fun s => Ok (vdivs s W)).
(** weighted_moment.hpp 36-72 *)
Definition vweighted_moment_init (s0 : vec) : vec := vmuls s0 (one K).
Definition vweighted_moment_op (N : nat) (sum x : vec) (w : T) : outcome vec :=
  obnd (vpow x N) (fun p => vplus_assign sum (smulv w p)).
Definition vweighted_moment_result (sum : vec) (W : T) : vec := vdivs sum W.
(** weighted_variance.hpp 38-55, 70-115 *)
Definition vlazy_weighted_variance_result (wmoment2 wmean : vec) : outcome vec :=
  obnd (vzip (mul K) wmean wmean) (fun t => vzip (sub K) wmoment2 t).
Definition vweighted_variance_init (s0 : vec) : vec := vdivs s0 (one K).
Definition vweighted_variance_op (wvar wmean : vec) (W : T) (cnt : nat) (x : vec) (w : T) : outcome vec :=
  if Nat.ltb 1 cnt then
    obnd (vzip (sub K) x wmean) (fun tmp =>
    obnd (vzip (mul K) tmp tmp) (fun sq =>
      vzip (add K) (vdivs (vmuls wvar (sub K W w)) W) (vdivs (vmuls sq w) (sub K W w))))
  else Ok wvar.

(** ** Small sets, as in ModelBasic. *)

(** stats<tag::sum> *)
Definition vsum_run (s0 : vec) (xs : list vec) : outcome vec :=
  fold_left (fun o x => obnd o (fun s => vsum_op s x)) xs (Ok s0).
(** stats<tag::mean> *)
Definition vmean_run (s0 : vec) (xs : list vec) : outcome vec :=
  obnd (vsum_run s0 xs) (fun s => Ok (vmean_result s (length xs))).
(** stats<tag::immediate_mean>: count and mean *)
Definition vimean_push (o : outcome (nat * vec)) (x : vec) : outcome (nat * vec) :=
  obnd o (fun s => let cnt := S (fst s) in obnd (vimm_mean_op (snd s) cnt x) (fun m => Ok (cnt, m))).
Definition vimean_run (s0 : vec) (xs : list vec) : outcome vec :=
  obnd (fold_left vimean_push xs (Ok (0, vimm_mean_init s0))) (fun s => Ok (snd s)).
(** stats<tag::variance>: count, mean, variance *)
Definition vvar_push (o : outcome (nat * vec * vec)) (x : vec) : outcome (nat * vec * vec) :=
  obnd o (fun s =>
    let '(cnt, mean, var) := s in
    let cnt := S cnt in
    obnd (vimm_mean_op mean cnt x) (fun mean =>
    obnd (vvariance_op var mean cnt x) (fun var => Ok (cnt, mean, var)))).
Definition vvar_run (s0 : vec) (xs : list vec) : outcome vec :=
  obnd (fold_left vvar_push xs (Ok (0, vimm_mean_init s0, vvariance_init s0))) (fun s => Ok (snd s)).
(** stats<tag::moment<N> > *)
Definition vmoment_sum (N : nat) (s0 : vec) (xs : list vec) : outcome vec :=
  fold_left (fun o x => obnd o (fun s => vmoment_op N s x)) xs (Ok s0).
Definition vmoment_run (N : nat) (s0 : vec) (xs : list vec) : outcome vec :=
  obnd (vmoment_sum N s0 xs) (fun s => Ok (vmoment_result s (length xs))).
(** stats<tag::variance(lazy)>: moment<2> and mean *)
Definition vlazy_variance_run (s0 : vec) (xs : list vec) : outcome vec :=
  obnd (vmoment_run 2 s0 xs) (fun m2 => obnd (vmean_run s0 xs) (fun m => vlazy_variance_result m2 m)).

(** Weighted sets; [w0] is the initial sum of weights; a history is a list of (sample, weight). *)
Definition vweight_sum (w0 : T) (h : list (vec * T)) : T := fold_left (fun s p => add K s (snd p)) h w0.
Definition vweighted_sum_run (s0 : vec) (h : list (vec * T)) : outcome vec :=
  fold_left (fun o p => obnd o (fun s => vweighted_sum_op s (fst p) (snd p))) h (Ok (vweighted_sum_init s0)).
Definition vweighted_mean_run (s0 : vec) (h : list (vec * T)) : outcome vec :=
  obnd (vweighted_sum_run s0 h) (fun s => Ok (vweighted_mean_result s (vweight_sum (zero K) h))).
Definition vweighted_moment_run (N : nat) (s0 : vec) (h : list (vec * T)) : outcome vec :=
  obnd (fold_left (fun o p => obnd o (fun s => vweighted_moment_op N s (fst p) (snd p))) h
          (Ok (vweighted_moment_init s0)))
       (fun s => Ok (vweighted_moment_result s (vweight_sum (zero K) h))).
Definition vlazy_weighted_variance_run (s0 : vec) (h : list (vec * T)) : outcome vec :=
  obnd (vweighted_moment_run 2 s0 h) (fun m2 =>
  obnd (vweighted_mean_run s0 h) (fun m => vlazy_weighted_variance_result m2 m)).
(** count, sum of weights, immediate weighted mean, weighted variance *)
Definition vwvar_push (o : outcome (nat * T * vec * vec)) (p : vec * T) : outcome (nat * T * vec * vec) :=
  obnd o (fun s =>
    let '(cnt, W, mean, var) := s in
    let cnt := S cnt in
    let W := add K W (snd p) in
    obnd (vimm_weighted_mean_op mean W (fst p) (snd p)) (fun mean =>
    obnd (vweighted_variance_op var mean W cnt (fst p) (snd p)) (fun var => Ok (cnt, W, mean, var)))).
Definition vwvar_set (s0 : vec) (h : list (vec * T)) : outcome (nat * T * vec * vec) :=
  fold_left vwvar_push h (Ok (0, zero K, vimm_weighted_mean_init s0, vweighted_variance_init s0)).
Definition vwimean_run (s0 : vec) (h : list (vec * T)) : outcome vec :=
  obnd (vwvar_set s0 h) (fun s => Ok (snd (fst s))).
Definition vwvar_run (s0 : vec) (h : list (vec * T)) : outcome vec :=
  obnd (vwvar_set s0 h) (fun s => Ok (snd s)).

(** ** Covariance of vectors.  Matrices (boost::numeric::ublas::matrix, not in the repository) are
    lists of rows. *)
Local Notation mat := (list (list T)).
(** outer_product, covariance.hpp 51-80 *)
Definition outer (l r : vec) : mat := map (fun a => map (fun b => mul K a b) r) l.
(** ublas: the operands of + must have the same numbers of rows and columns (BOOST_UBLAS_SAME). *)
Fixpoint mplus (a b : mat) : outcome mat :=
  match a, b with
  | [], [] => Ok []
  | r :: a, s :: b =>
      if Nat.eqb (length r) (length s) then
        obnd (vzip (add K) r s) (fun t => obnd (mplus a b) (fun m => Ok (t :: m)))
      else UB
  | _, _ => UB
  end.
Definition mscale (f : T -> T) (m : mat) : mat := map (map f) m.
(** covariance.hpp 113-164; [mean_v], [mean_s]: the (lazy) means of the variates and of the samples *)
Definition vcov_init (s0 v0 : vec) : mat := outer (vdivs s0 (one K)) (vdivs v0 (one K)).
Definition vcov_op (cov : mat) (mean_v mean_s : vec) (cnt : nat) (s v : vec) : outcome mat :=
  if Nat.ltb 1 cnt then
    obnd (vzip (sub K) mean_v v) (fun dv =>
    obnd (vzip (sub K) mean_s s) (fun ds =>
      mplus (mscale (fun c => div K (mul K c (#(cnt - 1))) (#cnt)) cov)
            (mscale (fun c => div K c (#(cnt - 1))) (outer dv ds))))
  else Ok cov.
(** stats<tag::covariance<std::vector<double>, Tag> > on vector samples: count, sum, sum of variates,
    covariance *)
Definition vcov_push (o : outcome (nat * vec * vec * mat)) (p : vec * vec) : outcome (nat * vec * vec * mat) :=
  obnd o (fun st =>
    let '(cnt, sm, sv, cov) := st in
    let cnt := S cnt in
    obnd (vsum_op sm (fst p)) (fun sm =>
    obnd (vsum_op sv (snd p)) (fun sv =>
    obnd (vcov_op cov (vmean_result sv cnt) (vmean_result sm cnt) cnt (fst p) (snd p)) (fun cov =>
      Ok (cnt, sm, sv, cov))))).
Definition vcov_run (s0 v0 : vec) (h : list (vec * vec)) : outcome mat :=
  obnd (fold_left vcov_push h (Ok (0, s0, v0, vcov_init s0 v0))) (fun st => Ok (snd st)).

(** covariance.hpp with vector samples and scalar variates: outer_product is multiplies
    (numeric::outer_product<vector, scalar>), the result is a vector.  In the update the first factor is
    the scalar. *)
Definition vscov_init (s0 : vec) (v0 : T) : vec := vmuls (vdivs s0 (one K)) (div K v0 (one K)).
Definition vscov_op (cov : vec) (mean_v : T) (mean_s : vec) (cnt : nat) (s : vec) (v : T) : outcome vec :=
  if Nat.ltb 1 cnt then
    obnd (vzip (sub K) mean_s s) (fun ds =>
      vzip (add K) (vdivs (vmuls cov (#(cnt - 1))) (#cnt)) (vdivs (smulv (sub K mean_v v) ds) (#(cnt - 1))))
  else Ok cov.
Definition vscov_push (o : outcome (nat * vec * T * vec)) (p : vec * T) : outcome (nat * vec * T * vec) :=
  obnd o (fun st =>
    let '(cnt, sm, sv, cov) := st in
    let cnt := S cnt in
    let sv := add K sv (snd p) in
    obnd (vsum_op sm (fst p)) (fun sm =>
    obnd (vscov_op cov (div K sv (#cnt)) (vmean_result sm cnt) cnt (fst p) (snd p)) (fun cov =>
      Ok (cnt, sm, sv, cov)))).
Definition vscov_run (s0 : vec) (v0 : T) (h : list (vec * T)) : outcome vec :=
  obnd (fold_left vscov_push h (Ok (0, s0, v0, vscov_init s0 v0))) (fun st => Ok (snd st)).

(** covariance.hpp with scalar samples and vector variates. *)
Definition svcov_init (s0 : T) (v0 : vec) : vec := smulv (div K s0 (one K)) (vdivs v0 (one K)).
Definition svcov_op (cov : vec) (mean_v : vec) (mean_s : T) (cnt : nat) (s : T) (v : vec) : outcome vec :=
  if Nat.ltb 1 cnt then
    obnd (vzip (sub K) mean_v v) (fun dv =>
      vzip (add K) (vdivs (vmuls cov (#(cnt - 1))) (#cnt)) (vdivs (vmuls dv (sub K mean_s s)) (#(cnt - 1))))
  else Ok cov.
Definition svcov_push (o : outcome (nat * T * vec * vec)) (p : T * vec) : outcome (nat * T * vec * vec) :=
  obnd o (fun st =>
    let '(cnt, sm, sv, cov) := st in
    let cnt := S cnt in
    let sm := add K sm (fst p) in
    obnd (vsum_op sv (snd p)) (fun sv =>
    obnd (svcov_op cov (vmean_result sv cnt) (div K sm (#cnt)) cnt (fst p) (snd p)) (fun cov =>
      Ok (cnt, sm, sv, cov)))).
Definition svcov_run (s0 : T) (v0 : vec) (h : list (T * vec)) : outcome vec :=
  obnd (fold_left svcov_push h (Ok (0, s0, v0, svcov_init s0 v0))) (fun st => Ok (snd st)).

(** weighted_covariance.hpp 55-120 with vector samples and variates and scalar weights: count, sum of
    weights, weighted sum, weighted sum of variates, covariance *)
Definition vwcov_init (s0 v0 : vec) : mat := outer (vmuls (vdivs s0 (one K)) (one K)) (vmuls (vdivs v0 (one K)) (one K)).
Definition vwcov_op (cov : mat) (wmean_v wmean_s : vec) (W : T) (cnt : nat) (s v : vec) (w : T) : outcome mat :=
  if Nat.ltb 1 cnt then
    obnd (vzip (sub K) wmean_v v) (fun dv =>
    obnd (vzip (sub K) wmean_s s) (fun ds =>
      mplus (mscale (fun c => div K (mul K c (sub K W w)) W) cov)
            (mscale (fun c => div K (mul K c w) (sub K W w)) (outer dv ds))))
  else Ok cov.
Definition vwcov_push (o : outcome (nat * T * vec * vec * mat)) (p : vec * vec * T) :
  outcome (nat * T * vec * vec * mat) :=
  obnd o (fun st =>
    let '(cnt, W, sm, sv, cov) := st in
    let '(s, v, w) := p in
    let cnt := S cnt in
    let W := add K W w in
    obnd (vweighted_sum_op sm s w) (fun sm =>
    obnd (vweighted_sum_op sv v w) (fun sv =>
    obnd (vwcov_op cov (vweighted_mean_result sv W) (vweighted_mean_result sm W) W cnt s v w) (fun cov =>
      Ok (cnt, W, sm, sv, cov))))).
Definition vwcov_run (s0 v0 : vec) (h : list (vec * vec * T)) : outcome mat :=
  obnd (fold_left vwcov_push h
          (Ok (0, zero K, vweighted_sum_init s0, vweighted_sum_init v0, vwcov_init s0 v0)))
       (fun st => Ok (snd st)).
End Vector.

(** ** min and max of vectors *)
Section VectorMinMax.
Variable L : Limits.
Local Notation vec := (list (lcar L)).
(** min_assign and max_assign of vectors, vector.hpp 194-237: BOOST_ASSERT of equal sizes, then
    element by element. *)
Fixpoint vassign (f : lcar L -> lcar L -> lcar L) (l r : vec) : outcome vec :=
  match l, r with
  | [], [] => Ok []
  | a :: l, b :: r => obnd (vassign f l r) (fun res => Ok (f a b :: res))
  | _, _ => UB
  end.
(** as_max, as_min of a vector: as long as the argument; vector.hpp 278-309.  min.hpp 27-60, max.hpp
    27-60. *)
Definition vmin_run (s0 : vec) (xs : list vec) : outcome vec :=
  fold_left (fun o x => obnd o (fun m => vassign (min_assign L) m x)) xs (Ok (repeat (highest L) (length s0))).
Definition vmax_run (s0 : vec) (xs : list vec) : outcome vec :=
  fold_left (fun o x => obnd o (fun m => vassign (max_assign L) m x)) xs (Ok (repeat (lowest L) (length s0))).
End VectorMinMax.
