(** Model of the basic (non-rolling, non-tail) statistics accumulators.

    Paths are relative to /repo/include/boost/accumulators/.
    Each accumulator is given by [x_init] (constructor), [x_op] (operator()) and
    [x_result] (result()); the values it extracts from other accumulators are
    explicit arguments.  Simplifications common to the file: argument packs are
    replaced by the fields that are read; [std::size_t] counts are [nat]; the sample,
    weight and result types are the same [Num]; [numeric::fdiv] (numeric/functional.hpp
    249-259, promotes integer operands to double before dividing) is [div]. *)

From Coq Require Import List Arith NArith Bool.
From Verif Require Import Num.
Import ListNotations.

(** statistics/count.hpp 25-55.  [std::size_t] is 64 bits wide and wraps. *)
Definition size_t_mod : N := 2 ^ 64.
Definition count_init : N := 0.
Definition count_op (cnt : N) : N := N.modulo (cnt + 1) size_t_mod.
Definition count_run {A : Type} (xs : list A) : N :=
  fold_left (fun c _ => count_op c) xs count_init.

Section Basic.
Variable K : Num.
Local Notation T := (car K).
Local Notation "0" := (zero K) : num_scope.
Local Notation "1" := (one K) : num_scope.
Local Notation "x + y" := (add K x y) : num_scope.
Local Notation "x - y" := (sub K x y) : num_scope.
Local Notation "x * y" := (mul K x y) : num_scope.
Local Notation "x / y" := (div K x y) : num_scope.
Local Notation "# n" := (ofnat K n) (at level 2) : num_scope.
Local Open Scope num_scope.

(** statistics/sum.hpp 29-62 (also sum_of_weights, sum_of_variates: same template
    with another Tag).  [s0] is [args[Tag | Sample()]]. *)
Definition sum_init (s0 : T) : T := s0.
Definition sum_op (sum x : T) : T := sum + x.

(** statistics/mean.hpp 29-48 (lazy): fdiv(sum(args), count(args)). *)
Definition mean_result (sum : T) (cnt : nat) : T := sum / #cnt.

(** statistics/mean.hpp 50-86 (immediate). [cnt] is the already updated count. *)
Definition imm_mean_init (s0 : T) : T := s0 / 1.
Definition imm_mean_op (mean : T) (cnt : nat) (x : T) : T :=
  (mean * #(cnt - 1) + x) / #cnt.

(** statistics/moment.hpp 27-42: pow by repeated squaring; [N/2] halves a positive
    [int_<N>], recursion stops at N = 1.  [fuel] bounds the recursion depth; the
    instantiation [npow x n] uses fuel [n], which always suffices (proved). *)
Fixpoint npow_fuel (fuel : nat) (x : T) (n : nat) : option T :=
  match fuel with
  | O => None
  | S f =>
      if Nat.eqb n 1 then Some x
      else match npow_fuel f x (Nat.div n 2) with
           | None => None
           | Some y => let z := y * y in
                       Some (if Nat.eqb (Nat.modulo n 2) 0 then z else z * x)
           end
  end.

(** moment.hpp 36-42 instantiated: [None] would mean that the template recursion does
    not terminate (N = 0; excluded by the static assertion at line 56). *)
Definition npow (x : T) (n : nat) : option T := npow_fuel n x n.

(** statistics/moment.hpp 52-87. *)
Definition moment_init (s0 : T) : T := s0.
Definition moment_op (N : nat) (sum x : T) : option T :=
  match npow x N with Some p => Some (sum + p) | None => None end.
Definition moment_result (sum : T) (cnt : nat) : T := sum / #cnt.

(** statistics/variance.hpp 40-60 (lazy). *)
Definition lazy_variance_result (moment2 mean : T) : T := moment2 - mean * mean.

(** statistics/variance.hpp 87-129 (immediate, the default). *)
Definition variance_init (s0 : T) : T := s0 / 1.
Definition variance_op (var mean : T) (cnt : nat) (x : T) : T :=
  if Nat.ltb 1 cnt then
    let tmp := x - mean in
    (var * #(cnt - 1)) / #cnt + (tmp * tmp) / #(cnt - 1)
  else var.

(** statistics/skewness.hpp 57-67.  [sqrt] is std::sqrt. *)
Definition skewness_result (sqrt : T -> T) (m3 m2 mean : T) : T :=
  (m3 - #3 * m2 * mean + #2 * mean * mean * mean)
  / ((m2 - mean * mean) * sqrt (m2 - mean * mean)).

(** statistics/kurtosis.hpp 54-65. *)
Definition kurtosis_result (m4 m3 m2 mean : T) : T :=
  (m4 - #4 * m3 * mean + #6 * m2 * mean * mean - #3 * mean * mean * mean * mean)
  / ((m2 - mean * mean) * (m2 - mean * mean)) - #3.

(** statistics/covariance.hpp 113-164, scalar samples and variates (outer_product is
    then [multiplies], lines 41-49). *)
Definition covariance_init (s0 v0 : T) : T := (s0 / 1) * (v0 / 1).
Definition covariance_op (cov mean_v mean_s : T) (cnt : nat) (s v : T) : T :=
  if Nat.ltb 1 cnt then
    cov * #(cnt - 1) / #cnt + ((mean_v - v) * (mean_s - s)) / #(cnt - 1)
  else cov.

(** statistics/error_of_mean.hpp 36-42; [count - 1] is a size_t subtraction, which
    wraps to 2^64-1 for an empty set (modelled only for cnt >= 1). *)
Definition error_of_mean_result (sqrt : T -> T) (variance : T) (cnt : nat) : T :=
  sqrt (variance / #(cnt - 1)).

(** statistics/sum_kahan.hpp 29-80; state = (sum, compensation). *)
Definition kahan_init (s0 : T) : T * T := (s0, 0).
Definition kahan_op (st : T * T) (x : T) : T * T :=
  let '(sum, comp) := st in
  let tmp1 := x - comp in
  let tmp2 := sum + tmp1 in
  (tmp2, (tmp2 - sum) - tmp1).
Definition kahan_result (st : T * T) : T := fst st.

(** statistics/weighted_sum.hpp 28-68. *)
Definition weighted_sum_init (s0 : T) : T := s0 * 1.
Definition weighted_sum_op (wsum x w : T) : T := wsum + x * w.

(** statistics/weighted_sum_kahan.hpp 35-82. *)
Definition weighted_kahan_init (s0 : T) : T * T := (s0 * 1, 0).
Definition weighted_kahan_op (st : T * T) (x w : T) : T * T :=
  let '(sum, comp) := st in
  let tmp1 := x * w - comp in
  let tmp2 := sum + tmp1 in
  (tmp2, (tmp2 - sum) - tmp1).

(** statistics/weighted_mean.hpp 33-58 (lazy) and 63-109 (immediate); [W] is the
    already updated sum of weights. *)
Definition weighted_mean_result (wsum W : T) : T := wsum / W.
Definition imm_weighted_mean_init (s0 : T) : T := (s0 * 1) / 1.
Definition imm_weighted_mean_op (mean W x w : T) : T :=
  (mean * (W - w) + x * w) / W.

(** statistics/weighted_variance.hpp 38-55 (lazy) and 70-115 (immediate). *)
Definition lazy_weighted_variance_result (wmoment2 wmean : T) : T := wmoment2 - wmean * wmean.
Definition weighted_variance_init (s0 : T) : T := s0 / 1.
Definition weighted_variance_op (wvar wmean W : T) (cnt : nat) (x w : T) : T :=
  if Nat.ltb 1 cnt then
    let tmp := x - wmean in
    (wvar * (W - w)) / W + (tmp * tmp * w) / (W - w)
  else wvar.

(** statistics/weighted_moment.hpp 36-72. *)
Definition weighted_moment_init (s0 : T) : T := s0 * 1.
Definition weighted_moment_op (N : nat) (sum x w : T) : option T :=
  match npow x N with Some p => Some (sum + w * p) | None => None end.
Definition weighted_moment_result (sum W : T) : T := sum / W.

(** statistics/weighted_covariance.hpp 56-109, scalar case. *)
Definition weighted_covariance_init (s0 v0 : T) : T := (s0 / 1 * 1) * (v0 / 1 * 1).
Definition weighted_covariance_op (cov wmean_v wmean_s W : T) (cnt : nat) (s v w : T) : T :=
  if Nat.ltb 1 cnt then
    cov * (W - w) / W + ((wmean_v - v) * (wmean_s - s)) * w / (W - w)
  else cov.

(** ** Small accumulator sets.
    One record per requested feature, holding the requested accumulator and the
    accumulators its [depends_on<>] list pulls in; [push] updates them in dependency
    order, as framework/accumulator_set.hpp 329-378 (operator() visits every accumulator
    in list order) and framework/depends_on.hpp 407-455 (the list is sorted by dependency)
    make the code do.  ModelFramework.v models that mechanism itself. *)

(** stats<tag::sum>; constructed with [sample = s0] (default [Sample()] = 0). *)
Definition sum_run (s0 : T) (xs : list T) : T := fold_left sum_op xs (sum_init s0).

(** stats<tag::sum_kahan>. *)
Definition kahan_run (s0 : T) (xs : list T) : T * T := fold_left kahan_op xs (kahan_init s0).

(** stats<tag::mean>: mean.hpp 100-105, depends_on<count, sum>. *)
Record mean_set := { ms_count : nat; ms_sum : T }.
Definition mean_set_init (s0 : T) : mean_set := {| ms_count := 0; ms_sum := sum_init s0 |}.
Definition mean_set_push (s : mean_set) (x : T) : mean_set :=
  {| ms_count := S (ms_count s); ms_sum := sum_op (ms_sum s) x |}.
Definition mean_set_run (s0 : T) (xs : list T) : mean_set :=
  fold_left mean_set_push xs (mean_set_init s0).
Definition mean_set_mean (s : mean_set) : T := mean_result (ms_sum s) (ms_count s).

(** stats<tag::immediate_mean>: mean.hpp 107-112, depends_on<count>. *)
Record imean_set := { im_count : nat; im_mean : T }.
Definition imean_set_init (s0 : T) : imean_set := {| im_count := 0; im_mean := imm_mean_init s0 |}.
Definition imean_set_push (s : imean_set) (x : T) : imean_set :=
  let cnt := S (im_count s) in
  {| im_count := cnt; im_mean := imm_mean_op (im_mean s) cnt x |}.
Definition imean_set_run (s0 : T) (xs : list T) : imean_set :=
  fold_left imean_set_push xs (imean_set_init s0).

(** stats<tag::variance>: variance.hpp 147-153, depends_on<count, immediate_mean>. *)
Record var_set := { vs_count : nat; vs_mean : T; vs_var : T }.
Definition var_set_init (s0 : T) : var_set :=
  {| vs_count := 0; vs_mean := imm_mean_init s0; vs_var := variance_init s0 |}.
Definition var_set_push (s : var_set) (x : T) : var_set :=
  let cnt := S (vs_count s) in
  let mean := imm_mean_op (vs_mean s) cnt x in
  {| vs_count := cnt; vs_mean := mean; vs_var := variance_op (vs_var s) mean cnt x |}.
Definition var_set_run (s0 : T) (xs : list T) : var_set :=
  fold_left var_set_push xs (var_set_init s0).

(** stats<tag::mean, tag::moment<N1>, tag::moment<N2>, ...>: count, sum and one power sum
    per requested order; serves lazy variance (variance.hpp 139-145, depends_on<moment<2>,
    mean>), skewness (skewness.hpp 81-87) and kurtosis (kurtosis.hpp 79-85).
    [None] iff an order is 0. *)
Record mom_set := { mo_count : nat; mo_sum : T; mo_sums : list T }.
Definition mom_set_init (Ns : list nat) (s0 : T) : mom_set :=
  {| mo_count := 0; mo_sum := sum_init s0; mo_sums := map (fun _ => moment_init s0) Ns |}.
Fixpoint moment_ops (Ns : list nat) (sums : list T) (x : T) : option (list T) :=
  match Ns, sums with
  | N :: Ns', s :: sums' =>
      match moment_op N s x, moment_ops Ns' sums' x with
      | Some s', Some r => Some (s' :: r)
      | _, _ => None
      end
  | [], [] => Some []
  | _, _ => None
  end.
Definition mom_set_push (Ns : list nat) (s : option mom_set) (x : T) : option mom_set :=
  match s with
  | None => None
  | Some s =>
    match moment_ops Ns (mo_sums s) x with
    | Some sums => Some {| mo_count := S (mo_count s); mo_sum := sum_op (mo_sum s) x; mo_sums := sums |}
    | None => None
    end
  end.
Definition mom_set_run (Ns : list nat) (s0 : T) (xs : list T) : option mom_set :=
  fold_left (mom_set_push Ns) xs (Some (mom_set_init Ns s0)).
Definition mom_set_mean (s : mom_set) : T := mean_result (mo_sum s) (mo_count s).
(** [accumulators::moment<N>(args)] for the i-th requested order. *)
Definition mom_set_moment (s : mom_set) (i : nat) : option T :=
  match nth_error (mo_sums s) i with
  | Some sm => Some (moment_result sm (mo_count s))
  | None => None
  end.

(** extraction of variance(lazy), moment<N>, skewness and kurtosis after a history *)
Definition moment_run (N : nat) (s0 : T) (xs : list T) : option T :=
  match mom_set_run [N] s0 xs with
  | Some s => mom_set_moment s 0
  | None => None
  end.
Definition lazy_variance_run (s0 : T) (xs : list T) : option T :=
  match mom_set_run [2%nat] s0 xs with
  | Some s => match mom_set_moment s 0 with
              | Some m2 => Some (lazy_variance_result m2 (mom_set_mean s))
              | None => None
              end
  | None => None
  end.
Definition skewness_run (sqrt : T -> T) (s0 : T) (xs : list T) : option T :=
  match mom_set_run [2%nat; 3%nat] s0 xs with
  | Some s => match mom_set_moment s 0, mom_set_moment s 1 with
              | Some m2, Some m3 => Some (skewness_result sqrt m3 m2 (mom_set_mean s))
              | _, _ => None
              end
  | None => None
  end.
Definition kurtosis_run (s0 : T) (xs : list T) : option T :=
  match mom_set_run [2%nat; 3%nat; 4%nat] s0 xs with
  | Some s => match mom_set_moment s 0, mom_set_moment s 1, mom_set_moment s 2 with
              | Some m2, Some m3, Some m4 => Some (kurtosis_result m4 m3 m2 (mom_set_mean s))
              | _, _, _ => None
              end
  | None => None
  end.
(** error_of<tag::mean> (error_of_mean.hpp 53-59: lazy variance) and
    error_of<tag::immediate_mean> (62-68: immediate variance). *)
Definition error_of_mean_run (sqrt : T -> T) (xs : list T) : option T :=
  match lazy_variance_run 0 xs with
  | Some v => Some (error_of_mean_result sqrt v (length xs))
  | None => None
  end.
Definition error_of_immediate_mean_run (sqrt : T -> T) (xs : list T) : T :=
  let s := var_set_run 0 xs in error_of_mean_result sqrt (vs_var s) (vs_count s).

(** stats<tag::covariance<V,Tag>>: covariance.hpp 174-179,
    depends_on<count, mean, mean_of_variates>, both means lazy (count, sum, sum_of_variates). *)
Record cov_set := { cs_count : nat; cs_sum : T; cs_sumv : T; cs_cov : T }.
Definition cov_set_init (s0 v0 : T) : cov_set :=
  {| cs_count := 0; cs_sum := sum_init s0; cs_sumv := sum_init v0; cs_cov := covariance_init s0 v0 |}.
Definition cov_set_push (s : cov_set) (xv : T * T) : cov_set :=
  let cnt := S (cs_count s) in
  let sm := sum_op (cs_sum s) (fst xv) in
  let sv := sum_op (cs_sumv s) (snd xv) in
  {| cs_count := cnt; cs_sum := sm; cs_sumv := sv;
     cs_cov := covariance_op (cs_cov s) (mean_result sv cnt) (mean_result sm cnt) cnt (fst xv) (snd xv) |}.
Definition cov_set_run (s0 v0 : T) (h : list (T * T)) : cov_set :=
  fold_left cov_set_push h (cov_set_init s0 v0).

(** Weighted sets; a history is a list of (sample, weight). *)

(** stats<tag::mean> with a weight type: as_weighted_feature maps it to weighted_mean
    (weighted_mean.hpp 119-125, depends_on<sum_of_weights, weighted_sum>). *)
Record wmean_set := { wm_W : T; wm_sum : T }.
Definition wmean_set_init (s0 w0 : T) : wmean_set := {| wm_W := sum_init w0; wm_sum := weighted_sum_init s0 |}.
Definition wmean_set_push (s : wmean_set) (xw : T * T) : wmean_set :=
  {| wm_W := sum_op (wm_W s) (snd xw); wm_sum := weighted_sum_op (wm_sum s) (fst xw) (snd xw) |}.
Definition wmean_set_run (s0 w0 : T) (h : list (T * T)) : wmean_set :=
  fold_left wmean_set_push h (wmean_set_init s0 w0).
Definition wmean_set_mean (s : wmean_set) : T := weighted_mean_result (wm_sum s) (wm_W s).

(** weighted Kahan sum. *)
Definition weighted_kahan_run (s0 : T) (h : list (T * T)) : T * T :=
  fold_left (fun st xw => weighted_kahan_op st (fst xw) (snd xw)) h (weighted_kahan_init s0).

(** stats<tag::variance> with a weight type: weighted_variance (weighted_variance.hpp,
    depends_on<count, immediate_weighted_mean>; the latter depends_on<sum_of_weights>). *)
Record wvar_set := { wv_count : nat; wv_W : T; wv_mean : T; wv_var : T }.
Definition wvar_set_init (s0 w0 : T) : wvar_set :=
  {| wv_count := 0; wv_W := sum_init w0; wv_mean := imm_weighted_mean_init s0;
     wv_var := weighted_variance_init s0 |}.
Definition wvar_set_push (s : wvar_set) (xw : T * T) : wvar_set :=
  let '(x, w) := xw in
  let cnt := S (wv_count s) in
  let W := sum_op (wv_W s) w in
  let mean := imm_weighted_mean_op (wv_mean s) W x w in
  {| wv_count := cnt; wv_W := W; wv_mean := mean;
     wv_var := weighted_variance_op (wv_var s) mean W cnt x w |}.
Definition wvar_set_run (s0 w0 : T) (h : list (T * T)) : wvar_set :=
  fold_left wvar_set_push h (wvar_set_init s0 w0).

(** weighted mean and weighted_moment<N> for several orders (lazy weighted variance,
    weighted_skewness.hpp 58-68, weighted_kurtosis.hpp 61-72: same formulae as the
    unweighted ones). *)
Record wmom_set := { wo_W : T; wo_sum : T; wo_sums : list T }.
Definition wmom_set_init (Ns : list nat) (s0 w0 : T) : wmom_set :=
  {| wo_W := sum_init w0; wo_sum := weighted_sum_init s0;
     wo_sums := map (fun _ => weighted_moment_init s0) Ns |}.
Fixpoint weighted_moment_ops (Ns : list nat) (sums : list T) (x w : T) : option (list T) :=
  match Ns, sums with
  | N :: Ns', s :: sums' =>
      match weighted_moment_op N s x w, weighted_moment_ops Ns' sums' x w with
      | Some s', Some r => Some (s' :: r)
      | _, _ => None
      end
  | [], [] => Some []
  | _, _ => None
  end.
Definition wmom_set_push (Ns : list nat) (s : option wmom_set) (xw : T * T) : option wmom_set :=
  match s with
  | None => None
  | Some s =>
    match weighted_moment_ops Ns (wo_sums s) (fst xw) (snd xw) with
    | Some sums => Some {| wo_W := sum_op (wo_W s) (snd xw);
                           wo_sum := weighted_sum_op (wo_sum s) (fst xw) (snd xw);
                           wo_sums := sums |}
    | None => None
    end
  end.
Definition wmom_set_run (Ns : list nat) (s0 w0 : T) (h : list (T * T)) : option wmom_set :=
  fold_left (wmom_set_push Ns) h (Some (wmom_set_init Ns s0 w0)).
Definition wmom_set_mean (s : wmom_set) : T := weighted_mean_result (wo_sum s) (wo_W s).
Definition wmom_set_moment (s : wmom_set) (i : nat) : option T :=
  match nth_error (wo_sums s) i with
  | Some sm => Some (weighted_moment_result sm (wo_W s))
  | None => None
  end.

Definition weighted_moment_run (N : nat) (s0 : T) (h : list (T * T)) : option T :=
  match wmom_set_run [N] s0 0 h with
  | Some s => wmom_set_moment s 0
  | None => None
  end.
Definition lazy_weighted_variance_run (s0 : T) (h : list (T * T)) : option T :=
  match wmom_set_run [2%nat] s0 0 h with
  | Some s => match wmom_set_moment s 0 with
              | Some m2 => Some (lazy_weighted_variance_result m2 (wmom_set_mean s))
              | None => None
              end
  | None => None
  end.
Definition weighted_skewness_run (sqrt : T -> T) (s0 : T) (h : list (T * T)) : option T :=
  match wmom_set_run [2%nat; 3%nat] s0 0 h with
  | Some s => match wmom_set_moment s 0, wmom_set_moment s 1 with
              | Some m2, Some m3 => Some (skewness_result sqrt m3 m2 (wmom_set_mean s))
              | _, _ => None
              end
  | None => None
  end.
Definition weighted_kurtosis_run (s0 : T) (h : list (T * T)) : option T :=
  match wmom_set_run [2%nat; 3%nat; 4%nat] s0 0 h with
  | Some s => match wmom_set_moment s 0, wmom_set_moment s 1, wmom_set_moment s 2 with
              | Some m2, Some m3, Some m4 => Some (kurtosis_result m4 m3 m2 (wmom_set_mean s))
              | _, _, _ => None
              end
  | None => None
  end.

(** weighted covariance; a history is a list of (sample, variate, weight). *)
Record wcov_set := { wc_count : nat; wc_W : T; wc_sum : T; wc_sumv : T; wc_cov : T }.
Definition wcov_set_init (s0 v0 w0 : T) : wcov_set :=
  {| wc_count := 0; wc_W := sum_init w0; wc_sum := weighted_sum_init s0;
     wc_sumv := weighted_sum_init v0; wc_cov := weighted_covariance_init s0 v0 |}.
Definition wcov_set_push (s : wcov_set) (xvw : T * T * T) : wcov_set :=
  let '(x, v, w) := xvw in
  let cnt := S (wc_count s) in
  let W := sum_op (wc_W s) w in
  let sm := weighted_sum_op (wc_sum s) x w in
  let sv := weighted_sum_op (wc_sumv s) v w in
  {| wc_count := cnt; wc_W := W; wc_sum := sm; wc_sumv := sv;
     wc_cov := weighted_covariance_op (wc_cov s) (weighted_mean_result sv W)
                 (weighted_mean_result sm W) W cnt x v w |}.
Definition wcov_set_run (s0 v0 w0 : T) (h : list (T * T * T)) : wcov_set :=
  fold_left wcov_set_push h (wcov_set_init s0 v0 w0).

End Basic.
