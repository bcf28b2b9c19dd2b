(** Model of the peaks-over-threshold accumulators: statistics/peaks_over_threshold.hpp,
    weighted_peaks_over_threshold.hpp, pot_quantile.hpp, pot_tail_mean.hpp. *)
From Coq Require Import List Arith Bool.
From Verif Require Import Num ModelTail ModelPSquare.
Import ListNotations.

Section Pot.
Variable K : Num.
Local Notation T := (car K).
Local Notation "0" := (zero K) : num_scope.
Local Notation "1" := (one K) : num_scope.
Local Notation "x + y" := (add K x y) : num_scope.
Local Notation "x - y" := (sub K x y) : num_scope.
Local Notation "x * y" := (mul K x y) : num_scope.
Local Notation "x / y" := (div K x y) : num_scope.
Local Notation "- x" := (opp K x) : num_scope.
Local Notation "x <? y" := (ltb K x y) : num_scope.
Local Notation "# n" := (ofnat K n) (at level 2) : num_scope.
Local Open Scope num_scope.
(** [pw] is std::pow. *)
Variable pw : T -> T -> T.
Variable lr : side.

(** sign::value * x, peaks_over_threshold.hpp 132, 227 *)
Definition sgn (x : T) : T := match lr with Left => - x | Right => x end.

(** peaks_over_threshold.hpp 173-178 = 290-294 and the same lines of the weighted header.
    [NotANumber] stands for a triple with an infinite or NaN component: division by a zero
    variance or by xi_hat = 0. *)
Definition pot_fit (mu sigma2 u threshold_probability : T) : outcome (T * T * T) :=
  if keqb K sigma2 0 then NotANumber
  else
    let tmp := (mu - u) * (mu - u) / sigma2 in
    let xi_hat := half K * (1 - tmp) in
    if keqb K xi_hat 0 then NotANumber
    else
      let beta_hat := half K * (mu - u) * (1 + tmp) in
      let beta_bar := beta_hat * pw (1 - threshold_probability) xi_hat in
      let u_bar := u - beta_bar * (pw (1 - threshold_probability) (- xi_hat) - 1) / xi_hat in
      Ok (u_bar, beta_bar, xi_hat).

(** *** peaks_over_threshold_impl, peaks_over_threshold.hpp 124-206.  The two mutable sums become
    NaN ([None]) when they are divided by zero. *)
Record pot := {
  po_n : nat;
  po_mu : option T;
  po_sigma2 : option T;
  po_threshold : T;
  po_fit : outcome (T * T * T);
  po_dirty : bool
}.
(** 134-143 *)
Definition pot_init (s0 thr : T) : pot :=
  {| po_n := 0; po_mu := Some (sgn (s0 / 1)); po_sigma2 := Some (s0 / 1); po_threshold := sgn thr;
     po_fit := Ok (0, 0, 0); po_dirty := true |}.
Definition oadd (a : option T) (x : T) : option T := match a with Some a => Some (a + x) | None => None end.
(** 145-156 *)
Definition pot_op (s : pot) (x : T) : pot :=
  if po_threshold s <? sgn x then
    {| po_n := S (po_n s); po_mu := oadd (po_mu s) x; po_sigma2 := oadd (po_sigma2 s) (x * x);
       po_threshold := po_threshold s; po_fit := po_fit s; po_dirty := true |}
  else
    {| po_n := po_n s; po_mu := po_mu s; po_sigma2 := po_sigma2 s;
       po_threshold := po_threshold s; po_fit := po_fit s; po_dirty := true |}.
(** 158-182: result() overwrites the sums with the mean and the variance. *)
Definition pot_extract (s : pot) (cnt : nat) : pot :=
  if po_dirty s then
    match po_n s, po_mu s, po_sigma2 s with
    | S _, Some m, Some q =>
        let mu := sgn (m / #(po_n s)) in
        let sigma2 := q / #(po_n s) - mu * mu in
        {| po_n := po_n s; po_mu := Some mu; po_sigma2 := Some sigma2; po_threshold := po_threshold s;
           po_fit := pot_fit mu sigma2 (po_threshold s) (#(cnt - po_n s) / #cnt); po_dirty := false |}
    | _, _, _ =>
        {| po_n := po_n s; po_mu := None; po_sigma2 := None; po_threshold := po_threshold s;
           po_fit := NotANumber; po_dirty := false |}
    end
  else s.
Inductive pot_ops := PPush (x w : T) | PExtract.
(** The set: count, the accumulator, and the values returned so far. *)
Definition pot_step (st : nat * pot * list (outcome (T * T * T))) (o : pot_ops) :=
  let '(cnt, s, out) := st in
  match o with
  | PPush x _ => (S cnt, pot_op s x, out)
  | PExtract => let s' := pot_extract s cnt in (cnt, s', out ++ [po_fit s'])
  end.
Definition pot_session (s0 thr : T) (ops : list pot_ops) := fold_left pot_step ops (0%nat, pot_init s0 thr, []).
Definition pot_out (s0 thr : T) (ops : list pot_ops) : list (outcome (T * T * T)) := snd (pot_session s0 thr ops).

(** *** weighted_peaks_over_threshold_impl, weighted_peaks_over_threshold.hpp 54-133. *)
Record wpot := {
  wo_w : T;
  wo_mu : option T;
  wo_sigma2 : option T;
  wo_threshold : T;
  wo_fit : outcome (T * T * T);
  wo_dirty : bool
}.
Definition wpot_init (s0 w0 thr : T) : wpot :=
  {| wo_w := w0 / 1; wo_mu := Some (sgn (s0 / 1)); wo_sigma2 := Some (s0 / 1); wo_threshold := sgn thr;
     wo_fit := Ok (0, 0, 0); wo_dirty := true |}.
Definition wpot_op (s : wpot) (x w : T) : wpot :=
  if wo_threshold s <? sgn x then
    {| wo_w := wo_w s + w; wo_mu := oadd (wo_mu s) (w * x); wo_sigma2 := oadd (wo_sigma2 s) (w * x * x);
       wo_threshold := wo_threshold s; wo_fit := wo_fit s; wo_dirty := true |}
  else
    {| wo_w := wo_w s; wo_mu := wo_mu s; wo_sigma2 := wo_sigma2 s;
       wo_threshold := wo_threshold s; wo_fit := wo_fit s; wo_dirty := true |}.
(** [W] is sum_of_weights(args). *)
Definition wpot_extract (s : wpot) (W : T) : wpot :=
  if wo_dirty s then
    match keqb K (wo_w s) 0, wo_mu s, wo_sigma2 s with
    | false, Some m, Some q =>
        let mu := sgn (m / wo_w s) in
        let sigma2 := q / wo_w s - mu * mu in
        {| wo_w := wo_w s; wo_mu := Some mu; wo_sigma2 := Some sigma2; wo_threshold := wo_threshold s;
           wo_fit := pot_fit mu sigma2 (wo_threshold s) ((W - wo_w s) / W); wo_dirty := false |}
    | _, _, _ =>
        {| wo_w := wo_w s; wo_mu := None; wo_sigma2 := None; wo_threshold := wo_threshold s;
           wo_fit := NotANumber; wo_dirty := false |}
    end
  else s.
Definition wpot_step (st : T * wpot * list (outcome (T * T * T))) (o : pot_ops) :=
  let '(W, s, out) := st in
  match o with
  | PPush x w => (W + w, wpot_op s x w, out)
  | PExtract => let s' := wpot_extract s W in (W, s', out ++ [wo_fit s'])
  end.
Definition wpot_session (s0 w0 thr : T) (ops : list pot_ops) := fold_left wpot_step ops (w0, wpot_init s0 w0 thr, []).
Definition wpot_out (s0 w0 thr : T) (ops : list pot_ops) : list (outcome (T * T * T)) := snd (wpot_session s0 w0 thr ops).

(** *** peaks_over_threshold_prob_impl, peaks_over_threshold.hpp 219-329.  The tail and the count
    are those of the set; [ceil] as in ModelTail. *)
Variable ceil : T -> nat.
Record ppot := {
  pp_mu : T;
  pp_sigma2 : T;
  pp_prob : T;
  pp_fit : outcome (T * T * T);
  pp_dirty : bool
}.
(** 229-237 *)
Definition ppot_init (s0 p : T) : ppot :=
  {| pp_mu := sgn (s0 / 1); pp_sigma2 := s0 / 1; pp_prob := p; pp_fit := Ok (0, 0, 0); pp_dirty := true |}.
(** 239-242 *)
Definition ppot_op (s : ppot) : ppot :=
  {| pp_mu := pp_mu s; pp_sigma2 := pp_sigma2 s; pp_prob := pp_prob s; pp_fit := pp_fit s; pp_dirty := true |}.
(** 244-307: the new state and the value returned.  [begin + n - 1] with n = 0 is undefined. *)
Definition ppot_extract (s : ppot) (cnt : nat) (tl : list T) : outcome (ppot * outcome (T * T * T)) :=
  if pp_dirty s then
    let n := ceil (#cnt * tail_level K lr (pp_prob s)) in
    if Nat.leb (length tl) n then
      Ok ({| pp_mu := pp_mu s; pp_sigma2 := pp_sigma2 s; pp_prob := pp_prob s; pp_fit := pp_fit s; pp_dirty := false |},
          NotANumber)
    else match n with
    | O => UB
    | S m =>
        match nth_error tl m with
        | None => UB
        | Some v =>
            let u := sgn v in
            let mu := sgn (fold_left (add K) (firstn n tl) (pp_mu s) / #n) in
            let sigma2 := fold_left (add K) (map (fun x => x * x) (firstn n tl)) (pp_sigma2 s) / #n - mu * mu in
            let prob := match lr with Left => 1 - pp_prob s | Right => pp_prob s end in
            let fit := pot_fit mu sigma2 u prob in
            Ok ({| pp_mu := mu; pp_sigma2 := sigma2; pp_prob := prob; pp_fit := fit; pp_dirty := false |}, fit)
        end
    end
  else Ok (s, pp_fit s).

(** *** weighted_peaks_over_threshold_prob_impl, weighted_peaks_over_threshold.hpp 146-242.
    168-205: the loop over the cached samples [tl] and weights [ws]; [false]: the cache is
    exhausted (NaN is returned, the sums keep what was added). *)
Fixpoint wppot_loop (threshold sum : T) (n : nat) (mu sigma2 : T) (tl ws : list T) : bool * nat * T * T * T :=
  if sum <? threshold then
    match ws, tl with
    | w :: ws, x :: tl => wppot_loop threshold (sum + w) (S n) (mu + w * x) (sigma2 + w * x * x) tl ws
    | _, _ => (false, n, sum, mu, sigma2)
    end
  else (true, n, sum, mu, sigma2).
Definition wppot_extract (s : ppot) (W : T) (tl ws : list T) : outcome (ppot * outcome (T * T * T)) :=
  if pp_dirty s then
    match wppot_loop (W * tail_level K lr (pp_prob s)) 0 0 (pp_mu s) (pp_sigma2 s) tl ws with
    | (false, _, _, m, q) =>
        Ok ({| pp_mu := m; pp_sigma2 := q; pp_prob := pp_prob s; pp_fit := pp_fit s; pp_dirty := false |}, NotANumber)
    | (true, O, _, _, _) => UB
    | (true, S i, sum, m, q) =>
        match nth_error tl i with
        | None => UB
        | Some v =>
            let u := sgn v in
            let mu := sgn (m / sum) in
            let sigma2 := q / sum - mu * mu in
            let prob := match lr with Left => 1 - pp_prob s | Right => pp_prob s end in
            let fit := pot_fit mu sigma2 u prob in
            Ok ({| pp_mu := mu; pp_sigma2 := sigma2; pp_prob := prob; pp_fit := fit; pp_dirty := false |}, fit)
        end
    end
  else Ok (s, pp_fit s).

(** *** pot_quantile.hpp 61-82 and pot_tail_mean.hpp 64-92, for a finite fit with xi_hat <> 0 (and
    xi_hat <> 1 for the tail mean).  The weighted features use the same text. *)
Definition pot_quantile_result (fit : T * T * T) (p : T) : T :=
  let '(u_bar, beta_bar, xi_hat) := fit in
  sgn (u_bar + beta_bar / xi_hat * (pw (match lr with Left => p | Right => 1 - p end) (- xi_hat) - 1)).
(** The tail mean, given what the set reports as quantile. *)
Definition pot_tail_mean_of (q : T) (fit : T * T * T) (p : T) : T :=
  let '(_, beta_bar, xi_hat) := fit in
  q - sgn (beta_bar / (xi_hat - 1) * pw (match lr with Left => p | Right => 1 - p end) (- xi_hat)).
Definition pot_tail_mean_result (fit : T * T * T) (p : T) : T :=
  pot_tail_mean_of (pot_quantile_result fit p) fit p.
End Pot.
