(** Specification of the peaks-over-threshold fit (Hosking and Wallis 1987, McNeil and Frey 2000, as in
    the documentation of peaks_over_threshold.hpp). *)
From Coq Require Import List.
From Verif Require Import Num ModelTail SpecStats.
Import ListNotations.

Section Spec.
Variable K : Num.
Local Notation T := (car K).
Local Notation "1" := (one K) : num_scope.
Local Notation "x + y" := (add K x y) : num_scope.
Local Notation "x - y" := (sub K x y) : num_scope.
Local Notation "x * y" := (mul K x y) : num_scope.
Local Notation "x / y" := (div K x y) : num_scope.
Local Open Scope num_scope.
Local Notation two := (1 + 1).

(** The left tail is treated as the right tail of the mirrored samples. *)
Definition Mirror (lr : side) (x : T) : T := match lr with Left => opp K x | Right => x end.
(** The (mirrored) samples strictly above the (mirrored) threshold. *)
Definition Exceedances (lr : side) (thr : T) (xs : list T) : list T :=
  filter (fun y => ltb K (Mirror lr thr) y) (map (Mirror lr) xs).
Definition WExceedances (lr : side) (thr : T) (es : list (T * T)) : list (T * T) :=
  filter (fun e => ltb K (Mirror lr thr) (fst e)) (map (fun e => (Mirror lr (fst e), snd e)) es).

(** Shape from the mean [m] and variance [v] of the exceedances of [u]. *)
Definition Xi (m v u : T) : T := (1 - power K (m - u) 2 / v) / two.
Definition Beta (m v u : T) : T := (m - u) / two * (1 + power K (m - u) 2 / v).
(** (u_bar, beta_bar, xi); [share] = 1 - F(u) is the share of the samples above the threshold. *)
Definition PotParameters (pw : T -> T -> T) (m v u share : T) : T * T * T :=
  let xi := Xi m v u in
  let beta_bar := Beta m v u * pw share xi in
  (u - beta_bar * (pw share (opp K xi) - 1) / xi, beta_bar, xi).

(** What the code returns, given the mean [m] and the variance [v] it found. *)
Definition FitIs (pw : T -> T -> T) (m v u share : T) (o : outcome (T * T * T)) : Prop :=
  (v <> zero K -> Xi m v u <> zero K -> o = Ok (PotParameters pw m v u share)) /\
  (v = zero K \/ v <> zero K /\ Xi m v u = zero K -> o = NotANumber).

(** Repeated extraction.  The members mu and sigma2 hold the sums before an extraction and the mean and the
    variance after it, so that the later ones are computed from both.  [m], [v]: what the previous extraction
    left; [n], [c]: exceedances and samples so far; one list of samples and one value for each extraction. *)
Inductive Refits (pw : T -> T -> T) (lr : side) (thr : T) : T -> T -> nat -> nat ->
    list (list T) -> list (outcome (T * T * T)) -> Prop :=
| refits_nil : forall m v n c, Refits pw lr thr m v n c [] []
| refits_cons : forall m v n c zs zss o os,
    let ys := Exceedances lr thr zs in
    let n' := (n + length ys)%nat in
    let c' := (c + length zs)%nat in
    let m' := (Mirror lr m + total K (fun y => y) ys) / ofnat K n' in
    let v' := (v + total K (fun y => power K y 2) ys) / ofnat K n' - power K m' 2 in
    FitIs pw m' v' (Mirror lr thr) (ofnat K n' / ofnat K c') o ->
    Refits pw lr thr m' v' n' c' zss os ->
    Refits pw lr thr m v n c (zs :: zss) (o :: os).

(** The same with weights: [w], [W]: the weight of the exceedances and of all samples so far. *)
Inductive WRefits (pw : T -> T -> T) (lr : side) (thr : T) : T -> T -> T -> T ->
    list (list (T * T)) -> list (outcome (T * T * T)) -> Prop :=
| wrefits_nil : forall m v w W, WRefits pw lr thr m v w W [] []
| wrefits_cons : forall m v w W zs zss o os,
    let ys := WExceedances lr thr zs in
    let w' := w + TotalWeight K ys in
    let W' := W + TotalWeight K zs in
    let m' := (Mirror lr m + total K (fun e => snd e * fst e) ys) / w' in
    let v' := (v + total K (fun e => snd e * power K (fst e) 2) ys) / w' - power K m' 2 in
    FitIs pw m' v' (Mirror lr thr) (w' / W') o ->
    WRefits pw lr thr m' v' w' W' zss os ->
    WRefits pw lr thr m v w W (zs :: zss) (o :: os).
End Spec.
