(** Property theorems C65: weighted P-square estimates of IEEE doubles. *)
From Coq Require Import ZArith List Reals.
From Verif Require Import Num ModelPSquare ModelDouble SpecDouble SpecDoubleVariance ProofDoubleEx ProofDoublePSquareEx
  ProofDoubleWPSquare2 ProofDoubleWPSquareEx.
Import ListNotations.
Local Open Scope R_scope.

(** From five samples on the weighted quantile estimate is finite and within the samples, whatever the weights:
    negative, zero, or so small or large that positions are rounded. *)
Theorem C65_weighted_p_square : forall (p : double) (es : list (double * double)), Few es -> (5 <= length es)%nat ->
  Within (2 ^ 1000) (map fst es) -> Within (2 ^ 900) (map snd es) -> finite p -> 0 <= val p <= 1 ->
  exists s r lo hi, wpq_run DoubleN p es = Ok s /\ pq_result DoubleN s = Ok r /\ finite r /\ Spans (map fst es) lo hi /\ val lo <= val r <= val hi.
Proof. exact wpq_double. Qed.
Print Assumptions C65_weighted_p_square.
Example C65_weighted_p_square_ex : (Few weighed /\ Within (2 ^ 1000) (map fst weighed) /\ Within (2 ^ 900) (map snd weighed)) /\
  match wpq_run DoubleN (half DoubleN) weighed with
  | Ok s => match pq_result DoubleN s with Ok r => shown_double r | _ => None end | _ => None end = Some (7963329198254044, -53)%Z.
Proof. exact (conj weighed_ok wpq_shown). Qed.

(** The heights of the weighted cumulative distribution ascend from the smallest sample to the largest. *)
Theorem C65_weighted_distribution : forall (b : nat) (es : list (double * double)), Few es -> (1 <= b)%nat -> (b < length es)%nat ->
  Within (2 ^ 1000) (map fst es) -> Within (2 ^ 900) (map snd es) ->
  exists s lo hi, wcd_run DoubleN b es = Ok s /\ Spans (map fst es) lo hi /\ length (wcd_pairs DoubleN s) = (b + 1)%nat /\
    nth_error (map fst (wcd_pairs DoubleN s)) 0 = Some lo /\ nth_error (map fst (wcd_pairs DoubleN s)) b = Some hi /\
    Ascending (map fst (wcd_pairs DoubleN s)) /\ Forall finite (map fst (wcd_pairs DoubleN s)).
Proof. exact wcd_double. Qed.
Print Assumptions C65_weighted_distribution.
Example C65_weighted_distribution_ex : match wcd_run DoubleN 3 weighed with Ok s => map (fun c => shown_double (fst c)) (wcd_pairs DoubleN s) | _ => [] end
  = [Some (4503599627370496, -55); Some (4503599627370496, -55); Some (6380099472108202, -53); Some (5066549580791808, -52)]%Z.
Proof. exact wcd_shown. Qed.

(** The estimates of several weighted quantiles ascend and stay within the samples. *)
Theorem C65_weighted_extended : forall (probs : list double) (es : list (double * double)), probs <> [] -> Few es ->
  (2 * length probs + 3 <= length es)%nat -> Within (2 ^ 1000) (map fst es) -> Within (2 ^ 900) (map snd es) ->
  Forall (fun p => finite p /\ 0 <= val p <= 1) probs ->
  exists s rs lo hi, wext_run DoubleN probs es = Ok s /\ ext_result DoubleN probs s = Ok rs /\ length rs = length probs /\
    Spans (map fst es) lo hi /\ Ascending rs /\ Forall (fun r => finite r /\ val lo <= val r <= val hi) rs.
Proof. exact wext_double. Qed.
Print Assumptions C65_weighted_extended.
Example C65_weighted_extended_ex : match wext_run DoubleN [quarter; three_quarters] weighed with
  | Ok s => match ext_result DoubleN [quarter; three_quarters] s with Ok l => map shown_double l | _ => [] end | _ => [] end
  = [Some (4503599627370496, -54); Some (5902932368732043, -53)]%Z.
Proof. exact wext_shown. Qed.
