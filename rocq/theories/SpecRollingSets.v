(** What a set must answer for the rolling-window features: the textbook value over
    the last N samples, whatever else the set contains. *)

From Coq Require Import List Arith.
From Verif Require Import Num SpecStats SpecRolling ModelFramework ModelLibrary ModelSets SpecSets ModelRollingSets.
Import ListNotations.

(** [f] after [xs], window size [N].  The quotients of an empty window are left open. *)
Definition RollingAnswer (K : Num) (N : nat) (f : ltag) (xs : list (pack K)) (a : value K (rcell K)) : Prop :=
  let w := LastN N (samples_of K xs) in
  match f with
  | t_rolling_window_plus1 => a = VRest (RBuf (LastN (N + 1) (samples_of K xs)))
  | t_rolling_window => a = VRest (RBuf w)
  | t_rolling_count => a = VRest (RNat (Nat.min (length xs) N))
  | t_rolling_sum => a = VRest (RNum (total K (fun x => x) w))
  | t_rolling_moment n => w <> [] -> a = VRest (RNum (Moment K n w))
  | t_rolling_mean => w <> [] -> a = VRest (RNum (Mean K w))
  | t_rolling_variance =>
      a = VRest (RNum (if Nat.ltb (length w) 2 then zero K else SampleVariance K w))
  | _ => True
  end.

(** The orders of rolling moments are positive (static assertion, rolling_moment.hpp 35). *)
Definition rolling_order_ok (t : ltag) : Prop :=
  match t with t_rolling_moment n => 1 <= n | _ => True end.
