(** Saving and loading whole accumulator sets (ModelFramework): accumulator_set::serialize visits the
    accumulators in order and calls serialize() of each (accumulator_set.hpp 102-123, 447-453). *)
From Coq Require Import List Bool Arith ZArith.
From Verif Require Import Num ModelBasic ModelRolling ModelFramework ModelLibrary ModelSets ModelRollingSets
  SpecMachine ModelArchive.
Import ListNotations.

Section SetArchive.
Variable L : Lib.
Variable B : Behaviour L.
Variable T : Type.
(** What serialize() of the accumulator implementing a tag writes and reads; [None]: there is no
    serialize(), and serializing a set that contains it does not compile. *)
Variable codec_of : tag L -> option (codec T (State L B)).

Fixpoint save_set (s : accset L B) : list (item T) :=
  match s with
  | [] => []
  | a :: s => match codec_of (fst (who L B a)) with Some c => enc c (state L B a) | None => [] end ++ save_set s
  end.
(** Loading into an existing set: every accumulator keeps its identity and, as
    droppable_accumulator_base has no serialize() of its own, its reference count. *)
Fixpoint load_set (s : accset L B) (ar : list (item T)) : option (accset L B) :=
  match s with
  | [] => match ar with [] => Some [] | _ => None end
  | a :: s =>
      match codec_of (fst (who L B a)) with
      | None => None
      | Some c => match dec c ar with
                  | None => None
                  | Some (st, ar) => match load_set s ar with
                                     | None => None
                                     | Some s => Some (mkAcc L B (who L B a) (refs L B a) (tripped L B a) st :: s)
                                     end
                  end
      end
  end.

(** The set as a machine: it is fed samples and drops and asked for features.  Extraction from an
    accumulator_set is a const member function (accumulator_set.hpp 393-420). *)
Definition SetMachine (enum : fmap L -> fmap L) (W : bool) (fs : list (request L)) : Machine :=
  {| MState := accset L B; MIn := event L B; MAsk := tag L; MOut := Result L B;
     mstart := construct L B enum W fs;
     mfeed := fun s e => Ok (handle L B s e);
     mask := fun s f => Ok (s, read L B s f) |}.
End SetArchive.

(** What the accumulators of ModelSets and ModelRollingSets write. *)
Section Library.
Variable K : Num.
Variable sqrt : car K -> car K.
Variable N : nat.        (* rolling_window_size *)
Local Notation T := (car K).
Local Notation cell := (cell K (rcell K)).

Definition w_nothing (c : cell) : codec T cell := c_map c_unit (fun _ => tt) (fun _ => c).
Definition w_nat : codec T cell :=
  c_map c_nat (fun s => match s with CNat n => n | _ => 0%nat end) CNat.
Definition w_num : codec T cell :=
  c_map c_num (fun s => match s with CNum a => a | _ => zero K end) CNum.
Definition w_pair : codec T cell :=
  c_map (c_pair c_num c_num) (fun s => match s with CPair a b => (a, b) | _ => (zero K, zero K) end)
    (fun p => CPair (fst p) (snd p)).
Definition w_rnum : codec T cell :=
  c_map c_num (fun s => match s with CRest (RNum a) => a | _ => zero K end) (fun a => CRest (RNum a)).
Definition w_rpair : codec T cell :=
  c_map (c_pair c_num c_num) (fun s => match s with CRest (RPair a b) => (a, b) | _ => (zero K, zero K) end)
    (fun p => CRest (RPair (fst p) (snd p))).
(** rolling_window.hpp 28-60, in an archive that is a stream of bytes: capacity, size, and the elements
    of the two halves of the circular buffer, which are its elements in order (see ModelCircular). *)
Definition w_buffer : codec T cell :=
  c_map (c_pair c_nat (c_list c_num))
    (fun s => ((N + 1)%nat, match s with CRest (RBuf b) => b | _ => [] end)) (fun p => CRest (RBuf (snd p))).

(** Every serialize() member of the accumulators of [basic] and [rolling]. *)
Definition serializer (t : ltag) : option (codec T cell) :=
  match t with
  | t_count => Some w_nat                                               (* count.hpp 48-51 *)
  | t_sum | t_sum_of_weights | t_sum_of_variates _ => Some w_num        (* sum.hpp 55-58 *)
  | t_sum_kahan | t_sum_of_weights_kahan | t_sum_of_variates_kahan _    (* sum_kahan.hpp 70-75 *)
  | t_weighted_sum_kahan | t_weighted_sum_of_variates_kahan _ => Some w_pair  (* weighted_sum_kahan.hpp 72-77 *)
  | t_weighted_sum | t_weighted_sum_of_variates _ => Some w_num         (* weighted_sum.hpp 59-63 *)
  | t_mean | t_mean_of_weights | t_mean_of_variates _ => Some (w_nothing CNone)  (* mean.hpp 47 *)
  | t_immediate_mean | t_immediate_mean_of_weights | t_immediate_mean_of_variates _ => Some w_num (* mean.hpp 79-82 *)
  | t_immediate_weighted_mean | t_immediate_weighted_mean_of_variates _ => Some w_num (* weighted_mean.hpp 102-105 *)
  | t_moment (S _) => Some w_num                                        (* moment.hpp 80-83 *)
  | t_weighted_moment (S _) => Some w_num                               (* weighted_moment.hpp 65-68 *)
  | t_lazy_variance => Some (w_nothing CNone)                           (* variance.hpp 59 *)
  | t_variance => Some w_num                                            (* variance.hpp 122-125 *)
  | t_weighted_variance => Some w_num                                   (* weighted_variance.hpp 108-111 *)
  | t_skewness => Some (w_nothing CNone)                                (* skewness.hpp 71 *)
  | t_kurtosis => Some (w_nothing CNone)                                (* kurtosis.hpp 69 *)
  | t_covariance _ => Some w_num                                        (* covariance.hpp 157-160 *)
  | t_weighted_covariance _ => Some w_num                               (* weighted_covariance.hpp 102-105 *)
  | t_rolling_window_plus1 => Some w_buffer                             (* rolling_window.hpp 125-129 *)
  | t_rolling_window => Some (w_nothing (CRest RNone))                  (* rolling_window.hpp 163 *)
  | t_rolling_count => Some (w_nothing (CRest RNone))                   (* rolling_count.hpp 46 *)
  | t_rolling_sum => Some w_rnum                                        (* rolling_sum.hpp 55-59 *)
  | t_rolling_moment (S _) => Some w_rnum                               (* rolling_moment.hpp 62-66 *)
  | t_lazy_rolling_mean => Some (w_nothing (CRest RNone))               (* rolling_mean.hpp 49 *)
  | t_rolling_mean | t_immediate_rolling_mean => Some w_rnum            (* rolling_mean.hpp 96-100 *)
  | t_lazy_rolling_variance => Some (w_nothing (CRest RNone))           (* rolling_variance.hpp 68 *)
  | t_rolling_variance | t_immediate_rolling_variance => Some w_rpair   (* rolling_variance.hpp 147-152 *)
  (* No serialize(): weighted_mean.hpp 33-61, weighted_variance.hpp 38-68, weighted_skewness.hpp 46-75,
     weighted_kurtosis.hpp 45-79, error_of_mean.hpp 23-55.  A moment of order 0 is rejected at compile
     time (moment.hpp 56).  The other accumulators: ModelMachines. *)
  | _ => None
  end.
End Library.
