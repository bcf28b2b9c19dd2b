(** What arguments mean (C86), without argument packs: which value is given for which keyword. *)
From Coq Require Import List Bool Arith.
From Verif Require Import Num ModelPSquare ModelFramework ModelLibrary ModelSets ModelWhole ModelArgs.
Import ListNotations.

Section Meaning.
Variable K : Num.

(** The keyword that an argument is for. *)
Definition keyword_of (a : actual K) : keyword := match a with Positional _ => k_sample | Named k _ => k end.

(** [v] is given for [k]: by name, or as a first argument without a name, which is the sample. *)
Definition given (l : list (actual K)) (k : keyword) (v : argument K) : Prop :=
  In (Named k v) l \/ (k = k_sample /\ exists r, l = Positional v :: r).

(** Only the first argument may go without a name, no keyword occurs twice, the set is not an argument, and there
    are not too many. *)
Definition legal (l : list (actual K)) : Prop :=
  (forall i v, nth_error l i = Some (Positional v) -> i = O) /\ NoDup (map keyword_of l) /\
  ~ In k_accumulator (map keyword_of l) /\ (length l <= 15)%nat.

(** The same values for the same keywords. *)
Definition same_arguments (l m : list (actual K)) : Prop := forall k v, given l k v <-> given m k v.

(** ... for the keywords [ks]. *)
Definition same_for (ks : keyword -> Prop) (l m : list (actual K)) : Prop :=
  forall k v, ks k -> (given l k v <-> given m k v).

Definition of_kind (kd : kind) (v : argument K) : Prop :=
  match kd, v with scalar, Scalar _ | vector, Vector _ | size, Size _ => True | _, _ => False end.

(** The keywords that some accumulator of a set looks up, given what each one does. *)
Definition wanted (needs : ltag -> list (keyword * kind)) (ts : list (ftag Library)) (k : keyword) (kd : kind) : Prop :=
  exists t, In t ts /\ In (k, kd) (needs (fst t)).

(** Everything that is looked up without a default is there; what is given and looked up has the right type. *)
Definition complete (needs : ltag -> list (keyword * kind)) (ts : list (ftag Library)) (l : list (actual K)) : Prop :=
  forall k kd, wanted needs ts k kd -> exists v, given l k v /\ of_kind kd v.
Definition well_typed (takes : ltag -> list (keyword * kind)) (ts : list (ftag Library)) (l : list (actual K)) : Prop :=
  forall k kd v, wanted takes ts k kd -> given l k v -> of_kind kd v.

(** The field of a sample that goes with a keyword ... *)
Definition field (p : pack K) (k : keyword) (kd : kind) : option (argument K) :=
  match k, kd with
  | k_sample, scalar => Some (Scalar (p_sample p))
  | k_weight, scalar => Some (Scalar (p_weight p))
  | k_variate n, scalar => Some (Scalar (p_variate p n))
  | k_variate n, vector => Some (Vector (p_vector p n))
  | _, _ => None
  end.
(** ... and the parameter of a set. *)
Definition parameter (A : Args K) (k : keyword) : option (argument K) :=
  match k with
  | k_window_size => Some (Size (a_window K A))
  | k_density_cache_size => Some (Size (a_density_cache K A))
  | k_density_num_bins => Some (Size (a_density_bins K A))
  | k_quantile_probability => Some (Scalar (a_probability K A))
  | k_num_cells => Some (Size (a_cells K A))
  | k_probabilities => Some (Vector (a_probabilities K A))
  | k_cache_size _ => Some (Size (a_tail_cache K A))
  | k_threshold_value => Some (Scalar (a_threshold K A))
  | k_threshold_probability => Some (Scalar (a_threshold_probability K A))
  | _ => None
  end.

(** The sample [p] is what the arguments [l] say, as far as the accumulators [ts] are concerned. *)
Definition says (ts : list (ftag Library)) (l : list (actual K)) (p : pack K) : Prop :=
  forall k kd v, wanted op_needs ts k kd -> given l k v -> field p k kd = Some v.

(** [A] is what the arguments [l] of the constructor say; quantile_probability is one half if not given. *)
Definition sets_up (P : Platform K) (ts : list (ftag Library)) (l : list (actual K)) (A : Args K) : Prop :=
  a_lowest K A = pl_lowest K P /\ a_highest K A = pl_highest K P /\ a_heap K A = pl_heap K P /\
  a_ceil K A = pl_ceil K P /\ a_pow K A = pl_pow K P /\
  (forall k kd v, wanted ctor_takes ts k kd -> given l k v -> parameter A k = Some v) /\
  (wanted ctor_takes ts k_quantile_probability scalar -> (forall v, ~ given l k_quantile_probability v) ->
   a_probability K A = half K).

(** Nothing that starts a sum is given. *)
Definition unbiased (l : list (actual K)) : Prop :=
  forall v n, ~ given l k_sample v /\ ~ given l k_weight v /\ ~ given l (k_variate n) v.

(** A deed and the event it is. *)
Definition deed_is (P : Platform K) (A : Args K) (ts : list (ftag Library)) (d : deed K)
  (e : event Library (WholeSets K A (pl_sqrt K P))) : Prop :=
  match d, e with
  | Call l, Push _ _ p => legal l /\ complete op_needs ts l /\ says ts l p
  | Let_go t, Drop _ _ u => t = u
  | _, _ => False
  end.

(** Deeds that differ only in how the arguments are written; or in arguments that are not looked up. *)
Definition rewritten (d d' : deed K) : Prop :=
  match d, d' with
  | Call l, Call l' => legal l /\ legal l' /\ same_arguments l l'
  | Let_go t, Let_go u => t = u
  | _, _ => False
  end.
Definition alike_for (ks : keyword -> Prop) (d d' : deed K) : Prop :=
  match d, d' with
  | Call l, Call l' => same_for ks l l'
  | Let_go t, Let_go u => t = u
  | _, _ => False
  end.

(** A call that compiles. *)
Definition fine (ts : list (ftag Library)) (d : deed K) : Prop :=
  match d with Call l => legal l /\ complete op_needs ts l | Let_go _ => True end.

End Meaning.
