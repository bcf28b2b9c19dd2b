(** Sessions with an accumulator set: samples go in, extractors are called, at any time and in any
    order; and what it means that extracting is an observation, and that saving and loading loses
    nothing. *)
From Coq Require Import List Bool.
From Verif Require Import Num.
Import ListNotations.

(** A set as its user sees it.  Both operations can be undefined behaviour ([UB]); a NaN that is
    merely returned is a value of [MOut]. *)
Record Machine := mkMachine {
  MState : Type;
  MIn : Type;                                                 (* argument packs *)
  MAsk : Type;                                                (* extractor calls *)
  MOut : Type;
  mstart : MState;                                            (* the set as constructed *)
  mfeed : MState -> MIn -> outcome MState;                    (* acc(args) *)
  mask : MState -> MAsk -> outcome (MState * MOut)            (* extractor(acc, args) *)
}.

Section Sessions.
Variable M : Machine.

Inductive mcall := Feed (x : MIn M) | Ask (q : MAsk M).

Definition mstep (o : outcome (MState M)) (c : mcall) : outcome (MState M) :=
  match o with
  | Ok s => match c with
            | Feed x => mfeed M s x
            | Ask q => match mask M s q with Ok (s', _) => Ok s' | NotANumber => NotANumber | UB => UB end
            end
  | o => o
  end.
Definition mrun (s : MState M) (cs : list mcall) : outcome (MState M) := fold_left mstep cs (Ok s).

(** What the extractor call [q] returns in a state. *)
Definition answer (o : outcome (MState M)) (q : MAsk M) : outcome (MOut M) :=
  match o with
  | Ok s => match mask M s q with Ok (_, r) => Ok r | NotANumber => NotANumber | UB => UB end
  | NotANumber => NotANumber
  | UB => UB
  end.

Definition inputs (cs : list mcall) : list (MIn M) :=
  flat_map (fun c => match c with Feed x => [x] | Ask _ => [] end) cs.

(** The extractor calls made during a session (as long as they are defined) do not change what a later
    call returns: it returns what it would have returned had there been none.  [P]: which inputs,
    [Q]: which extractors. *)
Definition Observation (P : list (MIn M) -> Prop) (Q : MAsk M -> Prop) : Prop :=
  forall cs s q, P (inputs cs) -> Q q -> mrun (mstart M) cs = Ok s ->
  answer (Ok s) q = answer (mrun (mstart M) (map Feed (inputs cs))) q.

(** [save s] is the archive written in state [s]; [load s ar] what loading [ar] into a set in state
    [s] gives. *)
Definition RoundTrip {Ar : Type} (save : MState M -> Ar) (load : MState M -> Ar -> option (MState M))
    (P : list (MIn M) -> Prop) : Prop :=
  forall cs s, P (inputs cs) -> mrun (mstart M) cs = Ok s ->
  exists s', load (mstart M) (save s) = Some s' /\
    forall cs' q, answer (mrun s' cs') q = answer (mrun s cs') q.
End Sessions.

Arguments Feed {M} _.
Arguments Ask {M} _.
Arguments mrun {M} _ _.
Arguments mstep {M} _ _.
Arguments answer {M} _ _.
Arguments inputs {M} _.
Definition anything {A : Type} (_ : A) : Prop := True.
