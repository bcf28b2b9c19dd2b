(** Serialization of the circular buffer behind the rolling window, rolling_window.hpp 25-60.

    boost::circular_buffer (not in the repository) is modelled by its documented behaviour: a ring of
    [cb_cap] cells, the front element in cell [cb_first]; array_one() is the part of the contents up to
    the end of the ring, array_two() what is wrapped around to its beginning. *)
From Coq Require Import List Arith Bool.
From Verif Require Import Num ModelRolling SpecMachine.
Import ListNotations.

Section Circular.
Variable T : Type.

Record cbuf := { cb_cap : nat; cb_first : nat; cb_items : list T }.
(** push_back: logically ModelRolling.cb_push; in a full ring the front cell is overwritten and the
    front moves on. *)
Definition ring_push (b : cbuf) (x : T) : cbuf :=
  {| cb_cap := cb_cap b;
     cb_first := if Nat.eqb (length (cb_items b)) (cb_cap b) then Nat.modulo (S (cb_first b)) (cb_cap b) else cb_first b;
     cb_items := cb_push (cb_cap b) (cb_items b) x |}.
Definition array_one (b : cbuf) : list T := firstn (cb_cap b - cb_first b) (cb_items b).
Definition array_two (b : cbuf) : list T := skipn (cb_cap b - cb_first b) (cb_items b).

(** An archive that also has save_binary and load_binary.  [put xs] is what save_binary writes for the
    bytes of [xs] (nothing for none), [get n] what load_binary makes of the archive when it is asked for the
    bytes of [n] elements. *)
Inductive token := TNat (n : nat) | TByte (x : T) | TBlock (xs : list T).
Record raw := { put : list T -> list token; get : nat -> list token -> option (list T * list token) }.

(** A stream of bytes (binary archives): the boundaries between calls leave no trace. *)
Fixpoint get_bytes (n : nat) (ar : list token) : option (list T * list token) :=
  match n with
  | O => Some ([], ar)
  | S n => match ar with
           | TByte x :: r => match get_bytes n r with Some (xs, r') => Some (x :: xs, r') | None => None end
           | _ => None
           end
  end.
Definition byte_stream : raw := {| put := map TByte; get := get_bytes |}.
(** A sequence of separately encoded blocks (text archives encode every call of save_binary in base64
    and pad it): a block can be read as a whole only. *)
Definition blocks : raw :=
  {| put := fun xs => match xs with [] => [] | _ => [TBlock xs] end;
     get := fun n ar => match n with
                        | O => Some ([], ar)
                        | _ => match ar with
                               | TBlock xs :: r => if Nat.eqb (length xs) n then Some (xs, r) else None
                               | _ => None
                               end
                        end |}.

Variable A : raw.
(** rolling_window.hpp 29-39 *)
Definition ring_save (b : cbuf) : list token :=
  TNat (cb_cap b) :: TNat (length (cb_items b)) :: put A (array_one b) ++ put A (array_two b).
(** rolling_window.hpp 41-54: set_capacity, clear, load_binary into a temporary array, insert. *)
Definition ring_load (b : cbuf) (ar : list token) : option cbuf :=
  match ar with
  | TNat cap :: TNat size :: r =>
      match get A size r with
      | Some (xs, []) => Some {| cb_cap := cap; cb_first := if Nat.eqb cap (cb_cap b) then cb_first b else 0; cb_items := xs |}
      | _ => None
      end
  | _ => None
  end.

(** The rolling window: a buffer of window size + 1 elements (rolling_window.hpp 86-120); what is asked
    for is its contents. *)
Definition RingMachine (N : nat) : Machine :=
  {| MState := cbuf; MIn := T; MAsk := unit; MOut := list T;
     mstart := {| cb_cap := N + 1; cb_first := 0; cb_items := [] |};
     mfeed := fun b x => Ok (ring_push b x);
     mask := fun b _ => Ok (b, cb_items b) |}.
End Circular.
Arguments cb_cap {T}. Arguments cb_first {T}. Arguments cb_items {T}.
Arguments array_one {T}. Arguments array_two {T}.
