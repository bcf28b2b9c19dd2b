(** The tail statistics of ModelTail with samples of type double: nothing changes but the rank, which is
    computed in double precision. *)
From Coq Require Import ZArith.
From Flocq Require Import IEEE754.BinarySingleNaN.
From Verif Require Import Num ModelTail ModelDouble.

(** std::ceil and static_cast<std::size_t> (tail_quantile.hpp 71-77, tail_mean.hpp 133-139, 176-182).  The
    cast of a negative value, an infinity or a NaN is undefined in C++; here it gives 0, and no theorem
    meets that case. *)
Definition d_ceil (x : double) : nat := Z.to_nat (Btrunc (Bnearbyint mode_UP x)).

(** The rank that the tail statistics compute for [cnt] samples and the probability [p]. *)
Definition d_rank (lr : side) (cnt : nat) (p : double) : nat := tail_n DoubleN d_ceil lr cnt p.
