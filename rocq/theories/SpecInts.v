(** * Ints of a machine

    The Go specification: an int has 32 or 64 bits, in two's complement, and its
    arithmetic wraps around on overflow. Here a machine has ints of [bits] bits. *)

From Verif Require Import GoBase GoSem.
Local Open Scope Z_scope.

(** the numbers an int can hold *)
Definition int_fits (bits z : Z) : Prop := - 2 ^ (bits - 1) <= z < 2 ^ (bits - 1).

(** Ints of [bits] bits whose arithmetic is right as long as the result fits.
    Nothing is said about a result that does not fit. *)
Definition ints_of (bits : Z) (L : limits) : Prop :=
  lowest L = O /\ forall z, int_fits bits z -> as_int L z = z.

(** two's complement: the int that a result is reduced to *)
Definition wrap_int (bits z : Z) : Z := (z + 2 ^ (bits - 1)) mod 2 ^ bits - 2 ^ (bits - 1).
Definition with_ints (bits : Z) : limits := Limits O (wrap_int bits).
