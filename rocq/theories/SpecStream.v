(** * Specification of endless random sources (C81) *)

From Verif Require Import GoBase GoNum Model Spec.
Local Open Scope Z_scope.

(** The bytes a source delivers, by position, and [k] of them from [pos] on. *)
Definition stream := nat -> byte.
Definition block (s : stream) (pos k : nat) : list byte := map s (seq pos k).

(** The secrets a generated key can have: 64 hexadecimal digits without a leading
    zero, below N - 1. *)
Definition in_range (v : Z) : Prop := 2 ^ 252 <= v < secp_N - 1.

(** The first 32-byte block of the source with such a number is the [m]-th. *)
Definition first_good (s : stream) (m : nat) : Prop :=
  in_range (bytes_number (block s (32 * m) 32)) /\
  forall j, (j < m)%nat -> ~ in_range (bytes_number (block s (32 * j) 32)).
