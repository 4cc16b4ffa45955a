(** * crypto/rand.Int over an explicit random source

    The source is the list of bytes it will deliver before failing. The
    standard library's algorithm (crypto/rand/util.go, not in /repo): read
    [k = ceil(bitlen(max-1)/8)] bytes with io.ReadFull, clear the excess top
    bits of the first byte, retry until the big-endian value is below [max]. *)

From Verif Require Import GoBase GoNum.
Local Open Scope Z_scope.

Definition bit_len (n : Z) : Z := if n <=? 0 then 0 else Z.log2 n + 1.

(** Candidate value of a block: keep the low [bitlen] bits, which is clearing
    the top bits of the first byte because [8*(k-1) < bitlen <= 8*k]. *)
Definition rand_candidate (bitlen : Z) (block : list byte) : Z :=
  set_bytes block mod 2 ^ bitlen.

Fixpoint rand_loop (fuel : nat) (k : nat) (bitlen max : Z) (rd : list byte)
  : option (Z * list byte) :=
  match fuel with
  | O => None                              (* unreachable, see [rand_loop_fuel] *)
  | S f =>
      if (length rd <? k)%nat then None    (* io.ReadFull fails *)
      else let c := rand_candidate bitlen (firstn k rd) in
           if c <? max then Some (c, skipn k rd)
           else rand_loop f k bitlen max (skipn k rd)
  end.

(** [None] is the reader's error. [max > 0] is required (Go panics otherwise;
    both callers pass a positive constant). *)
Definition rand_int (max : Z) (rd : list byte) : option (Z * list byte) :=
  let bl := bit_len (max - 1) in
  if bl =? 0 then Some (0, rd)
  else rand_loop (S (length rd)) (Z.to_nat ((bl + 7) / 8)) bl max rd.
