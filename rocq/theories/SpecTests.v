(** * Random sources the repository's tests can run on *)

From Verif Require Import GoBase Sha256 Spec SpecGo.

(** [draws n rd rest]: [n] usable blocks of 32 bytes can be taken from [rd] one after the
    other, and [rest] is left. *)
Inductive draws : nat -> list byte -> list byte -> Prop :=
| draws_none rd : draws 0 rd rd
| draws_more n rd z rd' rest : first_block 32 usable rd z rd' -> draws n rd' rest -> draws (S n) rd rest.

(** [rd] cut into pieces of these lengths. *)
Fixpoint pieces (sizes : list nat) (rd : list byte) : list (list byte) :=
  match sizes with
  | [] => []
  | k :: l => firstn k rd :: pieces l (skipn k rd)
  end.

(** Entropy whose hash has as many bits, leading zeros not counted, as the checksum
    needs: one bit for every four bytes of entropy. *)
Definition enough_hash (e : list byte) : Prop :=
  (length e <= 4 * length (drop_zero_bits (bits (sha256 (drop_zero_bytes e)))))%nat.

(** The lengths of the entropies the test of NewMnemonic draws in [n] rounds. *)
Definition entropy_sizes (n : nat) : list nat :=
  repeat 16 n ++ repeat 20 n ++ repeat 24 n ++ repeat 28 n ++ repeat 32 n.
