(** * Which keys a program can get hold of: the calls that return a private key *)

From Verif Require Import GoBase GoRand Model.

(** Every private key the package can hand out. *)
Inductive produced : private_key -> Prop :=
| produced_hex h net k : PrivateFromHex h net = Ret (Ok k) -> produced k
| produced_wif w net k : PrivateFromWIF w net = Ret (Ok k) -> produced k
| produced_gen net rd k rest : GeneratePrivateKey net rd = Ret (k, rest) -> produced k
| produced_add a b k : AddPrivateKeys a b = Ret (Ok k) -> produced k
| produced_mul a b k : MultiplyPrivateKeys a b = Ret (Ok k) -> produced k.
