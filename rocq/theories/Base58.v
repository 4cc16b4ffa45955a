(** * Base58 (github.com/mr-tron/base58 v1.1.2, Encode / Decode)

    The library's source is not in /repo. Modelled behaviour: the Bitcoin
    alphabet; every leading zero byte corresponds to one leading '1'; the rest
    is the big-endian number written in base 58; Decode fails on the empty
    string and on any character outside the alphabet. *)

From Verif Require Import GoBase GoNum.
Local Open Scope Z_scope.

Definition b58_alphabet : gostring :=
  str "123456789ABCDEFGHJKLMNPQRSTUVWXYZabcdefghijkmnopqrstuvwxyz".

Definition b58char (d : Z) : byte := nth (Z.to_nat d) b58_alphabet x31.

Fixpoint find_pos (c : byte) (l : gostring) (i : Z) : option Z :=
  match l with
  | [] => None
  | x :: l' => if byte_eqb x c then Some i else find_pos c l' (i + 1)
  end.
Definition b58digit (c : byte) : option Z := find_pos c b58_alphabet 0.

(** Number of leading elements equal to [z], and the rest. *)
Fixpoint strip_lead (z : Z) (l : list Z) : nat * list Z :=
  match l with
  | x :: l' => if x =? z then let '(n, r) := strip_lead z l' in (S n, r) else (O, l)
  | [] => (O, [])
  end.

(** Convert digits of base [a] to digits of base [b], keeping the number of
    leading zeros. *)
Definition convert (a b : Z) (ds : list Z) : list Z :=
  let '(n, r) := strip_lead 0 ds in repeat 0 n ++ digits b (valb a r).

(** base58.Encode *)
Definition b58encode (bs : list byte) : gostring :=
  map b58char (convert 256 58 (map b2z bs)).

(** base58.Decode *)
Definition b58decode (s : gostring) : result (list byte) :=
  match s with
  | [] => Err EBase58
  | _ => match scan b58digit s with
         | None => Err EBase58
         | Some ds => Ok (map z2b (convert 58 256 ds))
         end
  end.
