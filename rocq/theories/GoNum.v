(** * Positional numerals, [encoding/hex] and [math/big]

    Models of the standard-library functions the package calls (Go's standard
    library is not in /repo; these definitions are its documented behaviour). *)

From Verif Require Import GoBase.
Local Open Scope Z_scope.

(** Value of a big-endian digit list in base [b]. *)
Definition valb (b : Z) (ds : list Z) : Z := fold_left (fun a d => a * b + d) ds 0.

(** Big-endian digits of [n >= 0] in base [b >= 2], without leading zeros;
    the empty list for 0. [fuel] bounds the number of digits. *)
Fixpoint digits_fuel (fuel : nat) (b n : Z) (acc : list Z) : list Z :=
  match fuel with
  | O => acc
  | S f => if n <=? 0 then acc else digits_fuel f b (n / b) (n mod b :: acc)
  end.
Definition digits (b n : Z) : list Z := digits_fuel (S (Z.to_nat (Z.log2 n))) b n [].

(** ** Hexadecimal digits *)

(** "0123456789abcdef"[d] *)
Definition hexchar (d : Z) : byte := if d <? 10 then z2b (48 + d) else z2b (87 + d).

(** encoding/hex fromHexChar; also the digit values of big.Int.SetString in
    base 16 (both accept upper and lower case). *)
Definition fromhex (c : byte) : option Z :=
  let z := b2z c in
  if (48 <=? z) && (z <=? 57) then Some (z - 48)
  else if (97 <=? z) && (z <=? 102) then Some (z - 87)
  else if (65 <=? z) && (z <=? 70) then Some (z - 55)
  else None.

(** hex.EncodeToString *)
Definition hex_encode (bs : list byte) : gostring :=
  flat_map (fun b => [hexchar (b2z b / 16); hexchar (b2z b mod 16)]) bs.

(** hex.DecodeString: byte pairs; the first bad character, else odd length, is
    the error. *)
Fixpoint hex_decode (s : gostring) : result (list byte) :=
  match s with
  | [] => Ok []
  | [c] => match fromhex c with Some _ => Err EHexLength | None => Err (EHexByte c) end
  | c1 :: c2 :: s' =>
      match fromhex c1 with
      | None => Err (EHexByte c1)
      | Some h =>
          match fromhex c2 with
          | None => Err (EHexByte c2)
          | Some l =>
              match hex_decode s' with
              | Ok bs => Ok (z2b (h * 16 + l) :: bs)
              | Err e => Err e
              end
          end
      end
  end.

(** ** math/big *)

(** Digit of base 2: '0' or '1'. *)
Definition frombin (c : byte) : option Z :=
  let z := b2z c in if (48 <=? z) && (z <=? 49) then Some (z - 48) else None.

(** All digits or nothing. *)
Fixpoint scan (from : byte -> option Z) (s : gostring) : option (list Z) :=
  match s with
  | [] => Some []
  | c :: s' =>
      match from c, scan from s' with
      | Some d, Some ds => Some (d :: ds)
      | _, _ => None
      end
  end.

(** new(big.Int).SetString(s, base) for base 16 ([from = fromhex]) and base 2:
    an optional sign, then one or more digits and nothing else; [None] is the
    (nil, false) result. No "0x" prefix and no '_' are allowed since base is
    not 0. *)
Definition set_string (base : Z) (from : byte -> option Z) (s : gostring) : option Z :=
  let '(sgn, body) :=
    match s with
    | c :: s' => if byte_eqb c x2d then (-1, s') else if byte_eqb c x2b then (1, s') else (1, s)
    | [] => (1, [])
    end in
  match body with
  | [] => None
  | _ => match scan from body with
         | Some ds => Some (sgn * valb base ds)
         | None => None
         end
  end.
Definition set_string16 := set_string 16 fromhex.
Definition set_string2 := set_string 2 frombin.

(** fmt.Sprintf("%x", n) / fmt.Sprintf("%b", n) for a non-nil *big.Int (or a
    non-negative int): sign, then the digits, "0" for zero. *)
Definition unsigned_digits (b n : Z) : list Z := if n =? 0 then [0] else digits b n.
Definition sprint_base (b n : Z) : gostring :=
  (if n <? 0 then [x2d] else []) ++ map hexchar (unsigned_digits b (Z.abs n)).
Definition sprintf_x (n : Z) : gostring := sprint_base 16 n.
Definition sprintf_b (n : Z) : gostring := sprint_base 2 n.
Definition sprintf_d (n : Z) : gostring := sprint_base 10 n.

(** n.SetBytes(bs): big-endian unsigned value. *)
Definition set_bytes (bs : list byte) : Z := valb 256 (map b2z bs).

(** n.Bytes(): big-endian minimal bytes of |n|, empty for 0. *)
Definition big_bytes (n : Z) : list byte := map z2b (digits 256 (Z.abs n)).

(** n.Bit(i): two's-complement bit; Coq's [Z.testbit]. *)
Definition big_bit (n i : Z) : Z := if Z.testbit n i then 1 else 0.

(** z.Mod(x, y) for y > 0: Euclidean, as Coq's [Z.modulo] for positive y. *)
Definition big_mod (x y : Z) : Z := x mod y.
