(** * Go base layer

    Values of the Go language the package relies on: strings and byte slices,
    the two ways a call can end (return / panic), error values, slicing.
    Nothing here is specific to the package; the package itself is [Model.v]. *)

From Coq Require Export List ZArith Lia Bool.
From Coq Require Export Strings.Byte.
From Coq Require Strings.String.
Export (notations) Strings.String.
Export ListNotations.

(** A Go [string] and a Go [[]byte] are both finite byte sequences.
    (Simplification: a nil [[]byte] is only distinguished where the code can
    return one, see [Model.NewSeedFromMnemonic].) *)
Definition gostring := list byte.

(** Coq string literal to Go string: [str "80"]. *)
Definition str (s : String.string) : gostring := String.list_byte_of_string s.
Arguments str s%string.

(** Why a call did not return.
    [PSlice]: slice bounds out of range; [PIndex]: index out of range;
    [PNil]: nil pointer dereference; [PRand]: explicit [panic(err)] of
    util.go:14 when the random source fails.
    [PFuel] is not a Go panic: it is the value of the recursive model
    functions when their recursion bound is used up, proved unreachable. *)
Inductive panic := PSlice | PIndex | PNil | PRand | PFuel.

(** How a Go call ends. *)
Inductive outcome (A : Type) :=
| Ret (a : A)
| Panic (p : panic).
Arguments Ret {A} a.
Arguments Panic {A} p.

(** The errors the package can return; the comment gives the Go message. *)
Inductive goerror :=
| EWifInvalid          (* "wif invalid", private_key.go:48 *)
| EBase58              (* any error of base58.Decode *)
| EHexByte (b : byte)  (* hex.InvalidByteError *)
| EHexLength           (* hex.ErrLength *)
| EDifferentNetwork    (* "different network" *)
| EIdentical           (* "private keys are identical" *)
| ENotOnSecp           (* "point is not on secp256k1 curve", public_key.go:36 *)
| EUnsupportedFormat   (* "unsupported public key format", public_key.go:54 *)
| ENotOnCurve          (* "point is not on curve", public_key.go:185 *)
| EInvalidMnemonic     (* "invalid mnemonic", mnemonic.go:27 *)
| EInvalidChecksum     (* "invalid checksum", mnemonic.go:68 *)
| EInvalidWordlist     (* "invalid wordlist", mnemonic.go:80 *)
| EUnsupportedLength   (* "unsupported mnemonic length", mnemonic.go:101 *)
| ERandRead.           (* the error of the random source *)

(** A Go [(T, error)] pair: the package always returns the zero value next to a
    non-nil error, so the pair is a sum. *)
Inductive result (A : Type) :=
| Ok (a : A)
| Err (e : goerror).
Arguments Ok {A} a.
Arguments Err {A} e.

Definition bind {A B} (m : outcome A) (f : A -> outcome B) : outcome B :=
  match m with Ret a => f a | Panic p => Panic p end.

(** [let*] sequences calls that may panic; [let?] also propagates the error,
    as [if err != nil { return nil, err }] does. *)
Notation "'let*' x ':=' m 'in' f" := (bind m (fun x => f))
  (at level 61, x pattern, m at next level, f at level 200, right associativity).

Definition bind_res {A B} (m : result A) (f : A -> outcome (result B)) : outcome (result B) :=
  match m with Ok a => f a | Err e => Ret (Err e) end.

Notation "'let?' x ':=' m 'in' f" := (bind_res m (fun x => f))
  (at level 61, x pattern, m at next level, f at level 200, right associativity).

(** [s[lo:hi]] on a string: panics unless 0 <= lo <= hi <= len(s). *)
Definition slice {A} (s : list A) (lo hi : Z) : outcome (list A) :=
  if (0 <=? lo)%Z && (lo <=? hi)%Z && (hi <=? Z.of_nat (length s))%Z
  then Ret (firstn (Z.to_nat (hi - lo)) (skipn (Z.to_nat lo) s))
  else Panic PSlice.

(** [len(s)] as a Go int. *)
Definition len {A} (s : list A) : Z := Z.of_nat (length s).

(** [s[i]]: panics unless 0 <= i < len(s). *)
Definition index {A} (s : list A) (i : Z) : outcome A :=
  if (0 <=? i)%Z then
    match nth_error s (Z.to_nat i) with Some a => Ret a | None => Panic PIndex end
  else Panic PIndex.

(** Byte <-> integer. *)
Definition b2z (b : byte) : Z := Z.of_N (Byte.to_N b).
Definition z2b (z : Z) : byte :=
  match Byte.of_N (Z.to_N (z mod 256)) with Some b => b | None => x00 end.

Definition byte_eqb (a b : byte) : bool := Byte.eqb a b.

(** [==] on strings. *)
Fixpoint str_eqb (a b : gostring) : bool :=
  match a, b with
  | [], [] => true
  | x :: a', y :: b' => byte_eqb x y && str_eqb a' b'
  | _, _ => false
  end.

(** strings.ToLower on one byte. Simplification: only the ASCII letters are
    mapped; Go also maps non-ASCII letters. The package only lower-cases WIFs,
    and every WIF a constructor of the package produces is ASCII
    (theorem [Base58Facts.b58enc_ascii]). *)
Definition lower_byte (b : byte) : byte :=
  let z := b2z b in if (65 <=? z)%Z && (z <=? 90)%Z then z2b (z + 32) else b.
Definition to_lower (s : gostring) : gostring := map lower_byte s.

(** strings.Split(s, " "): the pieces between single spaces (at least one). *)
Definition space : byte := x20.
Fixpoint split_space (s : gostring) : list gostring :=
  match s with
  | [] => [[]]
  | c :: s' =>
      if byte_eqb c space then [] :: split_space s'
      else match split_space s' with
           | w :: ws => (c :: w) :: ws
           | [] => [[c]]            (* unreachable: split never returns [] *)
           end
  end.

(** strings.Join(ws, " "). *)
Fixpoint join_space (ws : list gostring) : gostring :=
  match ws with
  | [] => []
  | [w] => w
  | w :: ws' => w ++ space :: join_space ws'
  end.

(** [for len(s) < n { s = "0" + s }] : left padding with the character '0'
    (public_key.go:84-89, mnemonic.go:31-33, 63-65, 125-127). *)
Definition char0 : byte := x30.
Definition char1 : byte := x31.
Definition pad_left (n : nat) (s : gostring) : gostring :=
  repeat char0 (n - length s) ++ s.
