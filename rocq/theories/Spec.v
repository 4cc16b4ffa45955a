(** * Specifications, independent of the model

    Small, declarative definitions of the formats the package deals with. They
    do not mention any function of [Model.v], nor the encoders of [GoNum.v] and
    [Base58.v]; only byte strings, integers, and the hash functions. *)

From Verif Require Import GoBase Sha256 Ripemd160.
Local Open Scope Z_scope.

(** ** Numbers *)

(** The number a big-endian digit list denotes in base [b]. *)
Fixpoint number (b : Z) (ds : list Z) : Z :=
  match ds with
  | [] => 0
  | d :: r => d * b ^ Z.of_nat (length r) + number b r
  end.

(** Big-endian unsigned value of a byte string. *)
Definition byte_number (b : byte) : Z := Z.of_N (Byte.to_N b).
Definition bytes_number (bs : list byte) : Z := number 256 (map byte_number bs).

(** [bs] is the [k]-byte big-endian form of [n] (I2OSP). *)
Definition octets (k : nat) (n : Z) (bs : list byte) : Prop :=
  length bs = k /\ bytes_number bs = n.

(** ** Hexadecimal text *)

(** [c] is a hexadecimal digit, of either case, with value [d]. *)
Definition hex_digit (c : byte) (d : nat) : Prop :=
  nth_error (str "0123456789abcdef") d = Some c \/
  nth_error (str "0123456789ABCDEF") d = Some c.

(** The text spells the byte string, two digits per byte, in either case. *)
Inductive hex_text : gostring -> list byte -> Prop :=
| hex_text_nil : hex_text [] []
| hex_text_cons h l s b bs dh dl :
    hex_digit h dh -> hex_digit l dl ->
    byte_number b = 16 * Z.of_nat dh + Z.of_nat dl ->
    hex_text s bs -> hex_text (h :: l :: s) (b :: bs).

(** Only digits 0-9 and a-f. *)
Definition lower_case_hex (s : gostring) : Prop :=
  Forall (fun c => In c (str "0123456789abcdef")) s.

(** The text (one or more hex digits, nothing else) denotes the number. *)
Definition hex_number (s : gostring) (n : Z) : Prop :=
  s <> [] /\ exists ds, Forall2 hex_digit s ds /\ n = number 16 (map Z.of_nat ds).

(** The shortest lower-case hex text of a number: no superfluous zero. *)
Definition shortest_hex (s : gostring) (n : Z) : Prop :=
  lower_case_hex s /\ hex_number s n /\ (s = str "0" \/ hd_error s <> Some x30).

(** ** Base58 and Base58Check *)

Definition alphabet58 : gostring :=
  str "123456789ABCDEFGHJKLMNPQRSTUVWXYZabcdefghijkmnopqrstuvwxyz".

(** [s] is the Base58 text of [bs]: one '1' per leading zero byte, then the
    number of the remaining bytes written in base 58 without superfluous zero. *)
Definition base58_text (bs : list byte) (s : gostring) : Prop :=
  exists z body ds,
    bs = repeat x00 z ++ body /\ hd_error body <> Some x00 /\
    s = repeat x31 z ++ map (fun d => nth d alphabet58 x00) ds /\
    Forall (fun d => (d < 58)%nat) ds /\ hd_error ds <> Some 0%nat /\
    number 58 (map Z.of_nat ds) = bytes_number body.

(** First four bytes of the double SHA-256. *)
Definition checksum4 (p : list byte) : list byte := firstn 4 (sha256 (sha256 p)).

(** [s] is the Base58Check text of payload [p]. *)
Definition base58check (p : list byte) (s : gostring) : Prop :=
  base58_text (p ++ checksum4 p) s.

(** HASH160 of Bitcoin. *)
Definition hash160 (bs : list byte) : list byte := ripemd160 (sha256 bs).

(** ASCII lower-casing, as a relation between texts: equal up to letter case. *)
Definition case_variant (c d : byte) : Prop :=
  c = d \/
  (exists i, nth_error (str "ABCDEFGHIJKLMNOPQRSTUVWXYZ") i = Some c /\
             nth_error (str "abcdefghijklmnopqrstuvwxyz") i = Some d) \/
  (exists i, nth_error (str "abcdefghijklmnopqrstuvwxyz") i = Some c /\
             nth_error (str "ABCDEFGHIJKLMNOPQRSTUVWXYZ") i = Some d).
Definition equal_up_to_case (s t : gostring) : Prop := Forall2 case_variant s t.

(** ** Public keys *)

(** SEC1 encoding of the point (x, y). *)
Definition sec1 (compressed : bool) (x y : Z) (bs : list byte) : Prop :=
  exists X, octets 32 x X /\
    if compressed then bs = (if Z.even y then x02 else x03) :: X
    else exists Y, octets 32 y Y /\ bs = x04 :: X ++ Y.

(** Number of hex digits a coordinate is exported with: padded to 64. *)
Definition padded_hex_length (z : Z) (n : nat) : Prop :=
  exists s, shortest_hex s z /\ n = Nat.max 64 (length s).

(** What Go's SetString(s, 16) reads: an optional sign and hex digits. *)
Definition signed_hex_number (s : gostring) (n : Z) : Prop :=
  hex_number s n \/
  (exists t, s = x2d :: t /\ hex_number t (- n)) \/
  (exists t, s = x2b :: t /\ hex_number t n).

(** Characters [lo, hi) of a text. *)
Definition substring (s : gostring) (lo hi : nat) : gostring := firstn (hi - lo) (skipn lo s).

(** ** Random streams *)

(** Reading the stream [rd] in blocks of [k] bytes, [v] is the value of the first
    block that is [good], and [rest] is what follows that block. *)
Inductive first_block (k : nat) (good : Z -> Prop) : list byte -> Z -> list byte -> Prop :=
| first_here b rest :
    length b = k -> good (bytes_number b) ->
    first_block k good (b ++ rest) (bytes_number b) rest
| first_skip b rd v rest :
    length b = k -> ~ good (bytes_number b) ->
    first_block k good rd v rest ->
    first_block k good (b ++ rd) v rest.

(** ** Mnemonic phrases (BIP-39) *)

(** Bits, most significant first. *)
Definition byte_bits (b : byte) : list bool :=
  map (fun i => Z.testbit (byte_number b) (Z.of_nat i)) [7; 6; 5; 4; 3; 2; 1; 0]%nat.
Definition bits (bs : list byte) : list bool := flat_map byte_bits bs.
Definition index_bits (i : nat) : list bool :=
  map (Nat.testbit i) [10; 9; 8; 7; 6; 5; 4; 3; 2; 1; 0]%nat.

(** The words [ws], looked up among the first 2048 entries of the list [l],
    carry the bits [B], 11 per word. *)
Definition phrase_bits (l ws : list gostring) (B : list bool) : Prop :=
  exists is, Forall2 (fun w i => (i < 2048)%nat /\ nth_error l i = Some w) ws is /\
             B = flat_map index_bits is.

(** [ws] is the BIP-39 phrase of the entropy [e]: its bits followed by one
    checksum bit of SHA-256(e) per 32 bits of entropy. *)
Definition bip39 (l ws : list gostring) (e : list byte) : Prop :=
  In (length e) [16; 20; 24; 28; 32]%nat /\
  phrase_bits l ws (bits e ++ firstn (length e / 4) (bits (sha256 e))).

(** The text [s] is the words [ws] separated by single spaces. *)
Inductive spaced : list gostring -> gostring -> Prop :=
| spaced_one w : ~ In x20 w -> spaced [w] w
| spaced_more w ws s : ~ In x20 w -> spaced ws s -> spaced (w :: ws) (w ++ x20 :: s).

(** Without leading zeros. *)
Fixpoint drop_zero_bits (B : list bool) : list bool :=
  match B with false :: B' => drop_zero_bits B' | _ => B end.
Fixpoint drop_zero_bytes (bs : list byte) : list byte :=
  match bs with x00 :: bs' => drop_zero_bytes bs' | _ => bs end.

(** A list fit for BIP-39: 2048 different words, none empty, none with a space. *)
Definition proper_list (l : list gostring) : Prop :=
  length l = 2048%nat /\ NoDup l /\ Forall (fun w => w <> [] /\ ~ In x20 w) l.
