(** * SHA-256 and RIPEMD-160, after their standards

    Written from FIPS 180-4 and from "RIPEMD-160: A Strengthened Version of
    RIPEMD" (Dobbertin, Bosselaers, Preneel), independently of [Sha256.v] and
    [Ripemd160.v]. Words are integers; constants are given by what they are
    (roots of small numbers), not by tables. *)

From Verif Require Import GoBase Spec.
From Coq Require Import Znumtheory.
Local Open Scope Z_scope.

(** ** Words of 32 bits *)

Definition rotate_right (n x : Z) : Z := x / 2 ^ n + (x mod 2 ^ n) * 2 ^ (32 - n).
Definition rotate_left (n x : Z) : Z := rotate_right (32 - n) x.
Definition shift_right (n x : Z) : Z := x / 2 ^ n.
Definition complement32 (x : Z) : Z := 2 ^ 32 - 1 - x.

(** ** Constants *)

(** [p] is the prime with [t] primes below it. *)
Definition nth_prime (t : nat) (p : Z) : Prop :=
  prime p /\ exists l, NoDup l /\ length l = t /\ forall q, In q l <-> prime q /\ q < p.

(** [k] is the first 32 bits of the fractional part of the [e]-th root of [p];
    [a] is the integral part. *)
Definition root_fraction (e p k : Z) : Prop :=
  0 <= k < 2 ^ 32 /\ exists a, 0 <= a /\ (a * 2 ^ 32 + k) ^ e <= p * 2 ^ (32 * e) < (a * 2 ^ 32 + k + 1) ^ e.

(** [k] is the integral part of 2^30 times the [e]-th root of [p]. *)
Definition root_integer (e p k : Z) : Prop :=
  0 <= k /\ k ^ e <= p * 2 ^ (30 * e) < (k + 1) ^ e.

(** ** SHA-256 *)

Definition Ch x y z := Z.lxor (Z.land x y) (Z.land (complement32 x) z).
Definition Maj x y z := Z.lxor (Z.lxor (Z.land x y) (Z.land x z)) (Z.land y z).
Definition Sigma0 x := Z.lxor (Z.lxor (rotate_right 2 x) (rotate_right 13 x)) (rotate_right 22 x).
Definition Sigma1 x := Z.lxor (Z.lxor (rotate_right 6 x) (rotate_right 11 x)) (rotate_right 25 x).
Definition sigma0 x := Z.lxor (Z.lxor (rotate_right 7 x) (rotate_right 18 x)) (shift_right 3 x).
Definition sigma1 x := Z.lxor (Z.lxor (rotate_right 17 x) (rotate_right 19 x)) (shift_right 10 x).

(** The sixty-four constants: cube roots of the first primes. The initial value:
    square roots of the first eight. *)
Definition sha_constants (K : nat -> Z) : Prop :=
  forall t, (t < 64)%nat -> exists p, nth_prime t p /\ root_fraction 3 p (K t).
Definition sha_initial (H : list Z) : Prop :=
  length H = 8%nat /\ forall j, (j < 8)%nat -> exists p, nth_prime j p /\ root_fraction 2 p (nth j H 0).

(** The message, a byte 80, the fewest zeros that leave eight bytes of a block of
    64, and the length of the message in bits. *)
Definition sha_padded (m p : list byte) : Prop :=
  exists k L, (k < 64)%nat /\ ((length m + 1 + k) mod 64 = 56)%nat /\
    octets 8 (8 * Z.of_nat (length m)) L /\ p = m ++ [x80] ++ repeat x00 k ++ L.

(** Word [j] of block [i]. *)
Definition sha_word (p : list byte) (i j : nat) : Z :=
  bytes_number (substring p (64 * i + 4 * j) (64 * i + 4 * j + 4)).

(** The sixty-four words made from the sixteen of a block. *)
Definition sha_schedule (M W : nat -> Z) : Prop :=
  (forall t, (t < 16)%nat -> W t = M t) /\
  (forall t, (16 <= t < 64)%nat ->
     W t = (sigma1 (W (t - 2)%nat) + W (t - 7)%nat + sigma0 (W (t - 15)%nat) + W (t - 16)%nat) mod 2 ^ 32).

Definition sha_step (s : list Z) (k w : Z) : list Z :=
  match s with
  | [a; b; c; d; e; f; g; h] =>
      let T1 := h + Sigma1 e + Ch e f g + k + w in
      let T2 := Sigma0 a + Maj a b c in
      [(T1 + T2) mod 2 ^ 32; a; b; c; (d + T1) mod 2 ^ 32; e; f; g]
  | _ => s
  end.

(** Word-wise sum. *)
Fixpoint add_words (s t : list Z) : list Z :=
  match s, t with
  | a :: s', b :: t' => (a + b) mod 2 ^ 32 :: add_words s' t'
  | _, _ => []
  end.

(** Hashing block [i] turns [h] into [h']. *)
Definition sha_block (K : nat -> Z) (p : list byte) (i : nat) (h h' : list Z) : Prop :=
  exists W v, sha_schedule (sha_word p i) W /\ v 0%nat = h /\
    (forall t, (t < 64)%nat -> v (S t) = sha_step (v t) (K t) (W t)) /\ h' = add_words h (v 64%nat).

(** [d] is the SHA-256 hash of [m]. *)
Definition is_sha256 (m d : list byte) : Prop :=
  exists K p H parts, sha_constants K /\ sha_padded m p /\ sha_initial (H 0%nat) /\
    (forall i, (i < length p / 64)%nat -> sha_block K p i (H i) (H (S i))) /\
    Forall2 (octets 4) (H (length p / 64)%nat) parts /\ d = concat parts.

(** ** RIPEMD-160 *)

(** The function of each of the five rounds, numbered from 0. *)
Definition rmd_function (round : nat) (x y z : Z) : Z :=
  match round with
  | 0%nat => Z.lxor (Z.lxor x y) z
  | 1%nat => Z.lor (Z.land x y) (Z.land (complement32 x) z)
  | 2%nat => Z.lxor (Z.lor x (complement32 y)) z
  | 3%nat => Z.lor (Z.land x z) (Z.land y (complement32 z))
  | _ => Z.lxor x (Z.lor y (complement32 z))
  end.

(** Added constants of the rounds: 0 and square roots on the left line, cube
    roots and 0 on the right line, of 2, 3, 5, 7. *)
Definition rmd_constants (KL KR : nat -> Z) : Prop :=
  KL 0%nat = 0 /\ root_integer 2 2 (KL 1%nat) /\ root_integer 2 3 (KL 2%nat) /\
  root_integer 2 5 (KL 3%nat) /\ root_integer 2 7 (KL 4%nat) /\
  root_integer 3 2 (KR 0%nat) /\ root_integer 3 3 (KR 1%nat) /\
  root_integer 3 5 (KR 2%nat) /\ root_integer 3 7 (KR 3%nat) /\ KR 4%nat = 0.

(** The permutations of the sixteen words: round r of the left line takes them
    in the order rho^r, of the right line in the order rho^r after pi. *)
Definition rho (i : nat) : nat := nth i [7; 4; 13; 1; 10; 6; 15; 3; 12; 0; 9; 5; 2; 14; 11; 8]%nat 0%nat.
Definition pi (i : nat) : nat := ((9 * i + 5) mod 16)%nat.
Definition left_word (round i : nat) : nat := Nat.iter round rho i.
Definition right_word (round i : nat) : nat := Nat.iter round rho (pi i).

(** Rotation of word [i] in each round, the same on both lines. *)
Definition rmd_shift (round i : nat) : Z :=
  nth i (nth round
    [[11; 14; 15; 12; 5; 8; 7; 9; 11; 13; 14; 15; 6; 7; 9; 8];
     [12; 13; 11; 15; 6; 9; 9; 7; 12; 15; 11; 13; 7; 8; 7; 7];
     [13; 15; 14; 11; 7; 7; 6; 8; 13; 14; 13; 12; 5; 5; 6; 9];
     [14; 11; 12; 14; 8; 6; 5; 5; 15; 12; 15; 14; 9; 9; 8; 6];
     [15; 12; 13; 13; 9; 5; 8; 6; 14; 11; 12; 11; 8; 6; 5; 5]] []) 0.

Definition rmd_initial : list Z := [0x67452301; 0xefcdab89; 0x98badcfe; 0x10325476; 0xc3d2e1f0].

(** As for SHA-256, with the length in little-endian order. *)
Definition rmd_padded (m p : list byte) : Prop :=
  exists k L, (k < 64)%nat /\ ((length m + 1 + k) mod 64 = 56)%nat /\
    octets 8 (8 * Z.of_nat (length m)) (rev L) /\ p = m ++ [x80] ++ repeat x00 k ++ L.

Definition rmd_word (p : list byte) (i j : nat) : Z :=
  bytes_number (rev (substring p (64 * i + 4 * j) (64 * i + 4 * j + 4))).

(** One step with the function of round [f], the word [x], the constant [k] and
    the rotation [s]. *)
Definition rmd_step (f : nat) (x k s : Z) (v : list Z) : list Z :=
  match v with
  | [a; b; c; d; e] =>
      let t := (rotate_left s ((a + rmd_function f b c d + x + k) mod 2 ^ 32) + e) mod 2 ^ 32 in
      [e; t; b; rotate_left 10 c; d]
  | _ => v
  end.

(** How the two lines are put together. *)
Definition rmd_join (h l r : list Z) : list Z :=
  match h, l, r with
  | [h0; h1; h2; h3; h4], [a; b; c; d; e], [a'; b'; c'; d'; e'] =>
      [(h1 + c + d') mod 2 ^ 32; (h2 + d + e') mod 2 ^ 32; (h3 + e + a') mod 2 ^ 32;
       (h4 + a + b') mod 2 ^ 32; (h0 + b + c') mod 2 ^ 32]
  | _, _, _ => []
  end.

(** Step [j] belongs to round j / 16 and is number j mod 16 in it; the right
    line takes the functions in the opposite order. *)
Definition rmd_block (KL KR : nat -> Z) (p : list byte) (i : nat) (h h' : list Z) : Prop :=
  exists l r, l 0%nat = h /\ r 0%nat = h /\
    (forall j, (j < 80)%nat ->
       let rd := (j / 16)%nat in let n := (j mod 16)%nat in
       l (S j) = rmd_step rd (rmd_word p i (left_word rd n)) (KL rd) (rmd_shift rd (left_word rd n)) (l j) /\
       r (S j) = rmd_step (4 - rd) (rmd_word p i (right_word rd n)) (KR rd) (rmd_shift rd (right_word rd n)) (r j)) /\
    h' = rmd_join h (l 80%nat) (r 80%nat).

(** [d] is the RIPEMD-160 hash of [m]. *)
Definition is_ripemd160 (m d : list byte) : Prop :=
  exists KL KR p H parts, rmd_constants KL KR /\ rmd_padded m p /\ H 0%nat = rmd_initial /\
    (forall i, (i < length p / 64)%nat -> rmd_block KL KR p i (H i) (H (S i))) /\
    Forall2 (fun w o => octets 4 w (rev o)) (H (length p / 64)%nat) parts /\ d = concat parts.

(** ** The two ways Bitcoin combines them *)

(** [c] is the first four bytes of the SHA-256 hash of the SHA-256 hash of [p]. *)
Definition is_checksum (p c : list byte) : Prop :=
  exists d e, is_sha256 p d /\ is_sha256 d e /\ c = firstn 4 e.

(** [h] is the RIPEMD-160 hash of the SHA-256 hash of [m]. *)
Definition is_hash160 (m h : list byte) : Prop := exists d, is_sha256 m d /\ is_ripemd160 d h.

(** Both hashes are defined for texts of fewer than 2^64 bits. *)
Definition hashable (m : list byte) : Prop := 8 * Z.of_nat (length m) < 2 ^ 64.
