(** * SHA-256 (crypto/sha256), executable, after FIPS 180-4 *)

From Verif Require Import GoBase.
From Coq Require Import NArith.
Local Open Scope N_scope.

Definition w32 (x : N) : N := N.land x 0xffffffff.
Definition add32 (a b : N) : N := w32 (a + b).
Definition rotr (n x : N) : N := N.lor (N.shiftr x n) (w32 (N.shiftl x (32 - n))).
Definition not32 (x : N) : N := N.lxor x 0xffffffff.

Definition ch x y z := N.lxor (N.land x y) (N.land (not32 x) z).
Definition maj x y z := N.lxor (N.lxor (N.land x y) (N.land x z)) (N.land y z).
Definition bsig0 x := N.lxor (N.lxor (rotr 2 x) (rotr 13 x)) (rotr 22 x).
Definition bsig1 x := N.lxor (N.lxor (rotr 6 x) (rotr 11 x)) (rotr 25 x).
Definition ssig0 x := N.lxor (N.lxor (rotr 7 x) (rotr 18 x)) (N.shiftr x 3).
Definition ssig1 x := N.lxor (N.lxor (rotr 17 x) (rotr 19 x)) (N.shiftr x 10).

Definition k256 : list N :=
 [0x428a2f98;0x71374491;0xb5c0fbcf;0xe9b5dba5;0x3956c25b;0x59f111f1;0x923f82a4;0xab1c5ed5;
  0xd807aa98;0x12835b01;0x243185be;0x550c7dc3;0x72be5d74;0x80deb1fe;0x9bdc06a7;0xc19bf174;
  0xe49b69c1;0xefbe4786;0x0fc19dc6;0x240ca1cc;0x2de92c6f;0x4a7484aa;0x5cb0a9dc;0x76f988da;
  0x983e5152;0xa831c66d;0xb00327c8;0xbf597fc7;0xc6e00bf3;0xd5a79147;0x06ca6351;0x14292967;
  0x27b70a85;0x2e1b2138;0x4d2c6dfc;0x53380d13;0x650a7354;0x766a0abb;0x81c2c92e;0x92722c85;
  0xa2bfe8a1;0xa81a664b;0xc24b8b70;0xc76c51a3;0xd192e819;0xd6990624;0xf40e3585;0x106aa070;
  0x19a4c116;0x1e376c08;0x2748774c;0x34b0bcb5;0x391c0cb3;0x4ed8aa4a;0x5b9cca4f;0x682e6ff3;
  0x748f82ee;0x78a5636f;0x84c87814;0x8cc70208;0x90befffa;0xa4506ceb;0xbef9a3f7;0xc67178f2].

Record hstate := HS { hA : N; hB : N; hC : N; hD : N; hE : N; hF : N; hG : N; hH : N }.

Definition sha_iv : hstate :=
  HS 0x6a09e667 0xbb67ae85 0x3c6ef372 0xa54ff53a 0x510e527f 0x9b05688c 0x1f83d9ab 0x5be0cd19.

(** Message schedule. [window] holds the last 16 words, oldest first; emits the
    next [n] words. *)
Fixpoint schedule (n : nat) (window : list N) : list N :=
  match n with
  | O => []
  | S n' =>
      let w0 := nth 0 window 0 in
      let next := add32 (add32 (ssig1 (nth 14 window 0)) (nth 9 window 0))
                        (add32 (ssig0 (nth 1 window 0)) w0) in
      w0 :: schedule n' (tl window ++ [next])
  end.

Definition round (s : hstate) (kw : N * N) : hstate :=
  let '(k, w) := kw in
  let t1 := add32 (add32 (hH s) (bsig1 (hE s))) (add32 (ch (hE s) (hF s) (hG s)) (add32 k w)) in
  let t2 := add32 (bsig0 (hA s)) (maj (hA s) (hB s) (hC s)) in
  HS (add32 t1 t2) (hA s) (hB s) (hC s) (add32 (hD s) t1) (hE s) (hF s) (hG s).

Definition compress (s : hstate) (block : list N) : hstate :=
  let r := fold_left round (combine k256 (schedule 64 block)) s in
  HS (add32 (hA s) (hA r)) (add32 (hB s) (hB r)) (add32 (hC s) (hC r)) (add32 (hD s) (hD r))
     (add32 (hE s) (hE r)) (add32 (hF s) (hF r)) (add32 (hG s) (hG r)) (add32 (hH s) (hH r)).

(** Big-endian bytes to 32-bit words. *)
Fixpoint words_be (bs : list byte) : list N :=
  match bs with
  | a :: b :: c :: d :: bs' =>
      (Byte.to_N a * 16777216 + Byte.to_N b * 65536 + Byte.to_N c * 256 + Byte.to_N d) :: words_be bs'
  | _ => []
  end.

Definition nbyte (n : N) : byte := match Byte.of_N (N.land n 255) with Some b => b | None => x00 end.
Definition word_bytes_be (w : N) : list byte :=
  [nbyte (N.shiftr w 24); nbyte (N.shiftr w 16); nbyte (N.shiftr w 8); nbyte w].

(** Padding: 0x80, zeros to 56 mod 64, bit length as 8 big-endian bytes. *)
Definition zero_pad (l : nat) : nat := Z.to_nat ((55 - Z.of_nat l) mod 64).
Definition sha_pad (m : list byte) : list byte :=
  let bits := N.of_nat (length m) * 8 in
  m ++ x80 :: repeat x00 (zero_pad (length m))
    ++ word_bytes_be (N.shiftr bits 32) ++ word_bytes_be (w32 bits).

(** Process the words sixteen at a time; the fuel is the number of words. *)
Fixpoint sha_blocks (fuel : nat) (s : hstate) (ws : list N) : hstate :=
  match fuel, ws with
  | S f, _ :: _ => sha_blocks f (compress s (firstn 16 ws)) (skipn 16 ws)
  | _, _ => s
  end.

Definition sha256 (m : list byte) : list byte :=
  let ws := words_be (sha_pad m) in
  let s := sha_blocks (length ws) sha_iv ws in
  word_bytes_be (hA s) ++ word_bytes_be (hB s) ++ word_bytes_be (hC s) ++ word_bytes_be (hD s) ++
  word_bytes_be (hE s) ++ word_bytes_be (hF s) ++ word_bytes_be (hG s) ++ word_bytes_be (hH s).

(** Every digest has 32 bytes. *)
Lemma sha256_length (m : list byte) : length (sha256 m) = 32%nat.
Proof. reflexivity. Qed.
