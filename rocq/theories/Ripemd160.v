(** * RIPEMD-160 (golang.org/x/crypto/ripemd160), executable *)

From Verif Require Import GoBase Sha256.
From Coq Require Import NArith.
Local Open Scope N_scope.

Definition rol (n x : N) : N := rotr (32 - n) x.

Definition rf (j : nat) (x y z : N) : N :=
  match Nat.div j 16 with
  | 0%nat => N.lxor (N.lxor x y) z
  | 1%nat => N.lor (N.land x y) (N.land (not32 x) z)
  | 2%nat => N.lxor (N.lor x (not32 y)) z
  | 3%nat => N.lor (N.land x z) (N.land y (not32 z))
  | _ => N.lxor x (N.lor y (not32 z))
  end.

Definition kl : list N := [0x00000000;0x5a827999;0x6ed9eba1;0x8f1bbcdc;0xa953fd4e].
Definition kr : list N := [0x50a28be6;0x5c4dd124;0x6d703ef3;0x7a6d76e9;0x00000000].

Definition rl : list nat :=
 [0;1;2;3;4;5;6;7;8;9;10;11;12;13;14;15;
  7;4;13;1;10;6;15;3;12;0;9;5;2;14;11;8;
  3;10;14;4;9;15;8;1;2;7;0;6;13;11;5;12;
  1;9;11;10;0;8;12;4;13;3;7;15;14;5;6;2;
  4;0;5;9;7;12;2;10;14;1;3;8;11;6;15;13]%nat.
Definition rr : list nat :=
 [5;14;7;0;9;2;11;4;13;6;15;8;1;10;3;12;
  6;11;3;7;0;13;5;10;14;15;8;12;4;9;1;2;
  15;5;1;3;7;14;6;9;11;8;12;2;10;0;4;13;
  8;6;4;1;3;11;15;0;5;12;2;13;9;7;10;14;
  12;15;10;4;1;5;8;7;6;2;13;14;0;3;9;11]%nat.
Definition sl : list N :=
 [11;14;15;12;5;8;7;9;11;13;14;15;6;7;9;8;
  7;6;8;13;11;9;7;15;7;12;15;9;11;7;13;12;
  11;13;6;7;14;9;13;15;14;8;13;6;5;12;7;5;
  11;12;14;15;14;15;9;8;9;14;5;6;8;6;5;12;
  9;15;5;11;6;8;13;12;5;12;13;14;11;8;5;6].
Definition sr : list N :=
 [8;9;9;11;13;15;15;5;7;7;8;11;14;14;12;6;
  9;13;15;7;12;8;9;11;7;7;12;7;6;15;13;11;
  9;7;15;11;8;6;6;14;12;13;5;14;13;13;7;5;
  15;5;8;11;14;14;6;14;6;9;12;9;12;5;15;8;
  8;5;12;9;12;5;14;6;8;13;6;5;15;13;11;11].

Record rstate := RS { rA : N; rB : N; rC : N; rD : N; rE : N }.
Definition rmd_iv : rstate := RS 0x67452301 0xefcdab89 0x98badcfe 0x10325476 0xc3d2e1f0.

(** One step of a line: [fj] selects the boolean function, [k] the constant,
    [r] the message word, [s] the rotation. *)
Definition rstep (x : list N) (st : rstate) (p : nat * N * nat * N) : rstate :=
  let '(fj, k, r, s) := p in
  let t := add32 (rol s (add32 (add32 (rA st) (rf fj (rB st) (rC st) (rD st))) (add32 (nth r x 0) k))) (rE st) in
  RS (rE st) t (rB st) (rol 10 (rC st)) (rD st).

Definition left_plan : list (nat * N * nat * N) :=
  map (fun j => (j, nth (Nat.div j 16) kl 0, nth j rl O, nth j sl 0)) (seq 0 80).
Definition right_plan : list (nat * N * nat * N) :=
  map (fun j => ((79 - j)%nat, nth (Nat.div j 16) kr 0, nth j rr O, nth j sr 0)) (seq 0 80).

Definition rmd_compress (h : rstate) (x : list N) : rstate :=
  let l := fold_left (rstep x) left_plan h in
  let r := fold_left (rstep x) right_plan h in
  RS (add32 (rB h) (add32 (rC l) (rD r))) (add32 (rC h) (add32 (rD l) (rE r)))
     (add32 (rD h) (add32 (rE l) (rA r))) (add32 (rE h) (add32 (rA l) (rB r)))
     (add32 (rA h) (add32 (rB l) (rC r))).

Fixpoint words_le (bs : list byte) : list N :=
  match bs with
  | a :: b :: c :: d :: bs' =>
      (Byte.to_N d * 16777216 + Byte.to_N c * 65536 + Byte.to_N b * 256 + Byte.to_N a) :: words_le bs'
  | _ => []
  end.
Definition word_bytes_le (w : N) : list byte :=
  [nbyte w; nbyte (N.shiftr w 8); nbyte (N.shiftr w 16); nbyte (N.shiftr w 24)].

Definition rmd_pad (m : list byte) : list byte :=
  let bits := N.of_nat (length m) * 8 in
  m ++ x80 :: repeat x00 (zero_pad (length m))
    ++ word_bytes_le (w32 bits) ++ word_bytes_le (N.shiftr bits 32).

Fixpoint rmd_blocks (fuel : nat) (s : rstate) (ws : list N) : rstate :=
  match fuel, ws with
  | S f, _ :: _ => rmd_blocks f (rmd_compress s (firstn 16 ws)) (skipn 16 ws)
  | _, _ => s
  end.

Definition ripemd160 (m : list byte) : list byte :=
  let ws := words_le (rmd_pad m) in
  let s := rmd_blocks (length ws) rmd_iv ws in
  word_bytes_le (rA s) ++ word_bytes_le (rB s) ++ word_bytes_le (rC s) ++
  word_bytes_le (rD s) ++ word_bytes_le (rE s).

Lemma ripemd160_length (m : list byte) : length (ripemd160 m) = 20%nat.
Proof. reflexivity. Qed.
