(** * The repository's tests that draw random numbers

    [n] is the number of rounds (10000 in the files). A test is the list of what its
    assertions find, in order; an assertion that fails does not end the test. *)

From Verif Require Import GoBase GoNum GoRand Model WordsEnglish.
Local Open Scope Z_scope.

(** private_key_test.go:15-31. assert.Equal compares the networks by their fields
    (reflect.DeepEqual); [max] is the number of line 13, never nil. *)
Definition check (max : Z) (key : private_key) (prefix : gostring) (net : network) : outcome (list bool) :=
  let a1 := net_eqb (KNetwork key) (Some net) in                       (* 17 *)
  let* first := slice (WIF key) 0 1 in
  let a2 := str_eqb prefix first in                                    (* 20 *)
  let a3 := len (WIF key) =? 51 in                                     (* 22 *)
  let a4 := len (Hex key) =? 64 in                                     (* 25 *)
  match Key key with
  | None => Panic PNil                                                 (* Cmp on a nil number *)
  | Some k =>
      let a5 := match k ?= max with Lt => true | _ => false end in     (* 28 *)
      let a6 := match k ?= 1 with Gt => true | _ => false end in       (* 29 *)
      Ret [a1; a2; a3; a4; a5; a6]
  end.

(** private_key_test.go:32-35 and 36-39 *)
Fixpoint key_rounds (n : nat) (max : Z) (prefix : gostring) (net : network) (rd : list byte)
  : outcome (list bool * list byte) :=
  match n with
  | O => Ret ([], rd)
  | S m =>
      let* (key, rd1) := GeneratePrivateKey (Some net) rd in
      let* a := check max key prefix net in
      let* (b, rd2) := key_rounds m max prefix net rd1 in
      Ret (a ++ b, rd2)
  end.

(** private_key_test.go:11-40 *)
Definition TestGeneratePrivateKey (n : nat) (rd : list byte) : outcome (list bool * list byte) :=
  match set_string16 (str "FFFFFFFFFFFFFFFFFFFFFFFFFFFFFFFEBAAEDCE6AF48A03BBFD25E8CD0364140") with   (* 13 *)
  | None => Panic PNil
  | Some max =>
      let* (a, rd1) := key_rounds n max (str "5") MainNetwork rd in
      let* (b, rd2) := key_rounds n max (str "9") TestNetwork rd1 in
      Ret (a ++ b, rd2)
  end.

(** mnemonic_test.go:18-20. NewMnemonic returns an empty text beside an error. What it
    leaves of the random source is what its rand.Int leaves; a source that failed has
    delivered its last byte. *)
Definition mnemonic_round (l : Z) (rd : list byte) : outcome (list bool * list byte) :=
  let* r := NewMnemonic l (Some EnglishWordlist) rd in
  let '(phrase, no_error) := match r with Ok p => (p, true) | Err _ => ([], false) end in
  let rest := match entropy_length l with
              | None => rd
              | Some e => match rand_int (2 ^ e) rd with None => [] | Some (_, rest) => rest end
              end in
  Ret ([no_error; len (split_space phrase) =? l], rest).

Fixpoint mnemonic_rounds (n : nat) (l : Z) (rd : list byte) : outcome (list bool * list byte) :=
  match n with
  | O => Ret ([], rd)
  | S m =>
      let* (a, rd1) := mnemonic_round l rd in
      let* (b, rd2) := mnemonic_rounds m l rd1 in
      Ret (a ++ b, rd2)
  end.

(** mnemonic_test.go:10-23 *)
Fixpoint mnemonic_lengths (n : nat) (ls : list Z) (rd : list byte) : outcome (list bool * list byte) :=
  match ls with
  | [] => Ret ([], rd)
  | l :: ls' =>
      let* (a, rd1) := mnemonic_rounds n l rd in
      let* (b, rd2) := mnemonic_lengths n ls' rd1 in
      Ret (a ++ b, rd2)
  end.
Definition TestNewMnemonic (n : nat) (rd : list byte) : outcome (list bool * list byte) :=
  mnemonic_lengths n [12; 15; 18; 21; 24] rd.
