(** * Vocabulary for the statements about the source text

    How a Go value of the heap of [GoSem.v] stands for a value of the model,
    and what it means that a call of the source gives a model answer. *)

From Coq Require Import String.
From Verif Require Import GoBase Model GoSem.
Local Open Scope Z_scope.

(** a *big.Int *)
Definition is_big (h : list value) (v : value) (n : option Z) : Prop :=
  match n with
  | None => v = VNil
  | Some z => exists a, v = VPtr a /\ nth_error h a = Some (VBig z)
  end.

(** a *Network *)
Definition network_cell (n : network) : value :=
  VStruct "Network" [("PrivKeyPrefix", VStr (PrivKeyPrefix n));
                     ("PubKeyHashPrefix", VStr (PubKeyHashPrefix n))]%string.
Definition is_net (h : list value) (v : value) (n : option network) : Prop :=
  match n with
  | None => v = VNil
  | Some n => exists a, v = VPtr a /\ nth_error h a = Some (network_cell n)
  end.

(** a non-nil *PrivateKey *)
Definition is_priv (h : list value) (v : value) (k : private_key) : Prop :=
  exists a key net,
    v = VPtr a /\
    nth_error h a = Some (VStruct "PrivateKey" [("Key", key); ("Hex", VStr (Hex k));
                                                ("WIF", VStr (WIF k)); ("Network", net)]%string) /\
    is_big h key (Key k) /\ is_net h net (KNetwork k).

(** a non-nil *PublicKey *)
Definition is_pub (h : list value) (v : value) (p : public_key) : Prop :=
  exists a x y net,
    v = VPtr a /\
    nth_error h a = Some (VStruct "PublicKey" [("X", x); ("Y", y); ("Network", net)]%string) /\
    is_big h x (PX p) /\ is_big h y (PY p) /\ is_net h net (PNetwork p).

(** a *PrivateKey, a *PublicKey: [None] is nil *)
Definition is_priv_ptr (h : list value) (v : value) (k : option private_key) : Prop :=
  match k with None => v = VNil | Some k => is_priv h v k end.
Definition is_pub_ptr (h : list value) (v : value) (p : option public_key) : Prop :=
  match p with None => v = VNil | Some p => is_pub h v p end.

(** a []string *)
Definition is_words (v : value) (wl : wordlist) : Prop :=
  match wl with None => v = VNil | Some l => v = VStrs l end.

(** the object did not exist in state [s] *)
Definition is_new (s : state) (v : value) : Prop :=
  exists a, v = VPtr a /\ (length (heap s) <= a)%nat.

(** the package variable [x] holds [v] *)
Definition var_is (h : list value) (x : string) (v : value) : Prop :=
  exists a, global x = Some a /\ nth_error h a = Some v.

(** the package variable secp256k1 holds the parameters of the curve *)
Definition curve_ready (h : list value) : Prop :=
  exists a b p gx gy n c,
    var_is h "secp256k1"
      (VStruct "ecdsa.Curve" [("A", a); ("B", b); ("P", p);
                              ("G", VStruct "ecdsa.Point" [("X", gx); ("Y", gy)]);
                              ("N", n); ("H", c)]%string) /\
    is_big h a (Some secp_A) /\ is_big h b (Some secp_B) /\ is_big h p (Some secp_P) /\
    is_big h gx (Some secp_Gx) /\ is_big h gy (Some secp_Gy) /\
    is_big h n (Some secp_N) /\ is_big h c (Some secp_H).
Definition secp256k1_params : curve_params :=
  Params secp_A secp_B secp_P secp_Gx secp_Gy secp_N secp_H.

(** [rep h a vs]: in heap [h] the Go results [vs] stand for [a] *)
Definition repr (A : Type) := list value -> A -> list value -> Prop.

(** (T, error): [z] is the zero value of T *)
Definition or_err {A} (z : value) (rep : list value -> value -> A -> Prop) : repr (result A) :=
  fun h r vs =>
    match r with
    | Ok a => exists v, vs = [v; VNil] /\ rep h v a
    | Err e => vs = [z; VErr e]
    end.

(** ( *PrivateKey, error) and ( *PublicKey, error), the key being a new object *)
Definition new_priv (s : state) : repr (result private_key) :=
  or_err VNil (fun h v k => is_priv h v k /\ is_new s v).
Definition new_pub (s : state) : repr (result public_key) :=
  or_err VNil (fun h v p => is_pub h v p /\ is_new s v).
(** ( *PublicKey, bool) *)
Definition new_pub_ok (s : state) : repr (option public_key) :=
  fun h o vs =>
    match o with
    | Some p => exists v, vs = [v; VBool true] /\ is_pub h v p /\ is_new s v
    | None => vs = [VNil; VBool false]
    end.
(** (string, error); string; bool; ([]byte, error) *)
Definition text_or_err : repr (result gostring) := or_err (VStr []) (fun _ v x => v = VStr x).
Definition text : repr gostring := fun _ x vs => vs = [VStr x].
Definition truth : repr bool := fun _ b vs => vs = [VBool b].
Definition bytes_or_err : repr (result (option (list byte))) :=
  or_err VNil (fun _ v o => match o with None => v = VNil | Some b => v = VBytes b end).
(** a *PrivateKey, made from the random source *)
Definition new_random_priv (s : state) : repr (private_key * list byte) :=
  fun h a vs => exists v, vs = [v] /\ is_priv h v (fst a) /\ is_new s v.

(** What NewMnemonic leaves of the random source: four bytes are used for every
    three words, if there is a list and the number of words is supported. *)
Definition left_by_mnemonic (words : Z) (wl : wordlist) (rd : list byte) : list byte :=
  match wl with
  | None => rd
  | Some _ => if existsb (Z.eqb words) [12; 15; 18; 21; 24] then skipn (Z.to_nat (words / 3 * 4)) rd else rd
  end.

Section Answers.
Context (E : curve_params -> ecdsa_lib) (L : limits).

(** Calling [f] in state [s] ends as [o] says, and no cell below [lowest L] is
    written meanwhile. In the end no existing object has changed, the random
    source has not been read and nothing has been logged. *)
Definition answers_above {A} (f : string) (args : list value) (s : state) (o : outcome A) (rep : repr A) : Prop :=
  exists new,
    match o with
    | Ret a => exists vs,
        ends_above E L f args s (Done vs (State (heap s ++ new) (source s) (logged s))) /\
        rep (heap s ++ new) a vs
    | Panic p => ends_above E L f args s (Crash p (State (heap s ++ new) (source s) (logged s)))
    end.

(** The same for a call that logs the lines [log]. *)
Definition answers_logging_above {A} (f : string) (args : list value) (s : state)
    (log : list gostring) (o : outcome A) (rep : repr A) : Prop :=
  exists new,
    match o with
    | Ret a => exists vs,
        ends_above E L f args s (Done vs (State (heap s ++ new) (source s) (logged s ++ log))) /\
        rep (heap s ++ new) a vs
    | Panic p => ends_above E L f args s (Crash p (State (heap s ++ new) (source s) (logged s ++ log)))
    end.

(** The same for a call that reads the random source and leaves [rest a] of it. *)
Definition answers_reading_above {A} (f : string) (args : list value) (s : state)
    (o : outcome A) (rest : A -> list byte) (rep : repr A) : Prop :=
  exists new,
    match o with
    | Ret a => exists vs,
        ends_above E L f args s (Done vs (State (heap s ++ new) (rest a) (logged s))) /\
        rep (heap s ++ new) a vs
    | Panic p => exists left,
        ends_above E L f args s (Crash p (State (heap s ++ new) left (logged s)))
    end.

End Answers.

(** With no floor: any cell may be written meanwhile. *)
Definition answers E {A} (f : string) args s (o : outcome A) rep : Prop :=
  answers_above E O f args s o rep.
Definition answers_logging E {A} (f : string) args s log (o : outcome A) rep : Prop :=
  answers_logging_above E O f args s log o rep.
Definition answers_reading E {A} (f : string) args s (o : outcome A) rest rep : Prop :=
  answers_reading_above E O f args s o rest rep.
