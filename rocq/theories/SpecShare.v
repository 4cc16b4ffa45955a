(** * What a new key is made of, and programs that overwrite what they can reach (C107) *)

From Coq Require Import String.
From Verif Require Import GoBase Model GoSem SpecSource.
Local Open Scope Z_scope.

(** [v] points to an object that is not in [h0] *)
Definition fresh (h0 : list value) (v : value) : Prop := exists a, v = VPtr a /\ (length h0 <= a)%nat.

(** [v] is a *PrivateKey made since [h0]: the object is new, its number is a new
    object too (or nil), and its network is the very pointer [net]. *)
Definition made_priv (h0 : list value) (net : value) (h : list value) (v : value) (k : private_key) : Prop :=
  exists a key,
    v = VPtr a /\ (length h0 <= a)%nat /\
    nth_error h a = Some (VStruct "PrivateKey" [("Key", key); ("Hex", VStr (Hex k));
                                                ("WIF", VStr (WIF k)); ("Network", net)]%string) /\
    is_big h key (Key k) /\ (key = VNil \/ fresh h0 key) /\ is_net h net (KNetwork k).

(** The same for a *PublicKey; its coordinates are two objects. *)
Definition made_pub (h0 : list value) (net : value) (h : list value) (v : value) (p : public_key) : Prop :=
  exists a x y,
    v = VPtr a /\ (length h0 <= a)%nat /\
    nth_error h a = Some (VStruct "PublicKey" [("X", x); ("Y", y); ("Network", net)]%string) /\
    is_big h x (PX p) /\ (x = VNil \/ fresh h0 x) /\ is_big h y (PY p) /\ (y = VNil \/ fresh h0 y) /\
    (x = y -> x = VNil) /\ is_net h net (PNetwork p).

(** ( *PrivateKey, error), ( *PublicKey, error), ( *PublicKey, bool), *PrivateKey *)
Definition own_priv (s : state) (net : value) : repr (result private_key) := or_err VNil (made_priv (heap s) net).
Definition own_pub (s : state) (net : value) : repr (result public_key) := or_err VNil (made_pub (heap s) net).
Definition own_pub_ok (s : state) (net : value) : repr (option public_key) :=
  fun h o vs =>
    match o with
    | Some p => exists v, vs = [v; VBool true] /\ made_pub (heap s) net h v p
    | None => vs = [VNil; VBool false]
    end.
Definition own_random_priv (s : state) (net : value) : repr (private_key * list byte) :=
  fun h a vs => exists v, vs = [v] /\ made_priv (heap s) net h v (fst a).

(** the field [x] of the struct behind the pointer [v] is [w] *)
Definition field_is (h : list value) (v : value) (x : string) (w : value) : Prop :=
  exists a t fs, v = VPtr a /\ nth_error h a = Some (VStruct t fs) /\ In (x, w) fs.
