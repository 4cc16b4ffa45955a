(** * The calls that take key pointers, nil included

    [Model.v] describes these calls for non-nil keys. Here a *PrivateKey or
    *PublicKey is an [option]: [None] is nil. Each call reads a field of every key
    it is given before it does anything else, and reading a field of nil panics. *)

From Verif Require Import GoBase Model.

Definition on_ptr {A B} (p : option A) (f : A -> outcome B) : outcome B :=
  match p with Some a => f a | None => Panic PNil end.

(** private_key.go:136-154; line 138 reads p1.Network and p2.Network. *)
Definition AddPrivateKeys_ptr (p1 p2 : option private_key) : outcome (result private_key) :=
  on_ptr p1 (fun a => on_ptr p2 (fun b => AddPrivateKeys a b)).

(** private_key.go:157-175; line 159 reads p1.Network and p2.Network. *)
Definition MultiplyPrivateKeys_ptr (p1 p2 : option private_key) : outcome (result private_key) :=
  on_ptr p1 (fun a => on_ptr p2 (fun b => MultiplyPrivateKeys a b)).

(** public_key.go:60-73; line 63 reads p.Key. *)
Definition GetPublicKey_ptr (E : ecdsa_lib) (p : option private_key) : outcome (option public_key) :=
  on_ptr p (GetPublicKey E).

(** public_key.go:76-105; line 80 reads p.X. *)
Definition Format_ptr (p : option public_key) (compressed : bool) : outcome gostring :=
  on_ptr p (fun a => Format a compressed).

(** public_key.go:108-165; line 109 calls p.Format, which reads p.X. *)
Definition Address_ptr (p : option public_key) (compressed : bool) : outcome (result gostring) :=
  on_ptr p (fun a => Address a compressed).

(** public_key.go:168-194; line 170 reads p1.Network and p2.Network. *)
Definition AddPublicKeys_ptr (E : ecdsa_lib) (p1 p2 : option public_key) (compressed : bool)
  : outcome (result public_key) :=
  on_ptr p1 (fun a => on_ptr p2 (fun b => AddPublicKeys E a b compressed)).
