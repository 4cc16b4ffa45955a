(** * What a caller of the Go source sees (C96)

    A call of the source text, from the outside: what it returns, that it
    returns an error, that it panics. Nothing here mentions the model of the
    code; the records of keys are used as plain data, the contents of objects. *)

From Coq Require Import String.
From Verif Require Import GoBase Spec Model GoSem SpecSource.
Local Open Scope Z_scope.

Section Seen.
Context (E : curve_params -> ecdsa_lib).

(** The call returns [vs] after making the objects [new]. The objects there were,
    the random source and the log are as before. *)
Definition returns (f : string) (args : list value) (s : state) (vs new : list value) : Prop :=
  ends E f args s (Done vs (State (heap s ++ new) (source s) (logged s))).

(** It returns an error beside the zero value [z], and changes nothing. *)
Definition refuses (f : string) (args : list value) (s : state) (z : value) (e : goerror) : Prop :=
  exists new, returns f args s [z; VErr e] new.

(** It panics. *)
Definition crashes (f : string) (args : list value) (s : state) : Prop :=
  exists p s', ends E f args s (Crash p s').

(** It returns a private key with these contents: a new object. *)
Definition returns_priv (f : string) (args : list value) (s : state) (k : private_key) : Prop :=
  exists v new, returns f args s [v; VNil] new /\ is_priv (heap s ++ new) v k /\ is_new s v.

(** It returns a public key with these contents: a new object. *)
Definition returns_pub (f : string) (args : list value) (s : state) (p : public_key) : Prop :=
  exists v new, returns f args s [v; VNil] new /\ is_pub (heap s ++ new) v p /\ is_new s v.
End Seen.

(** A Base58 text of one, two or three bytes: too short for a checksum. *)
Definition short_text (w : gostring) : Prop :=
  exists bs, bs <> [] /\ (length bs < 4)%nat /\ base58_text bs w.

(** A random number GeneratePrivateKey does not throw away. *)
Definition usable (z : Z) : Prop := 2 ^ 252 <= z <= secp_N - 2.

(** No byte string is spelled by the text [t]. *)
Definition unspellable (t : gostring) : Prop := ~ exists bs, hex_text t bs.
