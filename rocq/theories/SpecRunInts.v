(** * Keys that may be typed in on a machine whose ints have [bits] bits (C105, C106) *)

From Coq Require Import String.
From Verif Require Import GoBase GoSem SpecSession.
Local Open Scope Z_scope.

(** No text that is typed in as a private key has 2^(bits-4) characters or more. *)
Definition short_keys (bits : Z) (r : request) : Prop :=
  match r with EnterHex t _ | EnterWIF t _ => len t < 2 ^ (bits - 4) | _ => True end.

(** A private key a program starts with has fewer than 2^(bits-4) bytes. *)
Definition few_bytes (bits : Z) (m : meaning) : Prop :=
  match m with MPrivate _ _ bs => len bs < 2 ^ (bits - 4) | _ => True end.

(** The conditions of C101 on a call: how long a WIF, a phrase and a word list may be. *)
Definition short_call (bits : Z) (f : string) (args : list value) : Prop :=
  match args with
  | VStr t :: rest =>
      (f = "CheckWIF" \/ f = "PrivateFromWIF" -> len t < 2 ^ (bits - 2)) /\
      (f = "NewSeedFromMnemonic" -> bits * (len t + 2) <= 2 ^ (bits - 1) /\
         forall ws, In (VStrs ws) rest -> len ws < 2 ^ (bits - 1))
  | _ => True
  end%string.
