(** * Key and phrase generation over a random source that never ends

    [Model.v] gives the source as the finite list of bytes it delivers before
    failing, and the retries as a recursion over that list. The operating system's
    source does not fail: here it is an infinite stream of bytes, and a retry is
    unbounded. [rand_run] and [generate] are the runs that end, [spins] the runs
    that do not. A position in the stream is the number of bytes read so far. *)

From Verif Require Import GoBase GoNum GoRand Model SpecStream.
Local Open Scope Z_scope.

(** crypto/rand.Int (crypto/rand/util.go, not in /repo), as in [GoRand.v]: the
    number of bytes of one attempt, its value, and the attempts until one is
    below [max]. Neither caller passes a [max] of 1 or less. *)
Definition rand_bytes (max : Z) : nat := Z.to_nat ((bit_len (max - 1) + 7) / 8).
Definition candidate (max : Z) (s : stream) (pos : nat) : Z :=
  rand_candidate (bit_len (max - 1)) (block s pos (rand_bytes max)).

Inductive rand_run (max : Z) (s : stream) : nat -> Z -> nat -> Prop :=
| rand_hit pos : candidate max s pos < max ->
    rand_run max s pos (candidate max s pos) (pos + rand_bytes max)
| rand_retry pos v q : max <= candidate max s pos ->
    rand_run max s (pos + rand_bytes max) v q -> rand_run max s pos v q.

(** private_key.go:117-133: [generate net s pos r q d] is a call that starts at
    [pos] and ends as [r] at [q], with [d] further calls nested in it. util.go:9-17,
    generateRandomBigInt, is rand.Int with [rand_max]; its error cannot happen. *)
Inductive generate (net : option network) (s : stream) : nat -> outcome private_key -> nat -> nat -> Prop :=
| gen_short pos v p r q d :                                  (* 120-125 *)
    rand_run rand_max s pos v p -> len (bigIntToHex (Some v)) <> 64 ->
    generate net s p r q d -> generate net s pos r q (S d)
| gen_error pos v p e r q d :                                (* 126-129 *)
    rand_run rand_max s pos v p -> len (bigIntToHex (Some v)) = 64 ->
    PrivateFromHex (bigIntToHex (Some v)) net = Ret (Err e) ->
    generate net s p r q d -> generate net s pos r q (S d)
| gen_panic pos v p c :                                      (* 126 *)
    rand_run rand_max s pos v p -> len (bigIntToHex (Some v)) = 64 ->
    PrivateFromHex (bigIntToHex (Some v)) net = Panic c ->
    generate net s pos (Panic c) p 0
| gen_key pos v p k :                                        (* 130-132 *)
    rand_run rand_max s pos v p -> len (bigIntToHex (Some v)) = 64 ->
    PrivateFromHex (bigIntToHex (Some v)) net = Ret (Ok k) ->
    generate net s pos (Ret (PrivateKey (Some v) (Hex k) (WIF k) (KNetwork k))) p 0.

(** The runs of the same function that never end, attempt by attempt: the
    attempt's value is rejected by rand.Int, has fewer than 64 digits, or is
    refused by PrivateFromHex, and the run goes on without end from there. *)
CoInductive spins (net : option network) (s : stream) : nat -> Prop :=
| spin_rand pos : rand_max <= candidate rand_max s pos ->
    spins net s (pos + rand_bytes rand_max) -> spins net s pos
| spin_short pos : candidate rand_max s pos < rand_max ->
    len (bigIntToHex (Some (candidate rand_max s pos))) <> 64 ->
    spins net s (pos + rand_bytes rand_max) -> spins net s pos
| spin_error pos e : candidate rand_max s pos < rand_max ->
    len (bigIntToHex (Some (candidate rand_max s pos))) = 64 ->
    PrivateFromHex (bigIntToHex (Some (candidate rand_max s pos))) net = Ret (Err e) ->
    spins net s (pos + rand_bytes rand_max) -> spins net s pos.

(** mnemonic.go:77-147 *)
Inductive mnemonic_run (words : Z) (wl : wordlist) (s : stream) (pos : nat)
  : outcome (result gostring) -> nat -> Prop :=
| mn_nil : wl = None ->                                      (* 79-81 *)
    mnemonic_run words wl s pos (Ret (Err EInvalidWordlist)) pos
| mn_length l : wl = Some l -> entropy_length words = None ->  (* 100-101 *)
    mnemonic_run words wl s pos (Ret (Err EUnsupportedLength)) pos
| mn_phrase l el e q : wl = Some l -> entropy_length words = Some el ->
    rand_run (2 ^ el) s pos e q ->                           (* 105-110 *)
    mnemonic_run words wl s pos (let* phrase := mnemonic_of_entropy el e l in Ret (Ok phrase)) q.
