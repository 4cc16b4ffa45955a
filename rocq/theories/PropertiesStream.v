(** * Properties of generation from a random source that never ends (C81)

    Theorems only; each is closed by an existing lemma. Specification:
    [SpecStream.v] (and [hex_text], [bytes_number] of [Spec.v]). Model:
    [ModelStream.v]. *)

From Verif Require Import GoBase GoNum Sha256 Base58 GoRand Model SpecStream ModelStream Spec StreamFacts Witness MnemWitness WordsEnglish.
Local Open Scope Z_scope.

(** ** C81 *)

(** The call ends if and only if some block of the source is in range, and it then
    returns the key of the first such block, having read up to its end. *)
Theorem C81_ends_iff_a_block_is_in_range : forall n bs, hex_text (PrivKeyPrefix n) bs -> forall s,
  (exists r q d, generate (Some n) s 0 r q d) <-> exists m, in_range (bytes_number (block s (32 * m) 32)).
Proof. exact generate_ends_iff. Qed.
Print Assumptions C81_ends_iff_a_block_is_in_range.

Theorem C81_key_of_the_first_block : forall n bs, hex_text (PrivKeyPrefix n) bs -> forall s m, first_good s m ->
  exists k d, generate (Some n) s 0 (Ret k) (32 * S m) d /\ Key k = Some (bytes_number (block s (32 * m) 32)).
Proof. exact generate_at. Qed.
Print Assumptions C81_key_of_the_first_block.

Theorem C81_one_result : forall net s pos r q d, generate net s pos r q d ->
  forall r' q' d', generate net s pos r' q' d' -> r' = r /\ q' = q /\ d' = d.
Proof. exact generate_fun. Qed.
Print Assumptions C81_one_result.

(** The call does not end if and only if no block is in range. *)
Theorem C81_runs_forever_iff : forall n bs s, hex_text (PrivKeyPrefix n) bs ->
  (spins (Some n) s 0 <-> forall m, ~ in_range (bytes_number (block s (32 * m) 32))).
Proof. exact spins_iff. Qed.
Print Assumptions C81_runs_forever_iff.

(** With a network whose prefix is not hexadecimal it never ends, whatever the
    source delivers. *)
Theorem C81_bad_prefix_runs_forever : forall n s, (~ exists bs, hex_text (PrivKeyPrefix n) bs) ->
  spins (Some n) s 0 /\ forall r q d, ~ generate (Some n) s 0 r q d.
Proof. exact bad_prefix_never. Qed.
Print Assumptions C81_bad_prefix_runs_forever.

Theorem C81_nil_network : forall s,
  ((exists r q d, generate None s 0 r q d) <-> exists m, in_range (bytes_number (block s (32 * m) 32))) /\
  (spins None s 0 <-> forall m, ~ in_range (bytes_number (block s (32 * m) 32))) /\
  forall r q d, generate None s 0 r q d -> r = Panic PNil.
Proof. exact generate_nil. Qed.
Print Assumptions C81_nil_network.

(** Not ending is what [spins] says it is. *)
Theorem C81_ends_or_runs_forever : forall n s,
  ~ (exists r q d, generate (Some n) s 0 r q d) <-> spins (Some n) s 0.
Proof. exact generate_ends_or_spins. Qed.
Print Assumptions C81_ends_or_runs_forever.

(** The finite sources of [Model.v] are the beginnings of these. *)
Theorem C81_same_as_finite_source : forall net s k q,
  (exists d, generate net s 0 (Ret k) q d) <-> GeneratePrivateKey net (block s 0 q) = Ret (k, []).
Proof. exact generate_returns_model. Qed.
Print Assumptions C81_same_as_finite_source.

(** Retries are nested calls; there is no bound on how many. *)
Theorem C81_nested_calls_unbounded : forall n bs, hex_text (PrivKeyPrefix n) bs -> forall d,
  exists s k q, generate (Some n) s 0 (Ret k) q d.
Proof. exact nested_any. Qed.
Print Assumptions C81_nested_calls_unbounded.

(** NewMnemonic has no retry: it ends on every source, within 32 bytes. *)
Theorem C81_phrase_always_ends : forall words wl s,
  (exists r q, mnemonic_run words wl s 0 r q) /\
  forall r q, mnemonic_run words wl s 0 r q ->
    (q <= 32)%nat /\ r = NewMnemonic words wl (block s 0 q) /\
    forall rest, NewMnemonic words wl (block s 0 q ++ rest) = r.
Proof. exact mnemonic_ends. Qed.
Print Assumptions C81_phrase_always_ends.

(** A source with 3 blocks of zeros, then a good one; a source of zeros only; a
    source whose first block only rand.Int rejects. *)
Example C81_example :
  hex_text (PrivKeyPrefix MainNetwork) [x80] /\ first_good (late 3) 3 /\
  (forall m, ~ in_range (bytes_number (block (fun _ => x00) (32 * m) 32))) /\
  ~ in_range (bytes_number (block (fun i => if (i <? 32)%nat then xff else x42) 0 32)) /\
  in_range (bytes_number (block (fun i => if (i <? 32)%nat then xff else x42) 32 32)).
Proof. exact stream_examples. Qed.
Example C81_example_bad_prefix : ~ exists bs, hex_text (PrivKeyPrefix (Network (str "8x") (str "00"))) bs.
Proof. exact bad_prefix_example. Qed.
