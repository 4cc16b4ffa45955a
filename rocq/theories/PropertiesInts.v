(** * The source text on a machine whose ints wrap around (C101)

    Theorems only; each is closed by an existing lemma. [GoSource.v] is the Go
    source as syntax trees, [GoSem.v] runs them, [SpecInts.v] says what an int of
    [bits] bits is, and [SpecSource.v] says how Go values stand for values of the
    model and what [answers_above] means. An int has 32 bits or more. What happens
    to results that do not fit in an int is left open: it never matters. The ecdsa
    dependency [E] is any library at all. *)

From Coq Require Import String.
From Verif Require Import GoBase GoNum Model ModelPtr EcRef GoSyntax GoSource GoSem SpecSource SpecInts SourceWitness IntsFacts.
Local Open Scope Z_scope.

(** The reduced int is the only int that differs from the result by a multiple of
    2^bits. *)
Theorem C101_wrap_int : forall bits z, 1 <= bits ->
  int_fits bits (wrap_int bits z) /\ (exists k, wrap_int bits z = z + k * 2 ^ bits) /\
  forall y k, int_fits bits y -> y = z + k * 2 ^ bits -> y = wrap_int bits z.
Proof. exact wrap_int_only. Qed.
Print Assumptions C101_wrap_int.

(** Ints that wrap around in this way are among those the theorems are about. *)
Theorem C101_twos_complement : forall bits, 1 <= bits -> ints_of bits (with_ints bits).
Proof. exact with_ints_of. Qed.
Print Assumptions C101_twos_complement.

(** The texts read by these two may have up to a quarter of 2^bits characters. *)
Theorem C101_CheckWIF : forall E bits L, ints_of bits L -> forall w s, 32 <= bits -> len w < 2 ^ (bits - 2) ->
  answers_above E L "CheckWIF" [VStr w] s (CheckWIF w) truth.
Proof. exact ints_CheckWIF. Qed.
Print Assumptions C101_CheckWIF.

Theorem C101_PrivateFromWIF : forall E bits L, ints_of bits L -> forall w v net s, 32 <= bits -> len w < 2 ^ (bits - 2) ->
  is_net (heap s) v net ->
  answers_above E L "PrivateFromWIF" [VStr w; v] s (PrivateFromWIF w net) (new_priv s).
Proof. exact ints_PrivateFromWIF. Qed.
Print Assumptions C101_PrivateFromWIF.

(** Any number of words may be asked for. *)
Theorem C101_NewMnemonic : forall E bits L, ints_of bits L -> forall words v wl s, 32 <= bits -> is_words v wl ->
  answers_reading_above E L "NewMnemonic" [VInt words; v] s (NewMnemonic words wl (source s))
    (fun _ => left_by_mnemonic words wl (source s)) text_or_err.
Proof. exact ints_Mnemonic. Qed.
Print Assumptions C101_NewMnemonic.

(** The word list is one whose length is an int; the phrase may have up to
    2^(bits-1)/bits - 2 characters. *)
Theorem C101_NewSeedFromMnemonic : forall E bits L, ints_of bits L -> forall m p v wl s, 32 <= bits -> is_words v wl ->
  len (words_of wl) < 2 ^ (bits - 1) -> bits * (len m + 2) <= 2 ^ (bits - 1) ->
  answers_logging_above E L "NewSeedFromMnemonic" [VStr m; VStr p; v] s
    (fst (NewSeedFromMnemonic m p wl)) (snd (NewSeedFromMnemonic m p wl)) bytes_or_err.
Proof. exact ints_Seed. Qed.
Print Assumptions C101_NewSeedFromMnemonic.

(** The other functions do not depend on the ints at all. *)
Theorem C101_init : forall E bits L, ints_of bits L -> forall rd lg, exists h,
  ends_above E L "init" [] (State start_heap rd lg) (Done [] (State h rd lg)) /\
  curve_ready h /\
  (exists v, var_is h "MainNetwork" v /\ is_net h v (Some MainNetwork)) /\
  (exists v, var_is h "TestNetwork" v /\ is_net h v (Some TestNetwork)).
Proof. exact ints_init. Qed.
Print Assumptions C101_init.

Theorem C101_PrivateFromHex : forall E bits L, ints_of bits L -> forall x v net s, is_net (heap s) v net ->
  answers_above E L "PrivateFromHex" [VStr x; v] s (PrivateFromHex x net) (new_priv s).
Proof. exact ints_PrivateFromHex. Qed.
Print Assumptions C101_PrivateFromHex.

Theorem C101_GeneratePrivateKey : forall E bits L, ints_of bits L -> forall v net s, is_net (heap s) v net ->
  answers_reading_above E L "GeneratePrivateKey" [v] s
    (GeneratePrivateKey net (source s)) snd (new_random_priv s).
Proof. exact ints_Generate. Qed.
Print Assumptions C101_GeneratePrivateKey.

Theorem C101_AddPrivateKeys : forall E bits L, ints_of bits L -> forall v1 p1 v2 p2 s, curve_ready (heap s) ->
  is_priv_ptr (heap s) v1 p1 -> is_priv_ptr (heap s) v2 p2 ->
  answers_above E L "AddPrivateKeys" [v1; v2] s (AddPrivateKeys_ptr p1 p2) (new_priv s).
Proof. exact ints_AddPrivateKeys. Qed.
Print Assumptions C101_AddPrivateKeys.

Theorem C101_MultiplyPrivateKeys : forall E bits L, ints_of bits L -> forall v1 p1 v2 p2 s, curve_ready (heap s) ->
  is_priv_ptr (heap s) v1 p1 -> is_priv_ptr (heap s) v2 p2 ->
  answers_above E L "MultiplyPrivateKeys" [v1; v2] s (MultiplyPrivateKeys_ptr p1 p2) (new_priv s).
Proof. exact ints_MultiplyPrivateKeys. Qed.
Print Assumptions C101_MultiplyPrivateKeys.

Theorem C101_GetPublicKey : forall E bits L, ints_of bits L -> forall v k s, curve_ready (heap s) -> is_priv_ptr (heap s) v k ->
  answers_above E L "PrivateKey.GetPublicKey" [v] s
    (GetPublicKey_ptr (E secp256k1_params) k) (new_pub_ok s).
Proof. exact ints_GetPublicKey. Qed.
Print Assumptions C101_GetPublicKey.

Theorem C101_PublicFromHex : forall E bits L, ints_of bits L -> forall x v net s, curve_ready (heap s) -> is_net (heap s) v net ->
  answers_above E L "PublicFromHex" [VStr x; v] s
    (PublicFromHex (E secp256k1_params) x net) (new_pub s).
Proof. exact ints_PublicFromHex. Qed.
Print Assumptions C101_PublicFromHex.

Theorem C101_AddPublicKeys : forall E bits L, ints_of bits L -> forall v1 p1 v2 p2 c s, curve_ready (heap s) ->
  is_pub_ptr (heap s) v1 p1 -> is_pub_ptr (heap s) v2 p2 ->
  answers_above E L "AddPublicKeys" [v1; v2; VBool c] s
    (AddPublicKeys_ptr (E secp256k1_params) p1 p2 c) (new_pub s).
Proof. exact ints_AddPublicKeys. Qed.
Print Assumptions C101_AddPublicKeys.

Theorem C101_Format : forall E bits L, ints_of bits L -> forall v p c s, is_pub_ptr (heap s) v p ->
  answers_above E L "PublicKey.Format" [v; VBool c] s (Format_ptr p c) text.
Proof. exact ints_Format. Qed.
Print Assumptions C101_Format.

Theorem C101_Address : forall E bits L, ints_of bits L -> forall v p c s, is_pub_ptr (heap s) v p ->
  answers_above E L "PublicKey.Address" [v; VBool c] s (Address_ptr p c) text_or_err.
Proof. exact ints_Address. Qed.
Print Assumptions C101_Address.

(** [example_state] of [SourceWitness.v] meets the hypotheses about the heap
    (C94_example_curve and the examples after it). A WIF and a phrase of ordinary
    length meet the bounds for ints of 32 and of 64 bits; 67 million characters
    still do. *)
Example C101_example_bounds :
  (len (WIF example_key) < 2 ^ (32 - 2) /\ len (WIF example_key) < 2 ^ (64 - 2)) /\
  (forall m : gostring, len m <= 67108862 -> 32 * (len m + 2) <= 2 ^ (32 - 1) /\ 64 * (len m + 2) <= 2 ^ (64 - 1)).
Proof.
  split; [split; reflexivity|]. intros m Hm.
  change (2 ^ (32 - 1)) with 2147483648. change (2 ^ (64 - 1)) with 9223372036854775808. lia.
Qed.
Example C101_example_wrap :
  wrap_int 32 2147483648 = -2147483648 /\ wrap_int 32 (-2147483649) = 2147483647 /\ wrap_int 64 2147483648 = 2147483648.
Proof. repeat split. Qed.
(** The bound matters: with ints of six bits, len(hex) - 8 is 2 instead of 66, and
    a valid WIF is not recognised. *)
Example C101_example_narrow :
  match run (fun _ => ref_lib) (with_ints 6) 10 "CheckWIF" [VStr (WIF example_key)] example_state,
        run (fun _ => ref_lib) (with_ints 32) 10 "CheckWIF" [VStr (WIF example_key)] example_state with
  | Done vs _, Done ws _ => vs = [VBool false] /\ ws = [VBool true]
  | _, _ => False
  end.
Proof. vm_compute. split; reflexivity. Qed.
