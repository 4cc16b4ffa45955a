(** * Properties of mnemonics and word lists (C39-C49)

    Theorems only; each is closed by an existing lemma. Specifications:
    [Spec.v] (bits, phrase_bits, bip39, spaced, proper_list). Model: [Model.v].
    [k] is the number of checksum bits: 3k words, 4k bytes of entropy. *)

From Verif Require Import GoBase GoNum Sha256 GoRand Model Spec SpecText.
From Verif Require Import MnemFacts MnemProps SeedFacts WordFacts RestateMnem MnemWitness WordsEnglish WordsKorean.
Local Open Scope Z_scope.

(** ** C39 *)

Theorem C39_exact_number_of_list_words : forall k l rd,
  (4 <= k <= 8)%nat -> (2048 <= length l)%nat ->
  Forall (fun w => ~ In x20 w) (firstn 2048 l) -> (4 * k <= length rd)%nat ->
  (k <= length (drop_zero_bits (bits (sha256 (drop_zero_bytes (firstn (4 * k) rd))))))%nat ->
  exists s ws, NewMnemonic (Z.of_nat (3 * k)) (Some l) rd = Ret (Ok s) /\ spaced ws s /\
    length ws = (3 * k)%nat /\ Forall (fun w => In w (firstn 2048 l)) ws.
Proof. exact NewMnemonic_total. Qed.
Print Assumptions C39_exact_number_of_list_words.

Theorem C39_random_source_failure_is_an_error : forall k l rd,
  (4 <= k <= 8)%nat -> (length rd < 4 * k)%nat ->
  NewMnemonic (Z.of_nat (3 * k)) (Some l) rd = Ret (Err ERandRead).
Proof. exact NewMnemonic_short. Qed.
Print Assumptions C39_random_source_failure_is_an_error.

Theorem C39_other_lengths_are_errors : forall n l rd, ~ In n [12; 15; 18; 21; 24] ->
  NewMnemonic n (Some l) rd = Ret (Err EUnsupportedLength).
Proof. exact NewMnemonic_unsupported. Qed.
Print Assumptions C39_other_lengths_are_errors.

Theorem C39_nil_list_is_an_error : forall n rd, NewMnemonic n None rd = Ret (Err EInvalidWordlist).
Proof. exact NewMnemonic_nil. Qed.
Print Assumptions C39_nil_list_is_an_error.

Theorem C39_no_error_with_entropy : forall k l rd e, (4 <= k <= 8)%nat -> (4 * k <= length rd)%nat ->
  NewMnemonic (Z.of_nat (3 * k)) (Some l) rd <> Ret (Err e).
Proof. exact NewMnemonic_no_error. Qed.
Print Assumptions C39_no_error_with_entropy.

Example C39_example : length ent16 = 16%nat /\
  exists s, NewMnemonic 12 english ent16 = Ret (Ok s) /\ length (split_space s) = 12%nat.
Proof. split; [reflexivity|]. eexists. split; [vm_compute; reflexivity|]. vm_compute. reflexivity. Qed.

(** ** C40 *)

Theorem C40_no_entropy_lost : forall k l e1 e2 r1 r2 s, (4 <= k <= 8)%nat ->
  NoDup (firstn 2048 l) -> Forall (fun w => ~ In x20 w) (firstn 2048 l) ->
  length e1 = (4 * k)%nat -> length e2 = (4 * k)%nat ->
  NewMnemonic (Z.of_nat (3 * k)) (Some l) (e1 ++ r1) = Ret (Ok s) ->
  NewMnemonic (Z.of_nat (3 * k)) (Some l) (e2 ++ r2) = Ret (Ok s) -> e1 = e2.
Proof. exact NewMnemonic_injective. Qed.
Print Assumptions C40_no_entropy_lost.

(** Only the first 4k bytes of the random stream matter. *)
Theorem C40_only_the_entropy_matters : forall k l e r r', (4 <= k <= 8)%nat -> length e = (4 * k)%nat ->
  NewMnemonic (Z.of_nat (3 * k)) (Some l) (e ++ r) = NewMnemonic (Z.of_nat (3 * k)) (Some l) (e ++ r').
Proof. exact NewMnemonic_prefix. Qed.
Print Assumptions C40_only_the_entropy_matters.

Example C40_example : NoDup (firstn 2048 EnglishWordlist) /\ Forall (fun w => ~ In x20 w) (firstn 2048 EnglishWordlist) /\
  exists s, NewMnemonic 12 english (ent16 ++ [x01]) = Ret (Ok s).
Proof.
  destruct english_proper as (L & H1 & H2). rewrite firstn_all2 by (rewrite L; apply Nat.le_refl).
  split; [exact H1|]. split; [eapply Forall_impl; [|exact H2]; intros w [_ Hw]; exact Hw|]. eexists. vm_compute. reflexivity.
Qed.

(** ** C41 *)

Theorem C41_reversed_bit_string : forall k l rd s ws,
  (4 <= k <= 8)%nat -> Forall (fun w => ~ In x20 w) (firstn 2048 l) ->
  NewMnemonic (Z.of_nat (3 * k)) (Some l) rd = Ret (Ok s) -> spaced ws s ->
  exists e chk, e = firstn (4 * k) rd /\ length e = (4 * k)%nat /\ length chk = k /\
    length ws = (3 * k)%nat /\ phrase_bits l ws (rev (bits e ++ chk)) /\
    chk = firstn k (drop_zero_bits (bits (sha256 (drop_zero_bytes e)))).
Proof. exact NewMnemonic_reversed. Qed.
Print Assumptions C41_reversed_bit_string.

(** Word i carries, reversed, the bits of group n-1-i of the stream. *)
Theorem C41_word_by_word : forall k l rd s ws,
  (4 <= k <= 8)%nat -> Forall (fun w => ~ In x20 w) (firstn 2048 l) ->
  NewMnemonic (Z.of_nat (3 * k)) (Some l) rd = Ret (Ok s) -> spaced ws s ->
  exists chk js, length chk = k /\ length js = (3 * k)%nat /\ Forall (fun j => (j < 2048)%nat) js /\
    flat_map index_bits js = bits (firstn (4 * k) rd) ++ chk /\
    Forall2 (fun w j => exists i, index_bits i = rev (index_bits j) /\ nth_error l i = Some w) ws (rev js).
Proof. exact NewMnemonic_word_groups. Qed.
Print Assumptions C41_word_by_word.

(** "Generated phrases are BIP-39 phrases" is false. *)
Theorem C41_C47_generated_is_bip39_refuted :
  exists rd s ws, NewMnemonic 24 (Some EnglishWordlist) rd = Ret (Ok s) /\ spaced ws s /\
    length ws = 24%nat /\ (~ exists e, bip39 EnglishWordlist ws e) /\
    exists log, NewSeedFromMnemonic s [] (Some EnglishWordlist) = (log, Ret (Err EInvalidChecksum)).
Proof. exact generated_not_bip39. Qed.
Print Assumptions C41_C47_generated_is_bip39_refuted.

Example C41_example : NewMnemonic 24 english ent32 = Ret (Ok (made 24 ent32)) /\
  spaced (split_space (made 24 ent32)) (made 24 ent32).
Proof. split; [exact made_24|apply split_spaced]. Qed.

(** ** C42 *)

Theorem C42_checksum_bits : forall k l rd s ws,
  (4 <= k <= 8)%nat -> Forall (fun w => ~ In x20 w) (firstn 2048 l) ->
  NewMnemonic (Z.of_nat (3 * k)) (Some l) rd = Ret (Ok s) -> spaced ws s ->
  exists e chk, e = firstn (4 * k) rd /\ length chk = k /\ phrase_bits l ws (rev (bits e ++ chk)) /\
    hd_error chk = Some true /\
    (hd_error e <> Some x00 ->
     (chk = firstn k (bits (sha256 e)) <-> hd_error (bits (sha256 e)) = Some true)).
Proof. exact checksum_first_bit. Qed.
Print Assumptions C42_checksum_bits.

(** Both outcomes occur: the checksum bits are those of the hash for one
    entropy and are not for another. *)
Example C42_example :
  hd_error (bits (sha256 (repeat x01 32))) = Some false /\ hd_error (bits (sha256 (repeat x04 32))) = Some true.
Proof. split; vm_compute; reflexivity. Qed.

(** ** C43 *)

Theorem C43_panic_set : forall k l rd, (4 <= k <= 8)%nat -> (4 * k <= length rd)%nat ->
  ((exists p, NewMnemonic (Z.of_nat (3 * k)) (Some l) rd = Panic p) <->
   let e := firstn (4 * k) rd in
   let h := drop_zero_bits (bits (sha256 (drop_zero_bytes e))) in
   (length h < k)%nat \/ ~ exists ws, phrase_bits l ws (rev (bits e ++ firstn k h))).
Proof. exact NewMnemonic_panic_iff. Qed.
Print Assumptions C43_panic_set.

Theorem C43_full_lists_panic_only_on_a_tiny_hash : forall k l rd,
  (4 <= k <= 8)%nat -> (2048 <= length l)%nat -> (4 * k <= length rd)%nat ->
  ((exists p, NewMnemonic (Z.of_nat (3 * k)) (Some l) rd = Panic p) <->
   (length (drop_zero_bits (bits (sha256 (drop_zero_bytes (firstn (4 * k) rd))))) < k)%nat).
Proof. exact NewMnemonic_panic_long. Qed.
Print Assumptions C43_full_lists_panic_only_on_a_tiny_hash.

Example C43_example : NewMnemonic 12 (Some (firstn 100 EnglishWordlist)) ent16 = Panic PIndex.
Proof. vm_compute. reflexivity. Qed.

(** ** C44 *)

Theorem C44_never_a_seed : forall m p l log r,
  NewSeedFromMnemonic m p l = (log, Ret (Ok r)) -> r = None.
Proof. exact NewSeed_never_seed. Qed.
Print Assumptions C44_never_a_seed.

Theorem C44_passphrase_ignored : forall m p q l,
  NewSeedFromMnemonic m p l = NewSeedFromMnemonic m q l.
Proof. exact NewSeed_passphrase. Qed.
Print Assumptions C44_passphrase_ignored.

Example C44_example : snd (NewSeedFromMnemonic phrase_art (str "secret") english) = Ret (Ok None).
Proof. vm_compute. reflexivity. Qed.

(** ** C45 *)

Theorem C45_accepted_phrases : forall m p l, NoDup l -> (length l <= 2048)%nat ->
  ((exists log r, NewSeedFromMnemonic m p (Some l) = (log, Ret (Ok r))) <->
   exists ws d c, spaced ws m /\ phrase_bits l ws (bits (d ++ [c])) /\ hd_error (sha256 d) = Some c).
Proof. exact NewSeed_accepts_iff. Qed.
Print Assumptions C45_accepted_phrases.

Theorem C45_word_count_multiple_of_8 : forall m p l ws log r, NoDup l -> (length l <= 2048)%nat -> spaced ws m ->
  NewSeedFromMnemonic m p (Some l) = (log, Ret (Ok r)) -> (length ws mod 8 = 0)%nat.
Proof. exact NewSeed_accepts_count. Qed.
Print Assumptions C45_word_count_multiple_of_8.

Theorem C45_24_words_iff_bip39 : forall m p l ws,
  NoDup l -> (length l <= 2048)%nat -> spaced ws m -> length ws = 24%nat ->
  ((exists log r, NewSeedFromMnemonic m p (Some l) = (log, Ret (Ok r))) <-> exists e, bip39 l ws e).
Proof. exact NewSeed_accepts_24. Qed.
Print Assumptions C45_24_words_iff_bip39.

Theorem C45_unknown_word_is_an_error : forall m p l ws, spaced ws m -> (exists w, In w ws /\ ~ In w l) ->
  NewSeedFromMnemonic m p (Some l) = ([], Ret (Err EInvalidMnemonic)).
Proof. exact NewSeed_unknown_word. Qed.
Print Assumptions C45_unknown_word_is_an_error.

Theorem C45_nil_list_is_an_error : forall m p, NewSeedFromMnemonic m p None = ([], Ret (Err EInvalidMnemonic)).
Proof. exact NewSeed_nil_list. Qed.
Print Assumptions C45_nil_list_is_an_error.

Example C45_example : length (split_space phrase_art) = 24%nat /\
  snd (NewSeedFromMnemonic phrase_art [] english) = Ret (Ok None).
Proof. split; vm_compute; reflexivity. Qed.
Example C45_example_wrong_checksum :
  snd (NewSeedFromMnemonic (firstn (length phrase_art - 3) phrase_art ++ str "zoo") [] english) = Ret (Err EInvalidChecksum).
Proof. vm_compute. reflexivity. Qed.

(** ** C46 *)

Theorem C46_counts_that_panic : forall m p l ws, NoDup l -> (length l <= 2048)%nat -> spaced ws m ->
  Forall (fun w => In w l) ws -> (length ws mod 4 <> 0)%nat ->
  exists log, NewSeedFromMnemonic m p (Some l) = (log, Panic PIndex).
Proof. exact NewSeed_count_panics. Qed.
Print Assumptions C46_counts_that_panic.

Theorem C46_counts_that_fail : forall m p l ws, NoDup l -> (length l <= 2048)%nat -> spaced ws m ->
  Forall (fun w => In w l) ws -> (length ws mod 8 = 4)%nat ->
  exists log e, NewSeedFromMnemonic m p (Some l) = (log, Ret (Err e)).
Proof. exact NewSeed_count_errors. Qed.
Print Assumptions C46_counts_that_fail.

Theorem C46_valid_short_phrases_refused : forall m p l ws e,
  NoDup l -> (length l <= 2048)%nat -> spaced ws m -> bip39 l ws e -> length ws <> 24%nat ->
  exists log o, NewSeedFromMnemonic m p (Some l) = (log, o) /\
    (length ws = 12%nat /\ o = Ret (Err EHexLength) \/ length ws <> 12%nat /\ o = Panic PIndex).
Proof. exact bip39_short_refused. Qed.
Print Assumptions C46_valid_short_phrases_refused.

Example C46_example : snd (NewSeedFromMnemonic phrase_about [] english) = Ret (Err EHexLength) /\
  snd (NewSeedFromMnemonic (phrase_about ++ str " zoo") [] english) = Panic PIndex.
Proof. split; vm_compute; reflexivity. Qed.

(** ** C47 *)

Theorem C47_short_generated_phrases_refused : forall k l rd s p,
  (4 <= k <= 8)%nat -> k <> 8%nat -> NoDup l -> length l = 2048%nat -> Forall (fun w => ~ In x20 w) l ->
  NewMnemonic (Z.of_nat (3 * k)) (Some l) rd = Ret (Ok s) ->
  exists log, NewSeedFromMnemonic s p (Some l) =
    (log, if (k =? 4)%nat then Ret (Err EHexLength) else Panic PIndex).
Proof. exact generated_refused. Qed.
Print Assumptions C47_short_generated_phrases_refused.

Theorem C47_generated_24_words_accepted_iff : forall l rd s p,
  NoDup l -> length l = 2048%nat -> Forall (fun w => ~ In x20 w) l ->
  NewMnemonic 24 (Some l) rd = Ret (Ok s) ->
  exists e chk, e = firstn 32 rd /\
    chk = firstn 8 (drop_zero_bits (bits (sha256 (drop_zero_bytes e)))) /\
    ((exists log r, NewSeedFromMnemonic s p (Some l) = (log, Ret (Ok r))) <->
     exists d c, bits (d ++ [c]) = rev (bits e ++ chk) /\ hd_error (sha256 d) = Some c).
Proof. exact generated_24. Qed.
Print Assumptions C47_generated_24_words_accepted_iff.

Example C47_example : snd (NewSeedFromMnemonic (made 12 ent16) [] english) = Ret (Err EHexLength) /\
  snd (NewSeedFromMnemonic (made 15 (repeat x81 20)) [] english) = Panic PIndex.
Proof. split; vm_compute; reflexivity. Qed.
(** Some generated phrases of 24 words are accepted, by chance. *)
Example C47_example_accepted : (exists s, NewMnemonic 24 english (repeat x73 32) = Ret (Ok s)) /\
  snd (NewSeedFromMnemonic (made 24 (repeat x73 32)) [] english) = Ret (Ok None).
Proof. split; [eexists|]; vm_compute; reflexivity. Qed.

(** ** C48 *)

Theorem C48_log_contains_the_secret : forall m p l log r ws,
  NoDup l -> (length l <= 2048)%nat -> spaced ws m ->
  NewSeedFromMnemonic m p (Some l) = (log, Ret (Ok r)) ->
  exists d c pre h hx, phrase_bits l ws (bits (d ++ [c])) /\
    log = pre ++ [h; hx ++ x20 :: skipn (2 * length d) hx] /\
    hex_text hx (d ++ [c]) /\
    concat pre = map (fun b : bool => if b then x31 else x30) (bits (d ++ [c])).
Proof. exact seed_log. Qed.
Print Assumptions C48_log_contains_the_secret.

(** Refused and crashing calls leak the bits as well. *)
Theorem C48_log_contains_the_bits_in_any_case : forall m p l ws B,
  NoDup l -> (length l <= 2048)%nat -> spaced ws m -> phrase_bits l ws B ->
  exists pre post, fst (NewSeedFromMnemonic m p (Some l)) = pre ++ post /\
    concat pre = map (fun b : bool => if b then x31 else x30) (firstn (4 * (length B / 4)) B).
Proof. exact seed_log_always. Qed.
Print Assumptions C48_log_contains_the_bits_in_any_case.

Example C48_example : length (fst (NewSeedFromMnemonic phrase_art [] english)) = 68%nat.
Proof. vm_compute. reflexivity. Qed.

(** ** C49 *)

Theorem C49_builtin_lists_are_proper : Forall proper_list builtin_lists.
Proof. exact builtin_proper. Qed.
Print Assumptions C49_builtin_lists_are_proper.

Theorem C49_indices_are_recoverable : forall l i j w,
  proper_list l -> nth_error l i = Some w -> nth_error l j = Some w -> i = j.
Proof. exact proper_index_unique. Qed.
Print Assumptions C49_indices_are_recoverable.

Theorem C49_phrases_split_unambiguously : forall l ws, proper_list l ->
  Forall (fun w => In w l) ws -> ws <> [] ->
  exists s, spaced ws s /\ forall ws', spaced ws' s -> ws' = ws.
Proof. exact proper_phrase. Qed.
Print Assumptions C49_phrases_split_unambiguously.

Theorem C49_english_first_four_letters : forall a b,
  In a EnglishWordlist -> In b EnglishWordlist -> firstn 4 a = firstn 4 b -> a = b.
Proof. exact english_prefix4. Qed.
Print Assumptions C49_english_first_four_letters.

Example C49_example : length builtin_lists = 9%nat /\ nth_error EnglishWordlist 2047 = Some (str "zoo") /\
  nth_error KoreanWordlist 0 = Some (str "가격").
Proof. split; [|split]; vm_compute; reflexivity. Qed.
