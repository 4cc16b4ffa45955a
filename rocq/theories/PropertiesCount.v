(** * Properties about counts of streams and phrases, unusual lists and nil keys
      (C63, C68-C73)

    Theorems only; each is closed by an existing lemma. Specifications: [Spec.v],
    [SpecMore.v]. Models: [Model.v], [ModelPtr.v]. *)

From Verif Require Import GoBase GoNum Sha256 Ripemd160 Base58 GoRand Model ModelPtr Spec SpecMore.
From Verif Require Import SpecFacts GenFacts CombFacts Uniform Counting AnyList PtrFacts Witness MnemWitness WordFacts WordsEnglish.
Local Open Scope Z_scope.

(** ** C63: nil keys *)

Theorem C63_add_private_panics_nil : forall a b, (exists e, AddPrivateKeys_ptr a b = Panic e) <->
  a = None \/ b = None \/ exists x y, a = Some x /\ b = Some y /\
    KNetwork x = KNetwork y /\ ~ equal_up_to_case (WIF x) (WIF y) /\
    (Key x = None \/ Key y = None \/ KNetwork x = None).
Proof. exact (combine_ptr_panic Z.add). Qed.
Print Assumptions C63_add_private_panics_nil.

Theorem C63_multiply_private_panics_nil : forall a b, (exists e, MultiplyPrivateKeys_ptr a b = Panic e) <->
  a = None \/ b = None \/ exists x y, a = Some x /\ b = Some y /\
    KNetwork x = KNetwork y /\ ~ equal_up_to_case (WIF x) (WIF y) /\
    (Key x = None \/ Key y = None \/ KNetwork x = None).
Proof. exact (combine_ptr_panic Z.mul). Qed.
Print Assumptions C63_multiply_private_panics_nil.

Theorem C63_get_public_key_panics_nil : forall E p, (exists e, GetPublicKey_ptr E p = Panic e) <->
  p = None \/ exists k, p = Some k /\ Key k = None.
Proof. exact get_public_ptr_panic. Qed.
Print Assumptions C63_get_public_key_panics_nil.

Theorem C63_format_panics_nil : forall p c, (exists e, Format_ptr p c = Panic e) <->
  p = None \/ exists k, p = Some k /\ c = true /\ PY k = None.
Proof. exact format_ptr_panic. Qed.
Print Assumptions C63_format_panics_nil.

Theorem C63_address_panics_nil : forall p c, (exists e, Address_ptr p c = Panic e) <->
  p = None \/ exists k, p = Some k /\
    (c = true /\ PY k = None \/ PNetwork k = None /\ exists s bs, Format k c = Ret s /\ hex_text s bs).
Proof. exact address_ptr_panic. Qed.
Print Assumptions C63_address_panics_nil.

Theorem C63_add_public_panics_nil : forall E a b c, (exists e, AddPublicKeys_ptr E a b c = Panic e) <->
  a = None \/ b = None \/ exists p q, a = Some p /\ b = Some q /\
    PNetwork p = PNetwork q /\ (PX p = None \/ PY p = None \/ PX q = None \/ PY q = None).
Proof. exact add_public_ptr_panic. Qed.
Print Assumptions C63_add_public_panics_nil.

Example C63_example_nil : AddPrivateKeys_ptr (Some (key_main hex1)) None = Panic PNil /\
  exists k, AddPrivateKeys_ptr (Some (key_main (str "10"))) (Some (key_main (str "20"))) = Ret (Ok k).
Proof. split; [reflexivity|]. eexists. vm_compute. reflexivity. Qed.

(** ** C68 *)

(** Of all random streams of 32m + r bytes, exactly this many make key generation
    fail; the others give a key. *)
Theorem C68_failing_streams : forall n bs m r S c, hex_text (PrivKeyPrefix n) bs -> (r < 32)%nat ->
  all_streams (32 * m + r) S ->
  holds_for (fun rd => exists e, GeneratePrivateKey (Some n) rd = Panic e) S c ->
  Z.of_nat c = (2 ^ 256 - (secp_N - 1 - 2 ^ 252)) ^ Z.of_nat m * 256 ^ Z.of_nat r.
Proof. exact generate_failure_count. Qed.
Print Assumptions C68_failing_streams.

(** Each 32 bytes more divide the share of failing streams by at least 15. *)
Theorem C68_failures_vanish : forall n bs m r S c, hex_text (PrivKeyPrefix n) bs -> (r < 32)%nat ->
  all_streams (32 * m + r) S ->
  holds_for (fun rd => exists e, GeneratePrivateKey (Some n) rd = Panic e) S c ->
  15 ^ Z.of_nat m * Z.of_nat c <= Z.of_nat (length S).
Proof. exact generate_failures_vanish. Qed.
Print Assumptions C68_failures_vanish.

(** And exactly this many give the key [v]. *)
Theorem C68_streams_per_key : forall n bs v m r S c, hex_text (PrivKeyPrefix n) bs -> (r < 32)%nat ->
  2 ^ 252 <= v <= secp_N - 2 -> all_streams (32 * m + r) S ->
  holds_for (fun rd => exists k rest, GeneratePrivateKey (Some n) rd = Ret (k, rest) /\ Key k = Some v) S c ->
  (secp_N - 1 - 2 ^ 252) * Z.of_nat c =
  ((2 ^ 256) ^ Z.of_nat m - (2 ^ 256 - (secp_N - 1 - 2 ^ 252)) ^ Z.of_nat m) * 256 ^ Z.of_nat r.
Proof. exact generate_hit_count. Qed.
Print Assumptions C68_streams_per_key.

Example C68_example : hex_text (PrivKeyPrefix MainNetwork) [x80] /\
  forall m r, exists S c, all_streams (32 * m + r) S /\
    holds_for (fun rd => exists e, GeneratePrivateKey (Some MainNetwork) rd = Panic e) S c.
Proof.
  split; [apply hex_text_decode; reflexivity|]. intros m r. exists (streams (32 * m + r)).
  destruct (holds_for_exists (fun rd => exists e, GeneratePrivateKey (Some MainNetwork) rd = Panic e) (streams (32 * m + r))) as [c H].
  - apply streams_all.
  - intros rd. destruct (GeneratePrivateKey (Some MainNetwork) rd) as [[k rest]|e]; [right|left; eauto].
    intros [e E]. discriminate.
  - exists c. split; [apply streams_all|exact H].
Qed.
Example C68_example_both : (exists e, GeneratePrivateKey (Some MainNetwork) (repeat xff 40) = Panic e) /\
  exists k rest, GeneratePrivateKey (Some MainNetwork) stream1 = Ret (k, rest).
Proof. split; [exists PRand; vm_compute; reflexivity|]. do 2 eexists. vm_compute. reflexivity. Qed.

(** ** C69 *)

(** Every phrase NewMnemonic can return is returned for the same number of streams. *)
Theorem C69_no_phrase_is_favoured : forall k l L S s c, (4 <= k <= 8)%nat ->
  NoDup (firstn 2048 l) -> Forall (fun w => ~ In x20 w) (firstn 2048 l) ->
  all_streams (4 * k + L) S ->
  holds_for (fun rd => NewMnemonic (Z.of_nat (3 * k)) (Some l) rd = Ret (Ok s)) S c ->
  c = 0%nat \/ Z.of_nat c = 256 ^ Z.of_nat L.
Proof. exact mnemonic_count. Qed.
Print Assumptions C69_no_phrase_is_favoured.

(** "Different random bytes give different phrases" is false for lists with repeated words. *)
Theorem C69_repeated_words_lose_entropy_refuted : exists l s e1 e2, length l = 2048%nat /\
  Forall (fun w => ~ In x20 w) l /\ length e1 = 16%nat /\ length e2 = 16%nat /\ e1 <> e2 /\
  NewMnemonic 12 (Some l) e1 = Ret (Ok s) /\ NewMnemonic 12 (Some l) e2 = Ret (Ok s).
Proof. exact repeated_words. Qed.
Print Assumptions C69_repeated_words_lose_entropy_refuted.

Example C69_example : proper_list EnglishWordlist /\
  exists s, NewMnemonic 12 (Some EnglishWordlist) ent16 = Ret (Ok s).
Proof.
  split; [exact english_proper|].
  eexists. vm_compute. reflexivity.
Qed.

(** ** C70 *)

(** Keys drawn one after the other from one stream: no sequence is favoured. *)
Theorem C70_no_sequence_of_keys_is_favoured : forall n bs L S vs ws c d,
  hex_text (PrivKeyPrefix n) bs -> all_streams L S -> length vs = length ws ->
  Forall (fun v => 2 ^ 252 <= v <= secp_N - 2) vs -> Forall (fun v => 2 ^ 252 <= v <= secp_N - 2) ws ->
  holds_for (fun rd => exists ks rest,
    draw (GeneratePrivateKey (Some n)) (length vs) rd = Ret (ks, rest) /\ map Key ks = map Some vs) S c ->
  holds_for (fun rd => exists ks rest,
    draw (GeneratePrivateKey (Some n)) (length ws) rd = Ret (ks, rest) /\ map Key ks = map Some ws) S d ->
  c = d.
Proof. exact sequences_not_favoured. Qed.
Print Assumptions C70_no_sequence_of_keys_is_favoured.

Example C70_example : exists ks rest,
  draw (GeneratePrivateKey (Some MainNetwork)) 2 (firstn 96 stream1 ++ repeat x77 40) = Ret (ks, rest) /\
  map Key ks = map Some [good_value; bytes_number (repeat x77 32)] /\ length rest = 8%nat.
Proof. do 2 eexists. split; [vm_compute; reflexivity|]. split; vm_compute; reflexivity. Qed.

(** ** C71 *)

(** One in 256 of the phrases of 8k words is accepted. *)
Theorem C71_one_phrase_in_256_is_accepted : forall k l p S c, (0 < k)%nat -> proper_list l ->
  all_phrases l (8 * k) S ->
  holds_for (fun ws => exists m, spaced ws m /\
    exists log r, NewSeedFromMnemonic m p (Some l) = (log, Ret (Ok r))) S c ->
  256 * Z.of_nat c = 2048 ^ Z.of_nat (8 * k).
Proof. exact accepted_count. Qed.
Print Assumptions C71_one_phrase_in_256_is_accepted.

Example C71_example : exists ws, length ws = 24%nat /\ Forall (fun w => In w EnglishWordlist) ws /\ spaced ws phrase_art /\
  snd (NewSeedFromMnemonic phrase_art [] (Some EnglishWordlist)) = Ret (Ok None).
Proof. exact art_accepted. Qed.
Example C71_example_lists : forall l n, exists S, all_phrases l n S.
Proof. exact all_phrases_exist. Qed.

(** ** C72 *)

(** With any list: words count by their first position, positions from 2048 on
    carry more than 11 bits. *)
Theorem C72_accepted_with_any_list : forall m p l,
  (exists log r, NewSeedFromMnemonic m p (Some l) = (log, Ret (Ok r))) <->
  exists ws Bs d c, spaced ws m /\ Forall2 (word_bits l) ws Bs /\ concat Bs = bits (d ++ [c]) /\
    hd_error (sha256 d) = Some c.
Proof. exact NewSeed_accepts_any. Qed.
Print Assumptions C72_accepted_with_any_list.

Theorem C72_every_outcome : forall m p l ws, spaced ws m ->
  (exists w, In w ws /\ ~ In w l) /\ NewSeedFromMnemonic m p (Some l) = ([], Ret (Err EInvalidMnemonic)) \/
  exists Bs, Forall2 (word_bits l) ws Bs /\
    ((length (concat Bs) mod 4 <> 0)%nat /\ snd (NewSeedFromMnemonic m p (Some l)) = Panic PIndex \/
     (length (concat Bs) mod 8 = 4)%nat /\ snd (NewSeedFromMnemonic m p (Some l)) = Ret (Err EHexLength) \/
     exists d c, concat Bs = bits (d ++ [c]) /\
       (hd_error (sha256 d) = Some c /\ snd (NewSeedFromMnemonic m p (Some l)) = Ret (Ok None) \/
        hd_error (sha256 d) <> Some c /\ snd (NewSeedFromMnemonic m p (Some l)) = Ret (Err EInvalidChecksum))).
Proof. exact (fun m p l => NewSeed_any m p (Some l)). Qed.
Print Assumptions C72_every_outcome.

Theorem C72_bits_of_a_word_are_unique : forall l w B B', word_bits l w B -> word_bits l w B' -> B = B'.
Proof. exact word_bits_fun. Qed.
Print Assumptions C72_bits_of_a_word_are_unique.

Example C72_example : word_bits [str "a"; str "b"; str "a"; str "b"] (str "b")
  [false; false; false; false; false; false; false; false; false; false; true] /\
  exists log, NewSeedFromMnemonic (str "b b b b b b b b") [] (Some [str "a"; str "b"; str "a"; str "b"]) =
    (log, Ret (Err EInvalidChecksum)).
Proof.
  split.
  - exists 1%nat. split; [reflexivity|]. split; [intros [|j] Hj; [discriminate|lia]|]. split; [reflexivity|left; reflexivity].
  - eexists. vm_compute. reflexivity.
Qed.

(** ** C73 *)

(** The WIF of a generated, imported (from hex) or combined key is never an address. *)
Theorem C73_wif_is_never_an_address : forall h n k p c a m,
  In n [MainNetwork; TestNetwork] -> In m [MainNetwork; TestNetwork] ->
  PrivateFromHex h (Some n) = Ret (Ok k) -> PNetwork p = Some m -> Address p c = Ret (Ok a) -> WIF k <> a.
Proof. exact wif_not_address_standard. Qed.
Print Assumptions C73_wif_is_never_an_address.

Theorem C73_generated_wif_is_never_an_address : forall rd n k rest p c a m,
  In n [MainNetwork; TestNetwork] -> In m [MainNetwork; TestNetwork] ->
  GeneratePrivateKey (Some n) rd = Ret (k, rest) -> PNetwork p = Some m -> Address p c = Ret (Ok a) -> WIF k <> a.
Proof. exact generated_wif_not_address. Qed.
Print Assumptions C73_generated_wif_is_never_an_address.

Theorem C73_sum_wif_is_never_an_address : forall x y n k p c a m,
  In n [MainNetwork; TestNetwork] -> In m [MainNetwork; TestNetwork] -> KNetwork x = Some n ->
  AddPrivateKeys x y = Ret (Ok k) -> PNetwork p = Some m -> Address p c = Ret (Ok a) -> WIF k <> a.
Proof. exact (combined_wif_not_address Z.add). Qed.
Print Assumptions C73_sum_wif_is_never_an_address.

Theorem C73_product_wif_is_never_an_address : forall x y n k p c a m,
  In n [MainNetwork; TestNetwork] -> In m [MainNetwork; TestNetwork] -> KNetwork x = Some n ->
  MultiplyPrivateKeys x y = Ret (Ok k) -> PNetwork p = Some m -> Address p c = Ret (Ok a) -> WIF k <> a.
Proof. exact (combined_wif_not_address Z.mul). Qed.
Print Assumptions C73_product_wif_is_never_an_address.

(** On any two networks whose first prefix bytes differ. *)
Theorem C73_any_networks : forall h n k p c a m v vs w ws,
  hex_text (PrivKeyPrefix n) (v :: vs) -> hex_text (PubKeyHashPrefix m) (w :: ws) -> v <> w ->
  PrivateFromHex h (Some n) = Ret (Ok k) -> PNetwork p = Some m -> Address p c = Ret (Ok a) -> WIF k <> a.
Proof. exact wif_not_address. Qed.
Print Assumptions C73_any_networks.

(** A network with the same prefix for both would confuse them. *)
Theorem C73_equal_prefixes_refuted : exists n h k p a, PrivKeyPrefix n = PubKeyHashPrefix n /\
  PrivateFromHex h (Some n) = Ret (Ok k) /\ PNetwork p = Some n /\ Address p true = Ret (Ok a) /\ WIF k = a.
Proof. exact equal_prefixes. Qed.
Print Assumptions C73_equal_prefixes_refuted.

Example C73_example : exists k a,
  PrivateFromHex hex1 (Some MainNetwork) = Ret (Ok k) /\
  Address (PublicKey (Some secp_Gx) (Some secp_Gy) (Some MainNetwork)) true = Ret (Ok a).
Proof. do 2 eexists. split; vm_compute; reflexivity. Qed.
