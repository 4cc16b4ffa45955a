(** * Properties of sequences of calls and of unusual inputs (C15, C16, C60-C67)

    Theorems only; each is closed by an existing lemma. Specifications:
    [Spec.v], [SpecMore.v], [CurveSpec.v], [EcdsaContract.v]. Model: [Model.v].
    The examples with points run on [FastLib.fast_lib], which meets the contract. *)

From Coq Require Import Permutation.
From Verif Require Import GoBase GoNum Sha256 Ripemd160 Base58 GoRand Model SpecApi Spec SpecMore CurveSpec EcdsaContract.
From Verif Require Import SpecFacts EcFacts FastLib PrivProps CombFacts Uniform Workflow CallFacts Witness MnemWitness WordsEnglish WordsJapanese WordFacts.
Local Open Scope Z_scope.

Definition pub_of (k : private_key) : public_key :=
  match GetPublicKey fast_lib k with Ret (Some p) => p | _ => PublicKey None None None end.

(** ** C15 *)

(** Among all random streams of a given length, every reachable key is given by
    the same number of streams. *)
Theorem C15_no_key_is_favoured : forall n bs L S v w c d,
  hex_text (PrivKeyPrefix n) bs -> all_streams L S ->
  2 ^ 252 <= v <= secp_N - 2 -> 2 ^ 252 <= w <= secp_N - 2 ->
  holds_for (fun rd => exists k rest, GeneratePrivateKey (Some n) rd = Ret (k, rest) /\ Key k = Some v) S c ->
  holds_for (fun rd => exists k rest, GeneratePrivateKey (Some n) rd = Ret (k, rest) /\ Key k = Some w) S d ->
  c = d.
Proof. exact no_key_favoured. Qed.
Print Assumptions C15_no_key_is_favoured.

Example C15_example_counts : forall L v, exists S c, all_streams L S /\
  holds_for (fun rd => exists k rest, GeneratePrivateKey (Some MainNetwork) rd = Ret (k, rest) /\ Key k = Some v) S c.
Proof.
  intros L v. destruct (count_exists MainNetwork L (streams L) v (streams_all L)) as [c H].
  exists (streams L), c. split; [apply streams_all|exact H].
Qed.

(** ** C16 *)

Theorem C16_every_outcome : forall net rd,
  ((exists v rest, first_block 32 (fun z => 2 ^ 252 <= z <= secp_N - 2) rd v rest) ->
   match net with
   | None => GeneratePrivateKey net rd = Panic PNil
   | Some n => ((exists bs, hex_text (PrivKeyPrefix n) bs) -> exists k rest, GeneratePrivateKey net rd = Ret (k, rest)) /\
               ((~ exists bs, hex_text (PrivKeyPrefix n) bs) -> GeneratePrivateKey net rd = Panic PRand)
   end) /\
  ((~ exists v rest, first_block 32 (fun z => 2 ^ 252 <= z <= secp_N - 2) rd v rest) ->
   GeneratePrivateKey net rd = Panic PRand).
Proof. exact generate_outcomes. Qed.
Print Assumptions C16_every_outcome.

Example C16_example_nil_network : GeneratePrivateKey None stream1 = Panic PNil.
Proof. vm_compute. reflexivity. Qed.

(** ** C60 *)

(** A generated key comes back, field by field, from its WIF and from its hex. *)
Theorem C60_generated_key_is_restored : forall n v rd k rest, hex_text (PrivKeyPrefix n) [v] ->
  GeneratePrivateKey (Some n) rd = Ret (k, rest) ->
  PrivateFromWIF (WIF k) (Some n) = Ret (Ok k) /\ PrivateFromHex (Hex k) (Some n) = Ret (Ok k).
Proof. exact restore_generated. Qed.
Print Assumptions C60_generated_key_is_restored.

Theorem C60_sum_is_restored : forall a b c n v, hex_text (PrivKeyPrefix n) [v] -> KNetwork a = Some n ->
  AddPrivateKeys a b = Ret (Ok c) ->
  PrivateFromWIF (WIF c) (Some n) = Ret (Ok c) /\ PrivateFromHex (Hex c) (Some n) = Ret (Ok c).
Proof. exact (restore_combined Z.add). Qed.
Print Assumptions C60_sum_is_restored.

Theorem C60_product_is_restored : forall a b c n v, hex_text (PrivKeyPrefix n) [v] -> KNetwork a = Some n ->
  MultiplyPrivateKeys a b = Ret (Ok c) ->
  PrivateFromWIF (WIF c) (Some n) = Ret (Ok c) /\ PrivateFromHex (Hex c) (Some n) = Ret (Ok c).
Proof. exact (restore_combined Z.mul). Qed.
Print Assumptions C60_product_is_restored.

(** From random bytes to an address: every step succeeds, and the key restored
    from the WIF leads to the same public key. *)
Theorem C60_generate_to_address : forall E, ecdsa_contract E -> forall n v w rd k rest c,
  hex_text (PrivKeyPrefix n) [v] -> hex_text (PubKeyHashPrefix n) w ->
  GeneratePrivateKey (Some n) rd = Ret (k, rest) ->
  exists A s a, GetPublicKey E k = Ret (Some A) /\ curve_key A /\ Format A c = Ret s /\
    PublicFromHex E s (Some n) = Ret (Ok A) /\ Address A c = Ret (Ok a) /\
    exists k', PrivateFromWIF (WIF k) (Some n) = Ret (Ok k') /\ GetPublicKey E k' = Ret (Some A).
Proof. exact generate_to_address. Qed.
Print Assumptions C60_generate_to_address.

Example C60_example : hex_text (PrivKeyPrefix MainNetwork) [x80] /\ hex_text (PubKeyHashPrefix MainNetwork) [x00] /\
  exists k rest, GeneratePrivateKey (Some MainNetwork) stream1 = Ret (k, rest) /\ Key k = Some good_value.
Proof.
  split; [apply hex_text_decode; reflexivity|]. split; [apply hex_text_decode; reflexivity|].
  do 2 eexists. split; vm_compute; reflexivity.
Qed.
Example C60_example_sum : exists c, AddPrivateKeys (key_main (str "10")) (key_main (str "20")) = Ret (Ok c) /\
  KNetwork (key_main (str "10")) = Some MainNetwork.
Proof. eexists. split; vm_compute; reflexivity. Qed.

(** ** C61 *)

(** Adding keys one after the other gives the sum of all of them modulo N. *)
Theorem C61_many_keys_add_up : forall l a r, l <> [] -> add_up AddPrivateKeys a l = Ret (Ok r) ->
  exists xs, Forall2 (fun k x => Key k = Some x) (a :: l) xs /\ Forall (fun k => KNetwork k = KNetwork a) l /\
    Key r = Some (total xs mod secp_N) /\ KNetwork r = KNetwork a /\
    shortest_hex (Hex r) (total xs mod secp_N) /\ PrivateFromHex (Hex r) (KNetwork a) = Ret (Ok r).
Proof. exact add_up_private. Qed.
Print Assumptions C61_many_keys_add_up.

(** The order does not matter, between two orders that both succeed. *)
Theorem C61_private_order_irrelevant : forall a l b m r s, Permutation (a :: l) (b :: m) -> l <> [] ->
  add_up AddPrivateKeys a l = Ret (Ok r) -> add_up AddPrivateKeys b m = Ret (Ok s) -> r = s.
Proof. exact add_up_private_order. Qed.
Print Assumptions C61_private_order_irrelevant.

(** ... but one order can fail where another succeeds. *)
Theorem C61_every_order_succeeds_refuted : exists a b c r e,
  add_up AddPrivateKeys a [b; c] = Ret (Ok r) /\ add_up AddPrivateKeys a [c; b] = Ret (Err e).
Proof.
  exists (key_main (str "10")), (key_main (str "1000")), (key_main (str "f0")).
  exists (get no_key (add_up AddPrivateKeys (key_main (str "10")) [key_main (str "1000"); key_main (str "f0")])).
  exists EHexLength. split; vm_compute; reflexivity.
Qed.
Print Assumptions C61_every_order_succeeds_refuted.

(** The public keys add up to the public key of the sum. *)
Theorem C61_public_keys_add_up_alike : forall E, ecdsa_contract E -> forall c l a r n bs A L,
  KNetwork a = Some n -> hex_text (PrivKeyPrefix n) bs ->
  add_up AddPrivateKeys a l = Ret (Ok r) ->
  Forall2 (fun k P => exists x, Key k = Some x /\ 0 <= x /\ GetPublicKey E k = Ret (Some P)) (a :: l) (A :: L) ->
  exists R, add_up (fun p q => AddPublicKeys E p q c) A L = Ret (Ok R) /\ GetPublicKey E r = Ret (Some R).
Proof. exact add_up_agree. Qed.
Print Assumptions C61_public_keys_add_up_alike.

Theorem C61_public_order_irrelevant : forall E, ecdsa_contract E -> forall c d a l b m r s,
  Permutation (a :: l) (b :: m) -> curve_key a -> Forall curve_key l ->
  add_up (fun p q => AddPublicKeys E p q c) a l = Ret (Ok r) ->
  add_up (fun p q => AddPublicKeys E p q d) b m = Ret (Ok s) -> r = s.
Proof. exact add_up_public_order. Qed.
Print Assumptions C61_public_order_irrelevant.

Example C61_example : exists r,
  add_up AddPrivateKeys (key_main (str "10")) [key_main (str "20"); key_main (str "40")] = Ret (Ok r) /\
  add_up AddPrivateKeys (key_main (str "40")) [key_main (str "10"); key_main (str "20")] = Ret (Ok r) /\
  Key r = Some 112.
Proof.
  exists (get no_key (AddPrivateKeys (key_main (str "30")) (key_main (str "40")))).
  split; [vm_compute; reflexivity|]. split; vm_compute; reflexivity.
Qed.
Example C61_example_public : exists R,
  add_up (fun p q => AddPublicKeys fast_lib p q true)
    (pub_of (key_main (str "01"))) [pub_of (key_main (str "02")); pub_of (key_main (str "04"))] = Ret (Ok R) /\
  GetPublicKey fast_lib (key_main (str "07")) = Ret (Some R).
Proof. exists (pub_of (key_main (str "07"))). split; vm_compute; reflexivity. Qed.

(** ** C62 *)

(** An address passes CheckWIF and is imported as a key: its hash becomes the
    private number. *)
Theorem C62_address_imported_as_key : forall p c a n v net, PNetwork p = Some n ->
  hex_text (PubKeyHashPrefix n) [v] -> Address p c = Ret (Ok a) ->
  CheckWIF a = Ret true /\
  exists s bs k, Format p c = Ret s /\ hex_text s bs /\ PrivateFromWIF a net = Ret (Ok k) /\
    Key k = Some (bytes_number (hash160 bs)) /\ hex_text (Hex k) (hash160 bs) /\ KNetwork k = net.
Proof. exact address_is_a_wif. Qed.
Print Assumptions C62_address_imported_as_key.

Example C62_example : exists a k,
  Address (PublicKey (Some secp_Gx) (Some secp_Gy) (Some MainNetwork)) true = Ret (Ok a) /\
  a = str "1BgGZ9tcN4rm9KBzDn7KprQz87SZ26SAMH" /\
  PrivateFromWIF a (Some MainNetwork) = Ret (Ok k) /\ Hex k = str "751e76e8199196d454941c45d1b3a323f1433bd6".
Proof.
  exists (str "1BgGZ9tcN4rm9KBzDn7KprQz87SZ26SAMH"). eexists.
  split; [vm_compute; reflexivity|]. split; [reflexivity|]. split; vm_compute; reflexivity.
Qed.

(** ** C63 *)

Theorem C63_add_private_panics : forall a b, (exists e, AddPrivateKeys a b = Panic e) <->
  KNetwork a = KNetwork b /\ ~ equal_up_to_case (WIF a) (WIF b) /\
  (Key a = None \/ Key b = None \/ KNetwork a = None).
Proof. exact (combine_panic_iff Z.add). Qed.
Print Assumptions C63_add_private_panics.

Theorem C63_multiply_private_panics : forall a b, (exists e, MultiplyPrivateKeys a b = Panic e) <->
  KNetwork a = KNetwork b /\ ~ equal_up_to_case (WIF a) (WIF b) /\
  (Key a = None \/ Key b = None \/ KNetwork a = None).
Proof. exact (combine_panic_iff Z.mul). Qed.
Print Assumptions C63_multiply_private_panics.

Theorem C63_get_public_key_panics : forall E k, (exists e, GetPublicKey E k = Panic e) <-> Key k = None.
Proof. exact GetPublicKey_panic_iff. Qed.
Print Assumptions C63_get_public_key_panics.

Theorem C63_format_panics : forall p c, (exists e, Format p c = Panic e) <-> c = true /\ PY p = None.
Proof. exact Format_panic_iff. Qed.
Print Assumptions C63_format_panics.

Theorem C63_add_public_panics : forall E p q c, (exists e, AddPublicKeys E p q c = Panic e) <->
  PNetwork p = PNetwork q /\ (PX p = None \/ PY p = None \/ PX q = None \/ PY q = None).
Proof. exact AddPublicKeys_panic_iff. Qed.
Print Assumptions C63_add_public_panics.

(** A key the package returned has no number exactly when its hex is empty. *)
Theorem C63_returned_key_without_number : forall k, produced k -> (Key k = None <-> Hex k = []).
Proof. exact produced_nil_iff. Qed.
Print Assumptions C63_returned_key_without_number.

(** "Every key that was imported without error can be published" is false. *)
Theorem C63_imported_keys_can_be_published_refuted : exists k, PrivateFromHex [] (Some MainNetwork) = Ret (Ok k) /\
  WIF k <> [] /\ forall E, exists e, GetPublicKey E k = Panic e.
Proof.
  exists (key_main []). split; [vm_compute; reflexivity|]. split; [vm_compute; discriminate|].
  intros E. apply GetPublicKey_panic_iff. vm_compute. reflexivity.
Qed.
Print Assumptions C63_imported_keys_can_be_published_refuted.

Example C63_example : AddPrivateKeys (key_main []) (key_main hex1) = Panic PNil /\
  produced (key_main hex1) /\ produced (key_main []).
Proof.
  split; [vm_compute; reflexivity|].
  split; [apply (produced_hex hex1 (Some MainNetwork))|apply (produced_hex [] (Some MainNetwork))]; vm_compute; reflexivity.
Qed.

(** ** C64 *)

(** The list is any list without an empty word. *)
Theorem C64_stray_spaces_refused : forall m p l, ~ In [] l -> stray_space m ->
  NewSeedFromMnemonic m p (Some l) = ([], Ret (Err EInvalidMnemonic)).
Proof. exact stray_space_refused. Qed.
Print Assumptions C64_stray_spaces_refused.

Theorem C64_ideographic_space_refused : forall a b p,
  NewSeedFromMnemonic (a ++ ideographic_space ++ b) p (Some JapaneseWordlist) = ([], Ret (Err EInvalidMnemonic)).
Proof. exact ideographic_refused. Qed.
Print Assumptions C64_ideographic_space_refused.

Example C64_example_list : ~ In [] EnglishWordlist.
Proof. apply proper_no_empty, english_proper. Qed.
(** A phrase that is accepted, and the same phrase with a space at its end. *)
Example C64_example : snd (NewSeedFromMnemonic phrase_art [] english) = Ret (Ok None) /\
  snd (NewSeedFromMnemonic (phrase_art ++ [x20]) [] english) = Ret (Err EInvalidMnemonic).
Proof. split; vm_compute; reflexivity. Qed.

(** ** C65 *)

Theorem C65_only_2048_words_matter : forall n l rd,
  NewMnemonic n (Some (firstn 2048 l)) rd = NewMnemonic n (Some l) rd.
Proof. exact NewMnemonic_firstn. Qed.
Print Assumptions C65_only_2048_words_matter.

Example C65_example : exists s, NewMnemonic 12 (Some (EnglishWordlist ++ [str "extra"])) (repeat x42 16) = Ret (Ok s) /\
  NewMnemonic 12 english (repeat x42 16) = Ret (Ok s).
Proof. eexists. split; vm_compute; reflexivity. Qed.

(** ** C66 *)

Theorem C66_compressed_import_export : forall E, ecdsa_contract E -> forall s net bs p, length s = 66%nat ->
  substring s 0 2 = str "02" \/ substring s 0 2 = str "03" -> hex_text s bs ->
  (forall x, hex_number (substring s 2 66) x -> x < p256k1) ->
  PublicFromHex E s net = Ret (Ok p) ->
  PNetwork p = net /\ curve_key p /\ exists s', Format p true = Ret s' /\ lower_case_hex s' /\ equal_up_to_case s' s.
Proof. exact compressed_import_export. Qed.
Print Assumptions C66_compressed_import_export.

Example C66_example : exists p,
  PublicFromHex fast_lib (str "0279BE667EF9DCBBAC55A06295CE870B07029BFCDB2DCE28D959F2815B16F81798") (Some MainNetwork) = Ret (Ok p) /\
  Format p true = Ret (str "0279be667ef9dcbbac55a06295ce870b07029bfcdb2dce28d959f2815b16f81798").
Proof. exists (PublicKey (Some secp_Gx) (Some secp_Gy) (Some MainNetwork)). split; vm_compute; reflexivity. Qed.

(** ** C67 *)

(** k and N - k have the same X; their Y are opposite and of different parity. *)
Theorem C67_opposite_keys : forall E, ecdsa_contract E -> forall a b x y,
  Key a = Some x -> Key b = Some y -> 1 <= x < n256k1 -> y = n256k1 - x ->
  exists px py, GetPublicKey E a = Ret (Some (PublicKey (Some px) (Some py) (KNetwork a))) /\
    GetPublicKey E b = Ret (Some (PublicKey (Some px) (Some (p256k1 - py)) (KNetwork b))) /\
    Z.even py = negb (Z.even (p256k1 - py)).
Proof. exact opposite_points. Qed.
Print Assumptions C67_opposite_keys.

Theorem C67_compressed_texts_differ_in_the_prefix : forall E, ecdsa_contract E -> forall a b x y A B,
  Key a = Some x -> Key b = Some y -> 1 <= x < n256k1 -> y = n256k1 - x ->
  GetPublicKey E a = Ret (Some A) -> GetPublicKey E b = Ret (Some B) ->
  exists t, length t = 64%nat /\
    (Format A true = Ret (str "02" ++ t) /\ Format B true = Ret (str "03" ++ t) \/
     Format A true = Ret (str "03" ++ t) /\ Format B true = Ret (str "02" ++ t)).
Proof. exact opposite_texts. Qed.
Print Assumptions C67_compressed_texts_differ_in_the_prefix.

Example C67_example : Key (key_main (str "fffffffffffffffffffffffffffffffebaaedce6af48a03bbfd25e8cd0364140")) = Some (n256k1 - 1) /\
  Key (key_main (str "01")) = Some 1.
Proof. split; vm_compute; reflexivity. Qed.
