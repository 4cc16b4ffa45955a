(** * The hashes are the published standards' (C92)

    Theorems only; each is closed by an existing lemma. Specifications: [Spec.v]
    and [SpecHash.v], which says what SHA-256 and RIPEMD-160 are without using
    the executable functions of [Sha256.v] and [Ripemd160.v]. Model: [Model.v]. *)

From Verif Require Import GoBase GoNum Sha256 Ripemd160 Base58 GoRand Model Spec SpecHash.
From Verif Require Import SpecFacts HashFacts RmdFacts HashUse Witness MnemWitness.
Local Open Scope Z_scope.

(** Every text of fewer than 2^64 bits has exactly one hash of each kind, and
    the functions used by the model compute it. *)
Theorem C92_sha256_is_the_standard : forall m d, hashable m -> (is_sha256 m d <-> d = sha256 m).
Proof. exact sha256_exact. Qed.
Print Assumptions C92_sha256_is_the_standard.

Theorem C92_ripemd160_is_the_standard : forall m d, hashable m -> (is_ripemd160 m d <-> d = ripemd160 m).
Proof. exact ripemd160_exact. Qed.
Print Assumptions C92_ripemd160_is_the_standard.

Example C92_example_sha256 : exists d,
  hex_text (str "ba7816bf8f01cfea414140de5dae2223b00361a396177a9cb410ff61f20015ad") d /\ is_sha256 (str "abc") d.
Proof.
  exists (sha256 (str "abc")). split; [apply hex_text_decode; vm_compute; reflexivity|].
  apply sha256_exact; [vm_compute; reflexivity|reflexivity].
Qed.
Example C92_example_ripemd160 : exists d,
  hex_text (str "8eb208f7e05d987a9b044a8e98c6b087f15a0bfc") d /\ is_ripemd160 (str "abc") d.
Proof.
  exists (ripemd160 (str "abc")). split; [apply hex_text_decode; vm_compute; reflexivity|].
  apply ripemd160_exact; [vm_compute; reflexivity|reflexivity].
Qed.

(** The WIF of an imported key. *)
Theorem C92_wif : forall h n k bs,
  PrivateFromHex h (Some n) = Ret (Ok k) -> hex_text (PrivKeyPrefix n ++ h) bs -> hashable bs ->
  exists c, is_checksum bs c /\ base58_text (bs ++ c) (WIF k).
Proof. exact wif_standard. Qed.
Print Assumptions C92_wif.

Example C92_example_wif : exists k, PrivateFromHex (str "AbCd") (Some MainNetwork) = Ret (Ok k) /\
  hex_text (PrivKeyPrefix MainNetwork ++ str "AbCd") [x80; xab; xcd] /\ hashable [x80; xab; xcd].
Proof.
  eexists. split; [vm_compute; reflexivity|]. split; [apply hex_text_decode; vm_compute; reflexivity|vm_compute; reflexivity].
Qed.

(** CheckWIF and PrivateFromWIF accept the texts with the right checksum. *)
Theorem C92_CheckWIF : forall w, hashable w ->
  (CheckWIF w = Ret true <-> exists p c, is_checksum p c /\ base58_text (p ++ c) w).
Proof. exact check_standard. Qed.
Print Assumptions C92_CheckWIF.

Theorem C92_PrivateFromWIF : forall w net k, hashable w ->
  (PrivateFromWIF w net = Ret (Ok k) <->
   exists v bs c, is_checksum (v :: bs) c /\ base58_text (v :: bs ++ c) w /\ WIF k = w /\ KNetwork k = net /\
     hex_text (Hex k) bs /\ lower_case_hex (Hex k) /\
     Key k = match bs with [] => None | _ => Some (bytes_number bs) end).
Proof. exact import_standard. Qed.
Print Assumptions C92_PrivateFromWIF.

Example C92_example_CheckWIF : hashable wif1 /\ CheckWIF wif1 = Ret true /\
  exists k, PrivateFromWIF wif1 (Some MainNetwork) = Ret (Ok k).
Proof. split; [vm_compute; reflexivity|]. split; [vm_compute; reflexivity|]. eexists. vm_compute. reflexivity. Qed.

(** The address of a point. *)
Theorem C92_address : forall x y n v c, 0 <= x < 2 ^ 256 -> 0 <= y < 2 ^ 256 -> hex_text (PubKeyHashPrefix n) v ->
  8 * (Z.of_nat (length v) + 20) < 2 ^ 64 ->
  exists a bs h k, Address (PublicKey (Some x) (Some y) (Some n)) c = Ret (Ok a) /\ sec1 c x y bs /\
    is_hash160 bs h /\ is_checksum (v ++ h) k /\ base58_text (v ++ h ++ k) a.
Proof. exact address_standard. Qed.
Print Assumptions C92_address.

Example C92_example_address : hex_text (PubKeyHashPrefix MainNetwork) [x00] /\ 8 * (Z.of_nat (length [x00]) + 20) < 2 ^ 64.
Proof. split; [apply hex_text_decode; vm_compute; reflexivity|vm_compute; reflexivity]. Qed.

(** The checksum inside a generated phrase, and the one demanded of a phrase. *)
Theorem C92_NewMnemonic : forall k l rd s ws, (4 <= k <= 8)%nat -> Forall (fun w => ~ In x20 w) (firstn 2048 l) ->
  NewMnemonic (Z.of_nat (3 * k)) (Some l) rd = Ret (Ok s) -> spaced ws s ->
  exists e d, e = firstn (4 * k) rd /\ length e = (4 * k)%nat /\ is_sha256 (drop_zero_bytes e) d /\
    phrase_bits l ws (rev (bits e ++ firstn k (drop_zero_bits (bits d)))).
Proof. exact mnemonic_standard. Qed.
Print Assumptions C92_NewMnemonic.

Theorem C92_NewSeedFromMnemonic : forall m p l ws,
  NoDup l -> (length l <= 2048)%nat -> spaced ws m -> 11 * Z.of_nat (length ws) < 2 ^ 64 ->
  ((exists log r, NewSeedFromMnemonic m p (Some l) = (log, Ret (Ok r))) <->
   exists d c h, phrase_bits l ws (bits (d ++ [c])) /\ is_sha256 d h /\ hd_error h = Some c).
Proof. exact seed_standard. Qed.
Print Assumptions C92_NewSeedFromMnemonic.

Example C92_example_phrases : NewMnemonic 24 english ent32 = Ret (Ok (made 24 ent32)) /\
  spaced (split_space (made 24 ent32)) (made 24 ent32) /\
  length (split_space phrase_art) = 24%nat /\ snd (NewSeedFromMnemonic phrase_art [] english) = Ret (Ok None).
Proof.
  split; [exact made_24|]. split; [apply MnemFacts.spaced_iff; reflexivity|]. split; vm_compute; reflexivity.
Qed.
