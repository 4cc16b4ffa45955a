(** * Collisions, cancelling, complements and doubling (C82-C86)

    Theorems only; each is closed by an existing lemma. Specifications:
    [Spec.v], [CurveSpec.v], [EcdsaContract.v]. Model: [Model.v]. The examples
    with points run on [FastLib.fast_lib], which meets the contract. *)

From Verif Require Import GoBase GoNum Sha256 Ripemd160 Base58 GoRand Model Spec CurveSpec EcdsaContract.
From Verif Require Import SpecFacts CombFacts EcFacts FastLib Algebra Witness.
Local Open Scope Z_scope.

Definition pub_of (k : private_key) : public_key :=
  match GetPublicKey fast_lib k with Ret (Some p) => p | _ => PublicKey None None None end.

(** ** C82 *)

(** Two public keys on one network with the same address are the same point in
    the same format, or their encodings are a collision of SHA-256, or the
    SHA-256 hashes of these are a collision of RIPEMD-160. *)
Theorem C82_address_collision : forall x y x' y' n c d a,
  curve_point (x, y) -> curve_point (x', y') ->
  Address (PublicKey (Some x) (Some y) (Some n)) c = Ret (Ok a) ->
  Address (PublicKey (Some x') (Some y') (Some n)) d = Ret (Ok a) ->
  (c = d /\ x = x' /\ y = y') \/
  exists bs bt, sec1 c x y bs /\ sec1 d x' y' bt /\ bs <> bt /\
    (sha256 bs = sha256 bt \/ (sha256 bs <> sha256 bt /\ ripemd160 (sha256 bs) = ripemd160 (sha256 bt))).
Proof. exact address_collision. Qed.
Print Assumptions C82_address_collision.

(** From private keys. *)
Theorem C82_private_keys : forall E, ecdsa_contract E -> forall a b x y A B c d n t,
  Key a = Some x -> Key b = Some y -> 1 <= x < n256k1 -> 1 <= y < n256k1 ->
  KNetwork a = Some n -> KNetwork b = Some n ->
  GetPublicKey E a = Ret (Some A) -> GetPublicKey E b = Ret (Some B) ->
  Address A c = Ret (Ok t) -> Address B d = Ret (Ok t) ->
  (c = d /\ x = y) \/
  (exists bs bt : list byte, bs <> bt /\ sha256 bs = sha256 bt) \/
  (exists bs bt : list byte, bs <> bt /\ length bs = 32%nat /\ length bt = 32%nat /\ ripemd160 bs = ripemd160 bt).
Proof. exact private_collision. Qed.
Print Assumptions C82_private_keys.

(** The same key imported from two texts has one address per format. *)
Example C82_example :
  let A := pub_of (key_main (str "07")) in let B := pub_of (key_main (str "0007")) in
  Address A true = Address B true /\ Address A true = Ret (Ok (str "19ZewH8Kk1PDbSNdJ97FP4EiCjTRaZMZQA")) /\
  Address A false <> Address A true.
Proof. split; [|split]; vm_compute; (reflexivity || discriminate). Qed.

(** ** C83 *)

Theorem C83_add_cancels : forall a b b' c c' x y y',
  Key a = Some x -> Key b = Some y -> Key b' = Some y' ->
  AddPrivateKeys a b = Ret (Ok c) -> AddPrivateKeys a b' = Ret (Ok c') ->
  (Key c = Key c' <-> y mod n256k1 = y' mod n256k1).
Proof. exact add_cancels. Qed.
Print Assumptions C83_add_cancels.

Theorem C83_mul_cancels : forall a b b' c c' x y y',
  Key a = Some x -> Key b = Some y -> Key b' = Some y' -> ~ (n256k1 | x) ->
  MultiplyPrivateKeys a b = Ret (Ok c) -> MultiplyPrivateKeys a b' = Ret (Ok c') ->
  (Key c = Key c' <-> y mod n256k1 = y' mod n256k1).
Proof. exact mul_cancels. Qed.
Print Assumptions C83_mul_cancels.

(** Whatever the key [a], every number with an even count of hex digits is the
    sum of [a] and one importable key, whose number is unique. The prefix is one
    byte other than 0, as on both standard networks. *)
Theorem C83_add_complement : forall n v a x t s,
  hex_text (PrivKeyPrefix n) [v] -> v <> x00 ->
  KNetwork a = Some n -> Key a = Some x -> 0 <= t < n256k1 ->
  shortest_hex s t -> Nat.even (length s) = true ->
  exists h b c y, PrivateFromHex h (Some n) = Ret (Ok b) /\ Key b = Some y /\ 0 <= y < n256k1 /\
    AddPrivateKeys a b = Ret (Ok c) /\ Key c = Some t /\
    forall b' c' y', Key b' = Some y' -> 0 <= y' < n256k1 ->
      AddPrivateKeys a b' = Ret (Ok c') -> Key c' = Some t -> y' = y.
Proof. exact add_complement. Qed.
Print Assumptions C83_add_complement.

Theorem C83_mul_complement : forall n v a x t s,
  hex_text (PrivKeyPrefix n) [v] -> v <> x00 ->
  KNetwork a = Some n -> Key a = Some x -> 1 <= x < n256k1 -> 0 <= t < n256k1 ->
  shortest_hex s t -> Nat.even (length s) = true ->
  exists h b c y, PrivateFromHex h (Some n) = Ret (Ok b) /\ Key b = Some y /\ 0 <= y < n256k1 /\
    MultiplyPrivateKeys a b = Ret (Ok c) /\ Key c = Some t /\
    forall b' c' y', Key b' = Some y' -> 0 <= y' < n256k1 ->
      MultiplyPrivateKeys a b' = Ret (Ok c') -> Key c' = Some t -> y' = y.
Proof. exact mul_complement. Qed.
Print Assumptions C83_mul_complement.

Example C83_example : hex_text (PrivKeyPrefix MainNetwork) [x80] /\ hex_text (PrivKeyPrefix TestNetwork) [xef] /\
  shortest_hex (str "c0") 0xc0.
Proof.
  split; [exact std_prefix_main|]. split; [exact std_prefix_test|].
  apply shortest_hex_sprintf. split; [lia|reflexivity].
Qed.
(** Half of c0: the key a = 60 itself is refused, so the other text must be used. *)
Example C83_example_half :
  AddPrivateKeys (key_main (str "60")) (key_main (str "60")) = Ret (Err EIdentical) /\
  exists c, AddPrivateKeys (key_main (str "60")) (key_main (str "0060")) = Ret (Ok c) /\ Key c = Some 0xc0.
Proof.
  split; [vm_compute; reflexivity|].
  exists (get no_key (AddPrivateKeys (key_main (str "60")) (key_main (str "0060")))).
  split; vm_compute; reflexivity.
Qed.

(** ** C84 *)

(** On a network whose prefix is bytes in hex, the sum or product that is
    returned is a usable key. *)
Theorem C84_returned_keys_are_usable : forall E, ecdsa_contract E -> forall a b c n bs,
  KNetwork a = Some n -> hex_text (PrivKeyPrefix n) bs ->
  AddPrivateKeys a b = Ret (Ok c) \/ MultiplyPrivateKeys a b = Ret (Ok c) ->
  exists z A, Key c = Some z /\ 1 <= z < n256k1 /\ GetPublicKey E c = Ret (Some A) /\ curve_key A.
Proof. exact combined_usable. Qed.
Print Assumptions C84_returned_keys_are_usable.

(** On any network, the product of usable keys is usable. *)
Theorem C84_products_are_usable : forall a b c x y,
  Key a = Some x -> Key b = Some y -> 1 <= x < n256k1 -> 1 <= y < n256k1 ->
  MultiplyPrivateKeys a b = Ret (Ok c) -> exists z, Key c = Some z /\ 1 <= z < n256k1.
Proof. exact product_usable. Qed.
Print Assumptions C84_products_are_usable.

(** Without the condition on the prefix a sum can be zero. *)
Theorem C84_any_prefix_refuted : exists n a b c,
  KNetwork a = Some n /\ KNetwork b = Some n /\
  Key a = Some 1 /\ Key b = Some (n256k1 - 1) /\
  AddPrivateKeys a b = Ret (Ok c) /\ Key c = Some 0 /\
  forall E, ecdsa_contract E -> GetPublicKey E c = Ret None.
Proof. exact zero_sum. Qed.
Print Assumptions C84_any_prefix_refuted.

Example C84_example : exists c,
  AddPrivateKeys (key_main (str "60")) (key_main (str "61")) = Ret (Ok c) /\ Key c = Some 0xc1.
Proof.
  exists (get no_key (AddPrivateKeys (key_main (str "60")) (key_main (str "61")))).
  split; vm_compute; reflexivity.
Qed.

(** ** C85 *)

Theorem C85_a_key_and_itself : forall a,
  AddPrivateKeys a a = Ret (Err EIdentical) /\ MultiplyPrivateKeys a a = Ret (Err EIdentical).
Proof. exact add_itself. Qed.
Print Assumptions C85_a_key_and_itself.

(** Its public key can be added to itself, and the result is the public key of
    the double. *)
Theorem C85_public_doubling : forall E, ecdsa_contract E -> forall a x A f,
  Key a = Some x -> 0 <= x -> GetPublicKey E a = Ret (Some A) ->
  exists px py, AddPublicKeys E A A f = Ret (Ok (PublicKey (Some px) (Some py) (KNetwork a))) /\
    multiple (Some G256k1) (2 * x) (Some (px, py)).
Proof. exact double_public. Qed.
Print Assumptions C85_public_doubling.

(** The same number imported with two more zeros in front is not refused. *)
Theorem C85_leading_zeros : forall h n v k z,
  hex_text (PrivKeyPrefix n) [v] -> v <> x00 ->
  PrivateFromHex h (Some n) = Ret (Ok k) -> Key k = Some z ->
  exists k', PrivateFromHex (str "00" ++ h) (Some n) = Ret (Ok k') /\ Key k' = Some z /\
    (length (WIF k) < length (WIF k'))%nat /\
    (forall s, shortest_hex s ((z + z) mod n256k1) ->
       (Nat.even (length s) = true -> exists c, AddPrivateKeys k k' = Ret (Ok c) /\ Key c = Some ((z + z) mod n256k1)) /\
       (Nat.even (length s) = false -> AddPrivateKeys k k' = Ret (Err EHexLength))) /\
    (forall s, shortest_hex s ((z * z) mod n256k1) ->
       (Nat.even (length s) = true -> exists c, MultiplyPrivateKeys k k' = Ret (Ok c) /\ Key c = Some ((z * z) mod n256k1)) /\
       (Nat.even (length s) = false -> MultiplyPrivateKeys k k' = Ret (Err EHexLength))).
Proof. exact leading_zeros. Qed.
Print Assumptions C85_leading_zeros.

Example C85_example : exists k, PrivateFromHex hex1 (Some MainNetwork) = Ret (Ok k) /\ WIF k = wif1 /\
  exists c, AddPrivateKeys k (key_main (str "00" ++ hex1)) = Ret (Ok c) /\ length (Hex c) = 64%nat.
Proof.
  exists (key_main hex1). split; [vm_compute; reflexivity|]. split; [vm_compute; reflexivity|].
  exists (get no_key (AddPrivateKeys (key_main hex1) (key_main (str "00" ++ hex1)))).
  split; vm_compute; reflexivity.
Qed.

(** ** C86 *)

Theorem C86_public_keys_cancel : forall E, ecdsa_contract E -> forall p q q' c d r r',
  curve_key p -> curve_key q -> curve_key q' ->
  AddPublicKeys E p q c = Ret (Ok r) -> AddPublicKeys E p q' d = Ret (Ok r') ->
  PX r = PX r' -> PY r = PY r' -> q = q'.
Proof. exact public_cancels. Qed.
Print Assumptions C86_public_keys_cancel.

(** Adding [q] and then its opposite gives [p] back. *)
Theorem C86_subtracting : forall E, ecdsa_contract E -> forall p q c d r x y y',
  curve_key p -> curve_key q -> PX q = Some x -> PY q = Some y ->
  AddPublicKeys E p q c = Ret (Ok r) -> curve_point (x, y') -> cong (y + y') 0 ->
  AddPublicKeys E r (PublicKey (Some x) (Some y') (PNetwork q)) d = Ret (Ok p).
Proof. exact public_subtract. Qed.
Print Assumptions C86_subtracting.

Theorem C86_every_key_has_an_opposite : forall x y, curve_point (x, y) ->
  curve_point (x, p256k1 - y) /\ cong (y + (p256k1 - y)) 0.
Proof. exact opposite_exists. Qed.
Print Assumptions C86_every_key_has_an_opposite.

Example C86_example : exists r,
  AddPublicKeys fast_lib (pub_of (key_main (str "05"))) (pub_of (key_main (str "07"))) true = Ret (Ok r) /\
  r = pub_of (key_main (str "0c")).
Proof. exists (pub_of (key_main (str "0c"))). split; [vm_compute; reflexivity|reflexivity]. Qed.
