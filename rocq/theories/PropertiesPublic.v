(** * Properties of public-key text and addresses (C28, C30, C33-C36)

    Theorems only; each is closed by an existing lemma. Specifications:
    [Spec.v]. Model: [Model.v]. These hold for every implementation [E] of the
    elliptic-curve dependency. *)

From Verif Require Import GoBase GoNum Sha256 Ripemd160 Base58 GoRand Model EcRef Spec.
From Verif Require Import SpecFacts PubFacts Witness.
Local Open Scope Z_scope.

(** ** C28 *)

Theorem C28_format_is_sec1_hex : forall x y net c,
  0 <= x < 2 ^ 256 -> 0 <= y < 2 ^ 256 ->
  exists s bs, Format (PublicKey (Some x) (Some y) net) c = Ret s /\ sec1 c x y bs /\
    hex_text s bs /\ lower_case_hex s /\ length s = (if c then 66%nat else 130%nat).
Proof. exact Format_sec1. Qed.
Print Assumptions C28_format_is_sec1_hex.

Example C28_example :
  Format (PublicKey (Some secp_Gx) (Some secp_Gy) None) true =
  Ret (str "0279be667ef9dcbbac55a06295ce870b07029bfcdb2dce28d959f2815b16f81798").
Proof. vm_compute. reflexivity. Qed.
Example C28_example_padding :
  Format (PublicKey (Some 10) (Some 11) None) true =
  Ret (str "03000000000000000000000000000000000000000000000000000000000000000a").
Proof. vm_compute. reflexivity. Qed.

(** ** C29 (the uncompressed half; the compressed half needs the curve) *)

Theorem C29_sec1_determines_the_coordinates : forall c x y x' y' bs,
  sec1 c x y bs -> sec1 c x' y' bs -> x = x' /\ (if c then Z.even y = Z.even y' else y = y').
Proof. exact sec1_inj. Qed.
Print Assumptions C29_sec1_determines_the_coordinates.

Example C29_example : exists bs, sec1 false 10 11 bs.
Proof.
  exists (x04 :: (repeat x00 31 ++ [x0a]) ++ (repeat x00 31 ++ [x0b])).
  exists (repeat x00 31 ++ [x0a]). split; [split; reflexivity|].
  exists (repeat x00 31 ++ [x0b]). split; [split; reflexivity|]. reflexivity.
Qed.

(** ** C30 *)

Theorem C30_uncompressed_export_import : forall E x y net net' s,
  0 <= x < 2 ^ 256 -> 0 <= y < 2 ^ 256 ->
  Format (PublicKey (Some x) (Some y) net) false = Ret s ->
  PublicFromHex E s net' = Ret (Ok (PublicKey (Some x) (Some y) net')).
Proof. exact uncompressed_round_trip. Qed.
Print Assumptions C30_uncompressed_export_import.

Theorem C30_uncompressed_import_export : forall E s net bs,
  length s = 130%nat -> substring s 0 2 = str "04" -> hex_text s bs ->
  exists p s', PublicFromHex E s net = Ret (Ok p) /\ PNetwork p = net /\
    Format p false = Ret s' /\ lower_case_hex s' /\ equal_up_to_case s' s.
Proof. exact uncompressed_import_export. Qed.
Print Assumptions C30_uncompressed_import_export.

Definition pub1 : gostring :=
  str "0479BE667EF9DCBBAC55A06295CE870B07029BFCDB2DCE28D959F2815B16F81798483ada7726a3c4655da4fbfc0e1108a8fd17b448a68554199c47d08ffb10d4b8".
Example C30_example : length pub1 = 130%nat /\ substring pub1 0 2 = str "04" /\
  PublicFromHex ref_lib pub1 (Some MainNetwork) = Ret (Ok (PublicKey (Some secp_Gx) (Some secp_Gy) (Some MainNetwork))).
Proof. split; [|split]; vm_compute; reflexivity. Qed.

(** ** C33 *)

Theorem C33_panic_set : forall E s net,
  (exists e, PublicFromHex E s net = Panic e) <->
  (length s < 2)%nat \/
  (substring s 0 2 = str "04" /\ (length s < 130)%nat) \/
  ((substring s 0 2 = str "02" \/ substring s 0 2 = str "03") /\
   ((length s < 66)%nat \/ ~ exists x, signed_hex_number (substring s 2 66) x)).
Proof. exact PublicFromHex_panic_iff. Qed.
Print Assumptions C33_panic_set.

Theorem C33_unsupported_prefix : forall E s net,
  (2 <= length s)%nat ->
  substring s 0 2 <> str "04" -> substring s 0 2 <> str "03" -> substring s 0 2 <> str "02" ->
  PublicFromHex E s net = Ret (Err EUnsupportedFormat).
Proof. exact PublicFromHex_unsupported. Qed.
Print Assumptions C33_unsupported_prefix.

(** A '04' text long enough always imports; a coordinate that is not a number
    becomes nil, and a signed number is taken as such. *)
Theorem C33_uncompressed_checks_nothing : forall E s net,
  substring s 0 2 = str "04" -> (130 <= length s)%nat ->
  exists p, PublicFromHex E s net = Ret (Ok p) /\ PNetwork p = net /\
    (forall x, PX p = Some x <-> signed_hex_number (substring s 2 66) x) /\
    (forall y, PY p = Some y <-> signed_hex_number (substring s 66 130) y).
Proof. exact PublicFromHex_uncompressed_result. Qed.
Print Assumptions C33_uncompressed_checks_nothing.

Theorem C33_trailing_characters_ignored : forall E s t net,
  (130 <= length s)%nat \/ ((66 <= length s)%nat /\ substring s 0 2 <> str "04") ->
  PublicFromHex E (s ++ t) net = PublicFromHex E s net.
Proof. exact PublicFromHex_extra. Qed.
Print Assumptions C33_trailing_characters_ignored.

Example C33_example_nil :
  PublicFromHex ref_lib (str "04" ++ repeat x7a 128) None = Ret (Ok (PublicKey None None None)).
Proof. vm_compute. reflexivity. Qed.
Example C33_example_negative :
  PublicFromHex ref_lib (str "04-" ++ repeat x30 62 ++ str "1+" ++ repeat x30 62 ++ str "2and more") None =
  Ret (Ok (PublicKey (Some (-1)) (Some 2) None)).
Proof. vm_compute. reflexivity. Qed.
Example C33_example_panic : PublicFromHex ref_lib (str "02") None = Panic PSlice /\
  PublicFromHex ref_lib (str "0") None = Panic PSlice /\
  PublicFromHex ref_lib (str "02" ++ repeat x7a 64) None = Panic PNil.
Proof. split; [|split]; vm_compute; reflexivity. Qed.
Example C33_example_unsupported : PublicFromHex ref_lib (str "05") None = Ret (Err EUnsupportedFormat).
Proof. vm_compute. reflexivity. Qed.

(** ** C34 *)

Theorem C34_address_is_base58check_of_hash160 : forall x y n v c,
  0 <= x < 2 ^ 256 -> 0 <= y < 2 ^ 256 -> hex_text (PubKeyHashPrefix n) v ->
  exists a bs, Address (PublicKey (Some x) (Some y) (Some n)) c = Ret (Ok a) /\ sec1 c x y bs /\
    base58check (v ++ hash160 bs) a /\ CheckWIF a = Ret true.
Proof. exact Address_base58check. Qed.
Print Assumptions C34_address_is_base58check_of_hash160.

(** Equal addresses on one network come from exports with the same HASH160. *)
Theorem C34_equal_addresses_equal_hashes : forall p q c d a n,
  PNetwork p = Some n -> PNetwork q = Some n -> Address p c = Ret (Ok a) -> Address q d = Ret (Ok a) ->
  exists s t bs bt, Format p c = Ret s /\ Format q d = Ret t /\ hex_text s bs /\ hex_text t bt /\
    hash160 bs = hash160 bt.
Proof. exact Address_injective_hash. Qed.
Print Assumptions C34_equal_addresses_equal_hashes.

(** The address of private key 1. *)
Example C34_example :
  Address (PublicKey (Some secp_Gx) (Some secp_Gy) (Some MainNetwork)) true =
  Ret (Ok (str "1BgGZ9tcN4rm9KBzDn7KprQz87SZ26SAMH")).
Proof. vm_compute. reflexivity. Qed.
Example C34_example_test :
  Address (PublicKey (Some secp_Gx) (Some secp_Gy) (Some TestNetwork)) false =
  Ret (Ok (str "mtoKs9V381UAhUia3d7Vb9GNak8Qvmcsme")).
Proof. vm_compute. reflexivity. Qed.

(** ** C35 *)

Theorem C35_main_address_shape : forall p c a,
  PNetwork p = Some MainNetwork -> Address p c = Ret (Ok a) ->
  (26 <= length a <= 34)%nat /\ hd_error a = Some x31.
Proof. exact Address_main_shape. Qed.
Print Assumptions C35_main_address_shape.

Theorem C35_test_address_shape : forall p c a,
  PNetwork p = Some TestNetwork -> Address p c = Ret (Ok a) ->
  length a = 34%nat /\ (hd_error a = Some x6d \/ hd_error a = Some x6e).
Proof. exact Address_test_shape. Qed.
Print Assumptions C35_test_address_shape.

Theorem C35_main_and_test_never_coincide : forall p q c d a b,
  PNetwork p = Some MainNetwork -> PNetwork q = Some TestNetwork ->
  Address p c = Ret (Ok a) -> Address q d = Ret (Ok b) -> a <> b.
Proof. exact Address_main_test_differ. Qed.
Print Assumptions C35_main_and_test_never_coincide.

Example C35_example : (* addresses of 34 and of 33 characters *)
  (exists a, Address (PublicKey (Some secp_Gx) (Some secp_Gy) (Some MainNetwork)) false = Ret (Ok a) /\ length a = 34%nat) /\
  exists a, Address (PublicKey (Some 247) (Some 0) (Some MainNetwork)) true = Ret (Ok a) /\ length a = 33%nat.
Proof. split; eexists; (split; [vm_compute; reflexivity|]); vm_compute; reflexivity. Qed.

(** ** C36 *)

Theorem C36_uncompressed_success_set : forall ox oy n,
  (exists a, Address (PublicKey ox oy (Some n)) false = Ret (Ok a)) <->
  (exists v, hex_text (PubKeyHashPrefix n) v) /\
  exists x y dx dy, ox = Some x /\ oy = Some y /\ padded_hex_length x dx /\ padded_hex_length y dy /\
    Nat.even (dx + dy) = true.
Proof. exact Address_uncompressed_iff. Qed.
Print Assumptions C36_uncompressed_success_set.

Theorem C36_compressed_success_set : forall ox oy n,
  (exists a, Address (PublicKey ox oy (Some n)) true = Ret (Ok a)) <->
  (exists v, hex_text (PubKeyHashPrefix n) v) /\
  exists x y dx, ox = Some x /\ oy = Some y /\ padded_hex_length x dx /\ Nat.even dx = true.
Proof. exact Address_compressed_iff. Qed.
Print Assumptions C36_compressed_success_set.

Theorem C36_panic_set : forall p c,
  (exists e, Address p c = Panic e) <->
  (c = true /\ PY p = None) \/
  (PNetwork p = None /\ exists s bs, Format p c = Ret s /\ hex_text s bs).
Proof. exact Address_panic_iff. Qed.
Print Assumptions C36_panic_set.

Example C36_example_negative : exists e,
  Address (PublicKey (Some (-1)) (Some 2) (Some MainNetwork)) false = Ret (Err e).
Proof. eexists. vm_compute. reflexivity. Qed.
Example C36_example_odd : exists e,
  Address (PublicKey (Some (2 ^ 256)) (Some 2) (Some MainNetwork)) true = Ret (Err e).
Proof. eexists. vm_compute. reflexivity. Qed.
Example C36_example_nil : Address (PublicKey (Some 1) None (Some MainNetwork)) true = Panic PNil.
Proof. vm_compute. reflexivity. Qed.
