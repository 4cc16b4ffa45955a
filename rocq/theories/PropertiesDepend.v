(** * Dependence, letter case, counting importable texts, split keys (C87-C91)

    Theorems only; each is closed by an existing lemma. Specifications:
    [Spec.v], [SpecMore.v], [CurveSpec.v], [EcdsaContract.v]. Model: [Model.v].
    The examples with points run on [FastLib.fast_lib], which meets the
    contract. *)

From Verif Require Import GoBase GoNum Sha256 Ripemd160 Base58 GoRand Model Spec SpecMore CurveSpec EcdsaContract.
From Verif Require Import SpecFacts FastLib Depend Witness.
Local Open Scope Z_scope.

Definition pub_of (k : private_key) : public_key :=
  match GetPublicKey fast_lib k with Ret (Some p) => p | _ => PublicKey None None None end.

(** ** C87 *)

(** Two operands can be replaced by others with the same number, the same
    network and WIFs equal up to letter case; their Hex fields are not read. *)
Theorem C87_sums_ignore_hex : forall a b a' b',
  Key a = Key a' -> equal_up_to_case (WIF a) (WIF a') -> KNetwork a = KNetwork a' ->
  Key b = Key b' -> equal_up_to_case (WIF b) (WIF b') -> KNetwork b = KNetwork b' ->
  AddPrivateKeys a b = AddPrivateKeys a' b' /\ MultiplyPrivateKeys a b = MultiplyPrivateKeys a' b'.
Proof. exact sums_fields. Qed.
Print Assumptions C87_sums_ignore_hex.

(** The WIFs only decide whether there is a result, never which. *)
Theorem C87_wif_only_refuses : forall a b a' b',
  Key a = Key a' -> KNetwork a = KNetwork a' -> Key b = Key b' -> KNetwork b = KNetwork b' ->
  (forall c c', AddPrivateKeys a b = Ret (Ok c) -> AddPrivateKeys a' b' = Ret (Ok c') -> c = c') /\
  (forall c c', MultiplyPrivateKeys a b = Ret (Ok c) -> MultiplyPrivateKeys a' b' = Ret (Ok c') -> c = c').
Proof. exact wif_only_refuses. Qed.
Print Assumptions C87_wif_only_refuses.

(** The point of a public key comes from the number alone. *)
Theorem C87_point_from_number : forall E a b, Key a = Key b ->
  GetPublicKey E b =
  match GetPublicKey E a with
  | Ret (Some p) => Ret (Some (PublicKey (PX p) (PY p) (KNetwork b)))
  | Ret None => Ret None
  | Panic e => Panic e
  end.
Proof. exact get_public_fields. Qed.
Print Assumptions C87_point_from_number.

(** Format reads the coordinates, Address these and the address prefix. *)
Theorem C87_format_from_coordinates : forall p q c, PX p = PX q -> PY p = PY q -> Format p c = Format q c.
Proof. exact format_fields. Qed.
Print Assumptions C87_format_from_coordinates.

Theorem C87_address_ignores_private_prefix : forall p q n m c,
  PX p = PX q -> PY p = PY q -> PNetwork p = Some n -> PNetwork q = Some m ->
  PubKeyHashPrefix n = PubKeyHashPrefix m -> Address p c = Address q c.
Proof. exact address_fields. Qed.
Print Assumptions C87_address_ignores_private_prefix.

(** Importing and generating private keys do not read the address prefix. *)
Theorem C87_private_key_ignores_address_prefix : forall h n n', PrivKeyPrefix n = PrivKeyPrefix n' ->
  PrivateFromHex h (Some n') =
    match PrivateFromHex h (Some n) with
    | Ret (Ok k) => Ret (Ok (PrivateKey (Key k) (Hex k) (WIF k) (Some n')))
    | r => r
    end.
Proof. exact private_same_prefix. Qed.
Print Assumptions C87_private_key_ignores_address_prefix.

Theorem C87_generating_ignores_address_prefix : forall n n' rd, PrivKeyPrefix n = PrivKeyPrefix n' ->
  GeneratePrivateKey (Some n') rd =
    match GeneratePrivateKey (Some n) rd with
    | Ret (k, rest) => Ret (PrivateKey (Key k) (Hex k) (WIF k) (Some n'), rest)
    | Panic e => Panic e
    end.
Proof. exact generate_same_prefix. Qed.
Print Assumptions C87_generating_ignores_address_prefix.

(** A key imported from hex and the same key imported from its WIF, and a key
    whose Hex field was overwritten. *)
Example C87_example :
  let a := key_main hex1 in
  let a' := PrivateKey (Key a) (str "nonsense") (WIF a) (KNetwork a) in
  exists c, AddPrivateKeys a (key_main (str "07")) = Ret (Ok c) /\ AddPrivateKeys a' (key_main (str "07")) = Ret (Ok c).
Proof.
  exists (get no_key (AddPrivateKeys (key_main hex1) (key_main (str "07")))). split; vm_compute; reflexivity.
Qed.
Example C87_example_prefix :
  let n := Network (PrivKeyPrefix MainNetwork) (PubKeyHashPrefix TestNetwork) in
  WIF (key_on n hex1) = wif1 /\ n <> MainNetwork.
Proof. split; [vm_compute; reflexivity|discriminate]. Qed.

(** ** C88 *)

(** Importing hex in other letter case gives the same number and the same WIF;
    only the Hex field keeps the case of the input. The same holds of the case
    of the digits in the network's prefix. *)
Theorem C88_private_hex : forall h h' n n' k,
  equal_up_to_case h h' -> equal_up_to_case (PrivKeyPrefix n) (PrivKeyPrefix n') ->
  PrivateFromHex h (Some n) = Ret (Ok k) ->
  PrivateFromHex h' (Some n') = Ret (Ok (PrivateKey (Key k) h' (WIF k) (Some n'))).
Proof. exact private_case. Qed.
Print Assumptions C88_private_hex.

Theorem C88_private_hex_refused_alike : forall h h' n n',
  equal_up_to_case h h' -> equal_up_to_case (PrivKeyPrefix n) (PrivKeyPrefix n') ->
  (exists e, PrivateFromHex h (Some n) = Ret (Err e)) -> exists e, PrivateFromHex h' (Some n') = Ret (Err e).
Proof. exact private_case_error. Qed.
Print Assumptions C88_private_hex_refused_alike.

(** Public keys: the same result, error or panic. *)
Theorem C88_public_hex : forall E s t net, equal_up_to_case s t -> PublicFromHex E s net = PublicFromHex E t net.
Proof. exact public_case. Qed.
Print Assumptions C88_public_hex.

Theorem C88_generated_keys : forall n n' rd, equal_up_to_case (PrivKeyPrefix n) (PrivKeyPrefix n') ->
  GeneratePrivateKey (Some n') rd =
    match GeneratePrivateKey (Some n) rd with
    | Ret (k, rest) => Ret (PrivateKey (Key k) (Hex k) (WIF k) (Some n'), rest)
    | Panic e => Panic e
    end.
Proof. exact generate_case. Qed.
Print Assumptions C88_generated_keys.

Theorem C88_addresses : forall p q n m c a,
  PX p = PX q -> PY p = PY q -> PNetwork p = Some n -> PNetwork q = Some m ->
  equal_up_to_case (PubKeyHashPrefix n) (PubKeyHashPrefix m) ->
  Address p c = Ret (Ok a) -> Address q c = Ret (Ok a).
Proof. exact address_case. Qed.
Print Assumptions C88_addresses.

(** Yet networks written in different case count as different. *)
Theorem C88_networks_differ : forall E a b p q n m f,
  KNetwork a = Some n -> KNetwork b = Some m -> PNetwork p = Some n -> PNetwork q = Some m -> n <> m ->
  AddPrivateKeys a b = Ret (Err EDifferentNetwork) /\ MultiplyPrivateKeys a b = Ret (Err EDifferentNetwork) /\
  AddPublicKeys E p q f = Ret (Err EDifferentNetwork).
Proof. exact refused_networks. Qed.
Print Assumptions C88_networks_differ.

(** The test network with its private prefix written ef for EF. *)
Example C88_example :
  let n := Network (str "ef") (PubKeyHashPrefix TestNetwork) in
  equal_up_to_case (PrivKeyPrefix TestNetwork) (PrivKeyPrefix n) /\
  WIF (key_on n (str "0aBc")) = WIF (key_on TestNetwork (str "0AbC")) /\ WIF (key_on n (str "0aBc")) <> [] /\
  AddPrivateKeys (key_on n (str "0a")) (key_on TestNetwork (str "0b")) = Ret (Err EDifferentNetwork).
Proof.
  split; [apply equal_up_to_case_lower; reflexivity|]. split; [vm_compute; reflexivity|].
  split; [vm_compute; discriminate|]. vm_compute. reflexivity.
Qed.

(** ** C89 *)

(** Of the numbers below P, exactly (N - 1) / 2 are accepted as the x of a
    compressed public key, whichever of the two signs is asked for. *)
Theorem C89_half_of_N_accepted : forall E, ecdsa_contract E -> forall (b : bool) net S c,
  NoDup S -> (forall x, In x S <-> 0 <= x < p256k1) ->
  holds_for (fun x => exists t p, length t = 64%nat /\ hex_number t x /\
               PublicFromHex E (str (if b then "02" else "03") ++ t) net = Ret (Ok p)) S c ->
  2 * Z.of_nat c = n256k1 - 1.
Proof. exact accepted_count. Qed.
Print Assumptions C89_half_of_N_accepted.

(** Such a list and such a count exist. *)
Example C89_example : exists S c, NoDup S /\ (forall x, In x S <-> 0 <= x < p256k1) /\
  holds_for (fun x => exists t p, length t = 64%nat /\ hex_number t x /\
               PublicFromHex fast_lib (str (if true then "02" else "03") ++ t) (Some MainNetwork) = Ret (Ok p)) S c.
Proof. exact (accepted_exists fast_lib fast_lib_meets true (Some MainNetwork)). Qed.

(** ** C90 *)

(** 02 typed for 03, or 03 for 02, is accepted and gives the opposite key: the
    same X, the other Y, the private number N - k; the two cannot be added. *)
Theorem C90_wrong_sign_accepted : forall E, ecdsa_contract E -> forall t (b : bool) x p net f,
  length t = 64%nat -> hex_number t x -> x < p256k1 ->
  PublicFromHex E (str (if b then "02" else "03") ++ t) net = Ret (Ok p) ->
  exists y, p = PublicKey (Some x) (Some y) net /\ 0 < y < p256k1 /\
    let q := PublicKey (Some x) (Some (p256k1 - y)) net in
    PublicFromHex E (str (if b then "03" else "02") ++ t) net = Ret (Ok q) /\
    AddPublicKeys E p q f = Ret (Err ENotOnCurve) /\
    forall k, 1 <= k < n256k1 ->
      multiple (Some G256k1) k (Some (x, y)) -> multiple (Some G256k1) (n256k1 - k) (Some (x, p256k1 - y)).
Proof. exact flipped. Qed.
Print Assumptions C90_wrong_sign_accepted.

(** The generator, whose y is even. *)
Example C90_example :
  let t := str "79be667ef9dcbbac55a06295ce870b07029bfcdb2dce28d959f2815b16f81798" in
  let y := 0x483ada7726a3c4655da4fbfc0e1108a8fd17b448a68554199c47d08ffb10d4b8 in
  GetPublicKey fast_lib (key_main (str "01")) = Ret (Some (PublicKey (Some secp_Gx) (Some y) (Some MainNetwork))) /\
  PublicFromHex fast_lib (str "03" ++ t) (Some MainNetwork) =
    Ret (Ok (PublicKey (Some secp_Gx) (Some (p256k1 - y)) (Some MainNetwork))).
Proof. split; vm_compute; reflexivity. Qed.

(** ** C91 *)

(** Several parties each hold a private key and send the text of their public
    key, in either form; whoever imports and adds these has the public key, and
    so the addresses, of the sum of the private keys. *)
Theorem C91_split_key : forall E, ecdsa_contract E -> forall c l a r n bs A L,
  KNetwork a = Some n -> hex_text (PrivKeyPrefix n) bs ->
  add_up AddPrivateKeys a l = Ret (Ok r) ->
  Forall2 (fun k P => exists x Q d s, Key k = Some x /\ 0 <= x /\ GetPublicKey E k = Ret (Some Q) /\
             Format Q d = Ret s /\ PublicFromHex E s (Some n) = Ret (Ok P)) (a :: l) (A :: L) ->
  exists R, add_up (fun p q => AddPublicKeys E p q c) A L = Ret (Ok R) /\ GetPublicKey E r = Ret (Some R).
Proof. exact split_key. Qed.
Print Assumptions C91_split_key.

(** Three parties, one of whom sends the compressed form. *)
Example C91_example :
  let text k d := match Format (pub_of k) d with Ret s => s | _ => [] end in
  let import s := get (PublicKey None None None) (PublicFromHex fast_lib s (Some MainNetwork)) in
  exists r R, add_up AddPrivateKeys (key_main (str "10")) [key_main (str "20"); key_main (str "40")] = Ret (Ok r) /\
  add_up (fun p q => AddPublicKeys fast_lib p q true) (import (text (key_main (str "10")) true))
    [import (text (key_main (str "20")) false); import (text (key_main (str "40")) false)] = Ret (Ok R) /\
  GetPublicKey fast_lib r = Ret (Some R).
Proof.
  exists (key_main (str "70")), (pub_of (key_main (str "70"))).
  split; [vm_compute; reflexivity|]. split; vm_compute; reflexivity.
Qed.
