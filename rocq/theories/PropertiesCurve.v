(** * Properties of keys as curve points (C24-C27, C29, C31, C32, C37, C38, C54, C55)

    Theorems only; each is closed by an existing lemma. Specifications:
    [CurveSpec.v] (the group), [EcdsaContract.v] (what is assumed of the ecdsa
    dependency), [Spec.v] (texts). Model: [Model.v].

    The examples run on [FastLib.fast_lib], which meets the contract. *)

From Coq Require Import Znumtheory.
From Verif Require Import GoBase GoNum Sha256 Ripemd160 Base58 GoRand Model EcRef Spec CurveSpec EcdsaContract.
From Verif Require Import Primes EcFacts FastLib PubCurve Witness.
Local Open Scope Z_scope.

Definition no_pub : public_key := PublicKey None None None.
Definition pub (k : private_key) : public_key :=
  match GetPublicKey fast_lib k with Ret (Some p) => p | _ => no_pub end.
Definition key64 (z : Z) : private_key := key_main (pad_left 64 (sprintf_x z)).

(** The contract can be met. *)
Example contract_met : ecdsa_contract ref_lib /\ ecdsa_contract fast_lib.
Proof. split; [exact ref_lib_meets|exact fast_lib_meets]. Qed.

(** ** C54 *)

Theorem C54_parameters :
  secp_P = p256k1 /\ secp_N = n256k1 /\ secp_A = 0 /\ secp_B = 7 /\ (secp_Gx, secp_Gy) = G256k1.
Proof. exact parameters. Qed.
Print Assumptions C54_parameters.

Theorem C54_primes : prime secp_P /\ prime secp_N.
Proof. exact (conj prime_P prime_N). Qed.
Print Assumptions C54_primes.

Theorem C54_generator_on_curve : curve_point (secp_Gx, secp_Gy).
Proof. exact G_point. Qed.
Print Assumptions C54_generator_on_curve.

Theorem C54_generator_order : forall k, 0 <= k ->
  (multiple (Some (secp_Gx, secp_Gy)) k None <-> (secp_N | k)).
Proof. exact order_exact. Qed.
Print Assumptions C54_generator_order.

Theorem C54_points_form_a_group :
  (forall p q, on_the_curve p -> on_the_curve q ->
     exists r, point_sum p q r /\ on_the_curve r /\ (forall r', point_sum p q r' -> r' = r)) /\
  (forall p q r, on_the_curve p -> on_the_curve q -> point_sum p q r -> point_sum q p r) /\
  (forall p q r pq qr s, on_the_curve p -> on_the_curve q -> on_the_curve r ->
     point_sum p q pq -> point_sum q r qr -> (point_sum pq r s <-> point_sum p qr s)).
Proof. exact (conj sum_exists (conj sum_comm sum_assoc)). Qed.
Print Assumptions C54_points_form_a_group.

Example C54_example : exists r, multiple (Some (secp_Gx, secp_Gy)) 5 r.
Proof. apply (multiple_exists 5). lia. Qed.

(** ** C24 *)

Theorem C24_public_key_is_k_times_G : forall E, ecdsa_contract E -> forall key k,
  Key key = Some k -> 1 <= k < n256k1 ->
  exists x y, GetPublicKey E key = Ret (Some (PublicKey (Some x) (Some y) (KNetwork key))) /\
    curve_point (x, y) /\ multiple (Some G256k1) k (Some (x, y)).
Proof. exact GetPublicKey_range. Qed.
Print Assumptions C24_public_key_is_k_times_G.

(** The same for numbers out of range: only the multiples of N have no key. *)
Theorem C24_any_number : forall E, ecdsa_contract E -> forall key k,
  Key key = Some k -> 0 <= k -> ~ (n256k1 | k) ->
  exists x y, GetPublicKey E key = Ret (Some (PublicKey (Some x) (Some y) (KNetwork key))) /\
    curve_point (x, y) /\ multiple (Some G256k1) k (Some (x, y)).
Proof. exact GetPublicKey_point. Qed.
Print Assumptions C24_any_number.

Theorem C24_multiples_of_N_fail : forall E, ecdsa_contract E -> forall key k,
  Key key = Some k -> 0 <= k -> (n256k1 | k) -> GetPublicKey E key = Ret None.
Proof. exact GetPublicKey_infinity. Qed.
Print Assumptions C24_multiples_of_N_fail.

Example C24_example : Key (key_main hex1) = Some 0xef95df82b52ef5c2aac2acafa42bac95ec2ac0bb7044a1f6eb7408b06f1d2773.
Proof. vm_compute. reflexivity. Qed.
Example C24_example_2G : GetPublicKey fast_lib (key64 2) = Ret (Some (PublicKey
  (Some 0xc6047f9441ed7d6d3045406e95c07cd85c778e4b8cef3ca7abac09b95c709ee5)
  (Some 0x1ae168fea63dc339a3c58419466ceaeef7f632653266d0e1236431a950cfe52a) (Some MainNetwork))).
Proof. vm_compute. reflexivity. Qed.
Example C24_example_zero : GetPublicKey fast_lib (key64 0) = Ret None /\ Key (key64 0) = Some 0.
Proof. split; vm_compute; reflexivity. Qed.

(** ** C25 *)

Theorem C25_distinct_keys_distinct_points : forall E, ecdsa_contract E -> forall a b x y A B,
  Key a = Some x -> Key b = Some y -> 1 <= x < n256k1 -> 1 <= y < n256k1 ->
  GetPublicKey E a = Ret (Some A) -> GetPublicKey E b = Ret (Some B) ->
  PX A = PX B -> PY A = PY B -> x = y.
Proof. exact distinct_points. Qed.
Print Assumptions C25_distinct_keys_distinct_points.

Theorem C25_same_point_iff_congruent : forall E, ecdsa_contract E -> forall a b x y A B,
  Key a = Some x -> Key b = Some y -> 0 <= x -> 0 <= y ->
  GetPublicKey E a = Ret (Some A) -> GetPublicKey E b = Ret (Some B) ->
  (PX A = PX B /\ PY A = PY B <-> x mod n256k1 = y mod n256k1).
Proof. exact same_point_iff. Qed.
Print Assumptions C25_same_point_iff_congruent.

(** The x coordinate alone determines the key up to sign. *)
Theorem C25_same_x_iff_opposite : forall E, ecdsa_contract E -> forall a b x y A B,
  Key a = Some x -> Key b = Some y -> 1 <= x < n256k1 -> 1 <= y < n256k1 ->
  GetPublicKey E a = Ret (Some A) -> GetPublicKey E b = Ret (Some B) ->
  (PX A = PX B <-> x = y \/ x = n256k1 - y).
Proof. exact same_x. Qed.
Print Assumptions C25_same_x_iff_opposite.

Example C25_example : exists A B, GetPublicKey fast_lib (key64 2) = Ret (Some A) /\
  GetPublicKey fast_lib (key64 3) = Ret (Some B).
Proof. exists (pub (key64 2)), (pub (key64 3)). split; vm_compute; reflexivity. Qed.

(** ** C55 *)

Theorem C55_one_private_key_per_point : forall E, ecdsa_contract E -> forall q, curve_point q ->
  exists k, 1 <= k < n256k1 /\
    (forall key, Key key = Some k ->
       GetPublicKey E key = Ret (Some (PublicKey (Some (fst q)) (Some (snd q)) (KNetwork key)))) /\
    (forall key k', Key key = Some k' -> 1 <= k' < n256k1 ->
       GetPublicKey E key = Ret (Some (PublicKey (Some (fst q)) (Some (snd q)) (KNetwork key))) -> k' = k).
Proof. exact unique_private_key. Qed.
Print Assumptions C55_one_private_key_per_point.

Example C55_example : curve_point (1, 0x4218f20ae6c646b363db68605822fb14264ca8d2587fdd6fbc750d587e76a7ee).
Proof. apply curve_point_iff. apply CurveMul.on_curveb_ok. vm_compute. reflexivity. Qed.

(** ** C26 *)

Theorem C26_adding_commutes_with_publishing : forall E, ecdsa_contract E -> forall a b c x y A B f,
  AddPrivateKeys a b = Ret (Ok c) -> Key a = Some x -> Key b = Some y -> 0 <= x -> 0 <= y ->
  GetPublicKey E a = Ret (Some A) -> GetPublicKey E b = Ret (Some B) ->
  AddPublicKeys E A B f = match GetPublicKey E c with
                          | Ret (Some C) => Ret (Ok C)
                          | _ => Ret (Err ENotOnCurve)
                          end.
Proof. exact add_keys_agree. Qed.
Print Assumptions C26_adding_commutes_with_publishing.

Theorem C26_sum_is_the_key_of_the_sum : forall E, ecdsa_contract E -> forall a b c x y A B f,
  Key a = Some x -> Key b = Some y -> 0 <= x -> 0 <= y ->
  KNetwork a = KNetwork b -> KNetwork c = KNetwork a -> Key c = Some ((x + y) mod n256k1) ->
  GetPublicKey E a = Ret (Some A) -> GetPublicKey E b = Ret (Some B) ->
  AddPublicKeys E A B f = match GetPublicKey E c with
                          | Ret (Some C) => Ret (Ok C)
                          | _ => Ret (Err ENotOnCurve)
                          end.
Proof. exact add_homomorphic. Qed.
Print Assumptions C26_sum_is_the_key_of_the_sum.

Theorem C26_error_iff_sum_zero : forall E, ecdsa_contract E -> forall a b x y A B f,
  Key a = Some x -> Key b = Some y -> 0 <= x -> 0 <= y ->
  KNetwork a = KNetwork b -> GetPublicKey E a = Ret (Some A) -> GetPublicKey E b = Ret (Some B) ->
  ((exists C, AddPublicKeys E A B f = Ret (Ok C)) <-> ~ (n256k1 | x + y)) /\
  ((n256k1 | x + y) -> AddPublicKeys E A B f = Ret (Err ENotOnCurve)).
Proof. exact add_error_iff. Qed.
Print Assumptions C26_error_iff_sum_zero.

Example C26_example : exists c,
  AddPrivateKeys (key64 15) (key64 20) = Ret (Ok c) /\
  AddPublicKeys fast_lib (pub (key64 15)) (pub (key64 20)) true = Ret (Ok (pub c)) /\
  PX (pub c) <> None.
Proof.
  exists (get no_key (AddPrivateKeys (key64 15) (key64 20))).
  split; [vm_compute; reflexivity|]. split; [vm_compute; reflexivity|]. vm_compute. discriminate.
Qed.

(** ** C27 *)

Theorem C27_multiplying_is_diffie_hellman : forall E, ecdsa_contract E -> forall a b c x y A B,
  MultiplyPrivateKeys a b = Ret (Ok c) -> Key a = Some x -> Key b = Some y -> 0 <= x -> 0 <= y ->
  GetPublicKey E a = Ret (Some A) -> GetPublicKey E b = Ret (Some B) ->
  exists xa ya xb yb xc yc,
    A = PublicKey (Some xa) (Some ya) (KNetwork a) /\ B = PublicKey (Some xb) (Some yb) (KNetwork b) /\
    GetPublicKey E c = Ret (Some (PublicKey (Some xc) (Some yc) (KNetwork a))) /\
    multiple (Some (xb, yb)) x (Some (xc, yc)) /\ multiple (Some (xa, ya)) y (Some (xc, yc)).
Proof. exact mul_keys_agree. Qed.
Print Assumptions C27_multiplying_is_diffie_hellman.

Example C27_example : exists c, MultiplyPrivateKeys (key64 5) (key64 7) = Ret (Ok c) /\
  PX (pub (key64 5)) <> None /\ PX (pub (key64 7)) <> None.
Proof.
  exists (get no_key (MultiplyPrivateKeys (key64 5) (key64 7))).
  split; [vm_compute; reflexivity|]. split; vm_compute; discriminate.
Qed.

(** ** C29 *)

Theorem C29_format_injective : forall c x y x' y' n n' s,
  curve_point (x, y) -> curve_point (x', y') ->
  Format (PublicKey (Some x) (Some y) n) c = Ret s -> Format (PublicKey (Some x') (Some y') n') c = Ret s ->
  x = x' /\ y = y'.
Proof. exact Format_injective. Qed.
Print Assumptions C29_format_injective.

Theorem C29_parity_determines_the_point : forall x y y',
  curve_point (x, y) -> curve_point (x, y') -> Z.even y = Z.even y' -> y = y'.
Proof. exact parity_point. Qed.
Print Assumptions C29_parity_determines_the_point.

Example C29_example_compressed : exists s, Format (pub (key64 2)) true = Ret s /\ length s = 66%nat.
Proof.
  exists (str "02c6047f9441ed7d6d3045406e95c07cd85c778e4b8cef3ca7abac09b95c709ee5").
  split; vm_compute; reflexivity.
Qed.

(** ** C31 *)

Theorem C31_export_import : forall E, ecdsa_contract E -> forall p c net s,
  curve_key p -> Format p c = Ret s ->
  PublicFromHex E s net = Ret (Ok (PublicKey (PX p) (PY p) net)).
Proof. exact export_import. Qed.
Print Assumptions C31_export_import.

Theorem C31_both_forms_agree : forall E, ecdsa_contract E -> forall p s1 s2 net,
  curve_key p -> Format p true = Ret s1 -> Format p false = Ret s2 ->
  PublicFromHex E s1 net = PublicFromHex E s2 net.
Proof. exact imports_agree. Qed.
Print Assumptions C31_both_forms_agree.

Example C31_example :
  PublicFromHex fast_lib (str "02c6047f9441ed7d6d3045406e95c07cd85c778e4b8cef3ca7abac09b95c709ee5") (Some MainNetwork)
  = Ret (Ok (pub (key64 2))).
Proof. vm_compute. reflexivity. Qed.
Example C31_example_odd : exists s, Format (pub (key64 6)) true = Ret s /\ substring s 0 2 = str "03".
Proof.
  exists (match Format (pub (key64 6)) true with Ret s => s | _ => [] end). split; vm_compute; reflexivity.
Qed.

(** ** C32 *)

Theorem C32_compressed_import : forall E, ecdsa_contract E -> forall s net (b : bool) x,
  substring s 0 2 = str (if b then "02" else "03") -> (66 <= length s)%nat ->
  hex_number (substring s 2 66) x -> x < p256k1 ->
  ((exists y, curve_point (x, y)) ->
   exists y, curve_point (x, y) /\ Z.even y = b /\
     PublicFromHex E s net = Ret (Ok (PublicKey (Some x) (Some y) net))) /\
  ((~ exists y, curve_point (x, y)) -> PublicFromHex E s net = Ret (Err ENotOnSecp)).
Proof. exact compressed_import. Qed.
Print Assumptions C32_compressed_import.

Theorem C32_uncompressed_import_checks_nothing : forall E s net x y,
  substring s 0 2 = str "04" -> (130 <= length s)%nat ->
  hex_number (substring s 2 66) x -> hex_number (substring s 66 130) y ->
  PublicFromHex E s net = Ret (Ok (PublicKey (Some x) (Some y) net)).
Proof. exact uncompressed_unchecked. Qed.
Print Assumptions C32_uncompressed_import_checks_nothing.

Example C32_example_rejected : (* 5 is not the x of a point *)
  PublicFromHex fast_lib (str "020000000000000000000000000000000000000000000000000000000000000005") None
  = Ret (Err ENotOnSecp).
Proof. vm_compute. reflexivity. Qed.
Example C32_example_off_curve : exists s, length s = 130%nat /\
  PublicFromHex fast_lib s None = Ret (Ok (PublicKey (Some 5) (Some 5) None)) /\ ~ curve_point (5, 5).
Proof.
  exists (str "0400000000000000000000000000000000000000000000000000000000000000050000000000000000000000000000000000000000000000000000000000000005").
  split; [reflexivity|]. split; [vm_compute; reflexivity|].
  intros C. apply curve_point_iff, CurveMul.on_curveb_ok in C. vm_compute in C. discriminate.
Qed.

(** ** C37 *)

Theorem C37_same_address_after_export_and_import : forall E, ecdsa_contract E -> forall key k A c d s,
  Key key = Some k -> 0 <= k -> GetPublicKey E key = Ret (Some A) -> Format A c = Ret s ->
  exists B, PublicFromHex E s (KNetwork key) = Ret (Ok B) /\ B = A /\ Address B d = Address A d.
Proof. exact address_paths. Qed.
Print Assumptions C37_same_address_after_export_and_import.

Theorem C37_every_key_has_an_address : forall E, ecdsa_contract E -> forall key k n v c,
  Key key = Some k -> 0 <= k -> ~ (n256k1 | k) ->
  KNetwork key = Some n -> hex_text (PubKeyHashPrefix n) v ->
  exists A a, GetPublicKey E key = Ret (Some A) /\ Address A c = Ret (Ok a).
Proof. exact address_total. Qed.
Print Assumptions C37_every_key_has_an_address.

Example C37_example : (* the well-known addresses of the key 1 *)
  Address (pub (key64 1)) true = Ret (Ok (str "1BgGZ9tcN4rm9KBzDn7KprQz87SZ26SAMH")) /\
  Address (pub (key64 1)) false = Ret (Ok (str "1EHNa6Q4Jz2uvNExL497mE43ikXhwF6kZm")).
Proof. split; vm_compute; reflexivity. Qed.

(** ** C38 *)

Theorem C38_add_is_the_point_sum : forall E, ecdsa_contract E -> forall p q c x1 y1 x2 y2,
  curve_key p -> curve_key q -> PNetwork p = PNetwork q ->
  PX p = Some x1 -> PY p = Some y1 -> PX q = Some x2 -> PY q = Some y2 ->
  (exists x y, AddPublicKeys E p q c = Ret (Ok (PublicKey (Some x) (Some y) (PNetwork p))) /\
     point_sum (Some (x1, y1)) (Some (x2, y2)) (Some (x, y))) \/
  (AddPublicKeys E p q c = Ret (Err ENotOnCurve) /\ point_sum (Some (x1, y1)) (Some (x2, y2)) None).
Proof. exact AddPublicKeys_point. Qed.
Print Assumptions C38_add_is_the_point_sum.

Theorem C38_commutative : forall E, ecdsa_contract E -> forall p q c d,
  curve_key p -> curve_key q -> PNetwork p = PNetwork q ->
  AddPublicKeys E p q c = AddPublicKeys E q p d.
Proof. exact AddPublicKeys_comm. Qed.
Print Assumptions C38_commutative.

Theorem C38_associative : forall E, ecdsa_contract E -> forall p q r pq qr c d e f,
  curve_key p -> curve_key q -> curve_key r ->
  AddPublicKeys E p q c = Ret (Ok pq) -> AddPublicKeys E q r d = Ret (Ok qr) ->
  AddPublicKeys E pq r e = AddPublicKeys E p qr f.
Proof. exact AddPublicKeys_assoc. Qed.
Print Assumptions C38_associative.

Theorem C38_closed : forall E, ecdsa_contract E -> forall p q c r,
  curve_key p -> curve_key q -> AddPublicKeys E p q c = Ret (Ok r) ->
  curve_key r /\ PNetwork r = PNetwork p.
Proof. exact AddPublicKeys_closed. Qed.
Print Assumptions C38_closed.

Theorem C38_networks_must_agree : forall E p q c,
  PNetwork p <> PNetwork q -> AddPublicKeys E p q c = Ret (Err EDifferentNetwork).
Proof. exact AddPublicKeys_networks. Qed.
Print Assumptions C38_networks_must_agree.

Theorem C38_flag_has_no_effect : forall E p q c d, AddPublicKeys E p q c = AddPublicKeys E p q d.
Proof. exact AddPublicKeys_flag. Qed.
Print Assumptions C38_flag_has_no_effect.

Example C38_example : exists pq qr,
  AddPublicKeys fast_lib (pub (key64 2)) (pub (key64 3)) true = Ret (Ok pq) /\
  AddPublicKeys fast_lib (pub (key64 3)) (pub (key64 4)) true = Ret (Ok qr) /\
  AddPublicKeys fast_lib pq (pub (key64 4)) true = Ret (Ok (pub (key64 9))).
Proof.
  exists (pub (key64 5)), (pub (key64 7)).
  split; [vm_compute; reflexivity|]. split; vm_compute; reflexivity.
Qed.
Example C38_example_keys : curve_key (pub (key64 2)).
Proof.
  exists 0xc6047f9441ed7d6d3045406e95c07cd85c778e4b8cef3ca7abac09b95c709ee5.
  exists 0x1ae168fea63dc339a3c58419466ceaeef7f632653266d0e1236431a950cfe52a.
  split; [vm_compute; reflexivity|]. split; [vm_compute; reflexivity|].
  apply curve_point_iff. apply CurveMul.on_curveb_ok. vm_compute. reflexivity.
Qed.
