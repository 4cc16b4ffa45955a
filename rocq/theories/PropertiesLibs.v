(** * Which correct ecdsa library is used does not matter (C104)

    Theorems only; each is closed by an existing lemma. The contract of a library is in
    [EcdsaContract.v], [x_in_field] and the two libraries of the counterexamples in
    [SpecLibs.v], sessions in [SpecSession.v]. *)

From Coq Require Import Lia.
From Verif Require Import GoBase GoNum Model Spec CurveSpec EcdsaContract EcRef EcFacts SpecSession SessionWitness SpecLibs LibsFacts FastLib Witness.
Local Open Scope Z_scope.

(** Two libraries that meet the contract make every call answer alike: on keys that are
    not negative, on texts whose compressed x is in the field, on points of the curve. *)
Theorem C104_GetPublicKey : forall E1 E2, ecdsa_contract E1 -> ecdsa_contract E2 -> forall key,
  (forall k, Key key = Some k -> 0 <= k) -> GetPublicKey E1 key = GetPublicKey E2 key.
Proof. exact libs_GetPublicKey. Qed.
Print Assumptions C104_GetPublicKey.

Theorem C104_PublicFromHex : forall E1 E2, ecdsa_contract E1 -> ecdsa_contract E2 -> forall s net,
  x_in_field s -> PublicFromHex E1 s net = PublicFromHex E2 s net.
Proof. exact libs_PublicFromHex. Qed.
Print Assumptions C104_PublicFromHex.

Theorem C104_AddPublicKeys : forall E1 E2, ecdsa_contract E1 -> ecdsa_contract E2 -> forall p q c,
  (PNetwork p = PNetwork q -> curve_key p /\ curve_key q) -> AddPublicKeys E1 p q c = AddPublicKeys E2 p q c.
Proof. exact libs_AddPublicKeys. Qed.
Print Assumptions C104_AddPublicKeys.

(** So whole programs of calls get the same answers. *)
Theorem C104_sessions : forall E1 E2, ecdsa_contract E1 -> ecdsa_contract E2 -> forall rs rd,
  Forall sensible rs -> session E1 [] rs rd = session E2 [] rs rd.
Proof. exact libs_session. Qed.
Print Assumptions C104_sessions.

(** Outside these bounds the choice of library shows: [lax_lib true] and [lax_lib false]
    meet the contract, and answer differently to each such call. *)
Theorem C104_bounds_are_exact : (forall b, ecdsa_contract (lax_lib b)) /\
  (forall key k, Key key = Some k -> k < 0 -> GetPublicKey (lax_lib true) key <> GetPublicKey (lax_lib false) key) /\
  (forall s net, (66 <= length s)%nat -> (exists x, signed_hex_number (substring s 2 66) x) -> ~ x_in_field s ->
     PublicFromHex (lax_lib true) s net <> PublicFromHex (lax_lib false) s net) /\
  (forall x1 y1 x2 y2 net c, ~ (curve_point (x1, y1) /\ curve_point (x2, y2)) ->
     let p := PublicKey (Some x1) (Some y1) net in let q := PublicKey (Some x2) (Some y2) net in
     AddPublicKeys (lax_lib true) p q c <> AddPublicKeys (lax_lib false) p q c).
Proof. exact (conj lax_lib_meets (conj lax_GetPublicKey (conj lax_PublicFromHex lax_AddPublicKeys))). Qed.
Print Assumptions C104_bounds_are_exact.

(** Two libraries that meet the contract, and a program with every kind of request. *)
Example C104_example_libraries : ecdsa_contract ref_lib /\ ecdsa_contract fast_lib.
Proof. exact (conj ref_lib_meets fast_lib_meets). Qed.
Example C104_example_program : Forall sensible program.
Proof. exact program_sensible. Qed.
Example C104_example_in_field : x_in_field (str "02c6047f9441ed7d6d3045406e95c07cd85c778e4b8cef3ca7abac09b95c709ee5").
Proof. exact example_in_field. Qed.
Example C104_example_not_in_field : exists x,
  let s := str "03ffffffffffffffffffffffffffffffffffffffffffffffffffffffffffffffff" in
  signed_hex_number (substring s 2 66) x /\ ~ x_in_field s.
Proof. exact example_not_in_field. Qed.
