(** * Properties of private keys (C01-C23, C50)

    Theorems only; each is closed by an existing lemma. Specifications:
    [Spec.v]. Model: [Model.v]. *)

From Verif Require Import GoBase GoNum Sha256 Base58 GoRand Model SpecApi Spec.
From Verif Require Import SpecFacts PrivFacts GenFacts CombFacts PrivProps RestatePriv Witness.
Local Open Scope Z_scope.

(** ** C01 *)

Theorem C01_exported_wif_validates : forall h net k,
  PrivateFromHex h net = Ret (Ok k) -> CheckWIF (WIF k) = Ret true.
Proof. exact PrivateFromHex_wif_valid. Qed.
Print Assumptions C01_exported_wif_validates.

(** ... and for every key any function of the package returns. *)
Theorem C01_every_produced_wif_validates : forall k,
  produced k -> CheckWIF (WIF k) = Ret true.
Proof. exact produced_wif_valid. Qed.
Print Assumptions C01_every_produced_wif_validates.

Example C01_example : PrivateFromHex hex1 (Some MainNetwork) = Ret (Ok (key_main hex1)) /\ WIF (key_main hex1) = wif1.
Proof. split; vm_compute; reflexivity. Qed.
Example C01_example_rejects : CheckWIF (str "5KdoUDYDYSYQbC4oyjTszeeEBhjydEsJpdM9v1ziTFAkEeR2oBc") = Ret false.
Proof. vm_compute. reflexivity. Qed.

(** ** C02 *)

Theorem C02_hex_wif_hex : forall h n v k net',
  hex_text (PrivKeyPrefix n) [v] -> PrivateFromHex h (Some n) = Ret (Ok k) ->
  exists k', PrivateFromWIF (WIF k) net' = Ret (Ok k') /\
    Key k' = Key k /\ WIF k' = WIF k /\ KNetwork k' = net' /\
    lower_case_hex (Hex k') /\ equal_up_to_case (Hex k') h.
Proof. exact hex_wif_hex'. Qed.
Print Assumptions C02_hex_wif_hex.

Example C02_example :
  hex_text (PrivKeyPrefix TestNetwork) [xef] /\
  exists k, PrivateFromHex (str "0C28FCA386C7A227600B2FE50B7CAE11EC86D3BF1FBE471BE89827E19D72AA1D") (Some TestNetwork) = Ret (Ok k).
Proof. split; [exact std_prefix_test|]. eexists. vm_compute. reflexivity. Qed.

(** ** C03 *)

Theorem C03_wif_hex_wif : forall w n v k p,
  base58check (v :: p) w -> hex_text (PrivKeyPrefix n) [v] ->
  PrivateFromWIF w (Some n) = Ret (Ok k) ->
  PrivateFromHex (Hex k) (Some n) = Ret (Ok k).
Proof. exact wif_hex_wif. Qed.
Print Assumptions C03_wif_hex_wif.

(** The version byte must be the network's: otherwise the WIF comes back changed. *)
Theorem C03_wif_comes_back_iff_version_matches : forall w n v v' p k,
  base58check (v :: p) w -> hex_text (PrivKeyPrefix n) [v'] ->
  PrivateFromWIF w (Some n) = Ret (Ok k) ->
  exists k', PrivateFromHex (Hex k) (Some n) = Ret (Ok k') /\ Key k' = Key k /\ Hex k' = Hex k /\
             (WIF k' = w <-> v' = v).
Proof. exact wif_hex_wif_iff. Qed.
Print Assumptions C03_wif_comes_back_iff_version_matches.

Example C03_example : exists p k, base58check (x80 :: p) wif1 /\ PrivateFromWIF wif1 (Some MainNetwork) = Ret (Ok k).
Proof.
  exists (match hex_decode hex1 with Ok b => b | Err _ => [] end). eexists.
  split; [apply base58check_encode; vm_compute; reflexivity|vm_compute; reflexivity].
Qed.

(** ** C04 *)

Theorem C04_wif_is_base58check : forall h n k bs,
  PrivateFromHex h (Some n) = Ret (Ok k) -> hex_text (PrivKeyPrefix n ++ h) bs ->
  base58check bs (WIF k).
Proof. exact wif_is_base58check. Qed.
Print Assumptions C04_wif_is_base58check.

Example C04_example : hex_text (PrivKeyPrefix MainNetwork ++ str "AbCd") [x80; xab; xcd] /\
  WIF (key_main (str "AbCd")) = str "5sp4Tz9En4".
Proof. split; [apply hex_text_decode|]; vm_compute; reflexivity. Qed.

(** ** C05 *)

Theorem C05_wif_unambiguous : forall h1 h2 n1 n2 k1 k2 b1 b2,
  PrivateFromHex h1 (Some n1) = Ret (Ok k1) -> PrivateFromHex h2 (Some n2) = Ret (Ok k2) ->
  hex_text (PrivKeyPrefix n1 ++ h1) b1 -> hex_text (PrivKeyPrefix n2 ++ h2) b2 ->
  (WIF k1 = WIF k2 <-> b1 = b2).
Proof. exact wif_unambiguous. Qed.
Print Assumptions C05_wif_unambiguous.

Theorem C05_same_network : forall h1 h2 n k1 k2,
  PrivateFromHex h1 (Some n) = Ret (Ok k1) -> PrivateFromHex h2 (Some n) = Ret (Ok k2) ->
  (WIF k1 = WIF k2 <-> equal_up_to_case h1 h2).
Proof. exact wif_same_net. Qed.
Print Assumptions C05_same_network.

Theorem C05_main_never_test : forall h1 h2 k1 k2,
  PrivateFromHex h1 (Some MainNetwork) = Ret (Ok k1) ->
  PrivateFromHex h2 (Some TestNetwork) = Ret (Ok k2) -> WIF k1 <> WIF k2.
Proof. exact wif_main_test_differ. Qed.
Print Assumptions C05_main_never_test.

Example C05_example : WIF (key_main (str "AbCd")) = WIF (key_main (str "aBcD")) /\ str "AbCd" <> str "aBcD".
Proof. split; [vm_compute; reflexivity|discriminate]. Qed.

(** ** C06, C07 *)

Theorem C06_CheckWIF_true_iff_base58check : forall w,
  CheckWIF w = Ret true <-> exists p, base58check p w.
Proof. exact CheckWIF_true_iff. Qed.
Print Assumptions C06_CheckWIF_true_iff_base58check.

Theorem C06_CheckWIF_exact : forall w,
  (CheckWIF w = Ret true <-> exists p, base58check p w) /\
  (CheckWIF w = Ret false <->
     (~ exists p, base58check p w) /\ ~ exists bs, bs <> [] /\ (length bs < 4)%nat /\ base58_text bs w) /\
  ((exists e, CheckWIF w = Panic e) <->
     exists bs, bs <> [] /\ (length bs < 4)%nat /\ base58_text bs w).
Proof. exact CheckWIF_exact. Qed.
Print Assumptions C06_CheckWIF_exact.

Theorem C07_CheckWIF_panics_iff_short : forall w,
  (exists e, CheckWIF w = Panic e) <->
  exists bs, bs <> [] /\ (length bs < 4)%nat /\ base58_text bs w.
Proof. exact CheckWIF_panic_iff. Qed.
Print Assumptions C07_CheckWIF_panics_iff_short.

(** So "CheckWIF always returns" is false. *)
Theorem C07_CheckWIF_total_refuted : exists w e, CheckWIF w = Panic e.
Proof. exists (str "1"), PSlice. vm_compute. reflexivity. Qed.
Print Assumptions C07_CheckWIF_total_refuted.

Example C06_example : CheckWIF wif1 = Ret true /\ CheckWIF (str "5") = Panic PSlice /\ CheckWIF [] = Ret false /\
  CheckWIF (str "0OIl") = Ret false.
Proof. split; [|split; [|split]]; vm_compute; reflexivity. Qed.
Example C07_example : base58_text [x00; x01] (str "12") /\ CheckWIF (str "12") = Panic PSlice.
Proof.
  split; [|vm_compute; reflexivity]. exists 1%nat, [x01], [1%nat].
  split; [reflexivity|]. split; [discriminate|]. split; [reflexivity|]. split; [constructor; [lia|constructor]|].
  split; [discriminate|reflexivity].
Qed.

(** ** C08 *)

Theorem C08_PrivateFromHex_exact : forall h n,
  ((exists bs, hex_text (PrivKeyPrefix n ++ h) bs) ->
     exists k, PrivateFromHex h (Some n) = Ret (Ok k) /\ Hex k = h /\ KNetwork k = Some n /\
       match Key k with Some z => hex_number h z | None => h = [] end) /\
  ((~ exists bs, hex_text (PrivKeyPrefix n ++ h) bs) ->
     exists e, PrivateFromHex h (Some n) = Ret (Err e)) /\
  PrivateFromHex h None = Panic PNil.
Proof. exact PrivateFromHex_exact. Qed.
Print Assumptions C08_PrivateFromHex_exact.

(** Being spellable means: even length, hex digits only. *)
Theorem C08_spellable_iff : forall s, (exists bs, hex_text s bs) <->
  Nat.even (length s) = true /\ Forall (fun c => exists d, hex_digit c d) s.
Proof. exact hex_text_iff. Qed.
Print Assumptions C08_spellable_iff.

Example C08_example :
  Key (key_main (str "00fF")) = Some 255 /\ Key (key_main []) = None /\
  PrivateFromHex (str "abc") (Some MainNetwork) = Ret (Err EHexLength) /\
  PrivateFromHex (str "xy") (Some MainNetwork) = Ret (Err (EHexByte x78)).
Proof. repeat split; vm_compute; reflexivity. Qed.

(** ** C09 *)

Theorem C09_no_range_check : forall net n, net = MainNetwork \/ net = TestNetwork -> 0 <= n ->
  exists h k, PrivateFromHex h (Some net) = Ret (Ok k) /\ Key k = Some n.
Proof. exact no_range_check_std. Qed.
Print Assumptions C09_no_range_check.

(** "Every accepted key lies in [1, N-1]" is false. *)
Theorem C09_accepted_in_range_refuted : exists h k,
  PrivateFromHex h (Some MainNetwork) = Ret (Ok k) /\ Key k = Some secp_N.
Proof.
  exists (str "fffffffffffffffffffffffffffffffebaaedce6af48a03bbfd25e8cd0364141"). eexists.
  split; vm_compute; reflexivity.
Qed.
Print Assumptions C09_accepted_in_range_refuted.

Example C09_example : exists k, PrivateFromHex (str "01" ++ repeat x30 80) (Some TestNetwork) = Ret (Ok k) /\ Key k = Some (2 ^ 320).
Proof. eexists. split; vm_compute; reflexivity. Qed.

(** ** C10 *)

Theorem C10_PrivateFromWIF_exact : forall w net k,
  PrivateFromWIF w net = Ret (Ok k) <->
  exists v bs, base58check (v :: bs) w /\ WIF k = w /\ KNetwork k = net /\
    hex_text (Hex k) bs /\ lower_case_hex (Hex k) /\
    Key k = match bs with [] => None | _ => Some (bytes_number bs) end.
Proof. exact PrivateFromWIF_exact. Qed.
Print Assumptions C10_PrivateFromWIF_exact.

Theorem C10_network_argument_ignored : forall w net net' k,
  PrivateFromWIF w net = Ret (Ok k) ->
  PrivateFromWIF w net' = Ret (Ok (PrivateKey (Key k) (Hex k) (WIF k) net')).
Proof. exact PrivateFromWIF_network_ignored. Qed.
Print Assumptions C10_network_argument_ignored.

(** "A WIF is only accepted for its own network" is false. *)
Theorem C10_version_checked_refuted : exists h k,
  PrivateFromHex h (Some TestNetwork) = Ret (Ok k) /\
  exists k', PrivateFromWIF (WIF k) (Some MainNetwork) = Ret (Ok k') /\ KNetwork k' = Some MainNetwork.
Proof. exists hex1. eexists. split; [vm_compute; reflexivity|]. eexists. split; vm_compute; reflexivity. Qed.
Print Assumptions C10_version_checked_refuted.

Example C10_example : exists k, PrivateFromWIF wif1 None = Ret (Ok k) /\ Hex k = hex1 /\ KNetwork k = None.
Proof. eexists. split; [|split]; vm_compute; reflexivity. Qed.

(** ** C11 *)

Theorem C11_PrivateFromWIF_outcomes : forall w net,
  ((exists e, PrivateFromWIF w net = Panic e) <->
     base58check [] w \/ exists bs, bs <> [] /\ (length bs < 4)%nat /\ base58_text bs w) /\
  (forall e, PrivateFromWIF w net = Ret (Err e) <-> e = EWifInvalid /\ CheckWIF w = Ret false).
Proof. exact PrivateFromWIF_outcomes. Qed.
Print Assumptions C11_PrivateFromWIF_outcomes.

(** A string that passes CheckWIF can still make the import panic. *)
Theorem C11_import_of_checked_wif_returns_refuted : exists w net e,
  CheckWIF w = Ret true /\ PrivateFromWIF w net = Panic e.
Proof. exists (str "3QJmnh"), (Some MainNetwork), PSlice. split; vm_compute; reflexivity. Qed.
Print Assumptions C11_import_of_checked_wif_returns_refuted.

Example C11_example : base58check [] (str "3QJmnh") /\ PrivateFromWIF (str "1") None = Panic PSlice /\
  PrivateFromWIF (str "5KdoUDYDYSYQbC4oyjTszeeEBhjydEsJpdM9v1ziTFAkEeR2oBc") None = Ret (Err EWifInvalid).
Proof.
  split; [apply base58check_encode; vm_compute; reflexivity|]. split; vm_compute; reflexivity.
Qed.

(** ** C12 *)

Theorem C12_compressed_wif_wrong_key : forall w v ks net,
  length ks = 32%nat -> base58check (v :: ks ++ [x01]) w ->
  exists k, PrivateFromWIF w net = Ret (Ok k) /\
    Key k = Some (256 * bytes_number ks + 1) /\ Key k <> Some (bytes_number ks) /\ length (Hex k) = 66%nat.
Proof. exact compressed_wif'. Qed.
Print Assumptions C12_compressed_wif_wrong_key.

(** The compressed-format WIF of the secret 1. *)
Example C12_example :
  base58check (x80 :: (repeat x00 31 ++ [x01]) ++ [x01]) (str "KwDiBf89QgGbjEhKnhXJuH7LrciVrZi3qYjgd9M7rFU73sVHnoWn") /\
  exists k, PrivateFromWIF (str "KwDiBf89QgGbjEhKnhXJuH7LrciVrZi3qYjgd9M7rFU73sVHnoWn") (Some MainNetwork) = Ret (Ok k) /\ Key k = Some 257.
Proof.
  split; [apply base58check_encode; vm_compute; reflexivity|].
  eexists. split; vm_compute; reflexivity.
Qed.

(** ** C13 *)

Theorem C13_generated_wellformed : forall net rd k rest,
  GeneratePrivateKey net rd = Ret (k, rest) ->
  exists v, Key k = Some v /\ 2 ^ 252 <= v <= secp_N - 2 /\
    length (Hex k) = 64%nat /\ lower_case_hex (Hex k) /\ hex_number (Hex k) v /\
    KNetwork k = net /\ PrivateFromHex (Hex k) net = Ret (Ok k).
Proof. exact generated_wellformed. Qed.
Print Assumptions C13_generated_wellformed.

Example C13_example : exists k, GeneratePrivateKey (Some MainNetwork) stream1 = Ret (k, [x01; x02; x03; x04]) /\
  Key k = Some good_value.
Proof. eexists. split; vm_compute; reflexivity. Qed.

(** ** C14 *)

Theorem C14_generated_wif_shape : forall rd k rest,
  (GeneratePrivateKey (Some MainNetwork) rd = Ret (k, rest) ->
     length (WIF k) = 51%nat /\ hd_error (WIF k) = Some x35 (* '5' *)) /\
  (GeneratePrivateKey (Some TestNetwork) rd = Ret (k, rest) ->
     length (WIF k) = 51%nat /\ hd_error (WIF k) = Some x39 (* '9' *)).
Proof. exact generated_shape. Qed.
Print Assumptions C14_generated_wif_shape.

Theorem C14_main_wif_shape : forall h k,
  length h = 64%nat -> PrivateFromHex h (Some MainNetwork) = Ret (Ok k) ->
  length (WIF k) = 51%nat /\ hd_error (WIF k) = Some x35.
Proof. exact wif_main_shape. Qed.
Print Assumptions C14_main_wif_shape.

Theorem C14_test_wif_shape : forall h k,
  length h = 64%nat -> PrivateFromHex h (Some TestNetwork) = Ret (Ok k) ->
  length (WIF k) = 51%nat /\ hd_error (WIF k) = Some x39.
Proof. exact wif_test_shape. Qed.
Print Assumptions C14_test_wif_shape.

Example C14_example : length hex1 = 64%nat /\ exists k, PrivateFromHex hex1 (Some TestNetwork) = Ret (Ok k) /\
  exists rest k', GeneratePrivateKey (Some TestNetwork) stream1 = Ret (k', rest).
Proof.
  split; [reflexivity|]. eexists. split; [vm_compute; reflexivity|].
  do 2 eexists. vm_compute. reflexivity.
Qed.

(** ** C15 *)

Theorem C15_first_block_in_range : forall n bs rd v rest,
  hex_text (PrivKeyPrefix n) bs ->
  (exists k, GeneratePrivateKey (Some n) rd = Ret (k, rest) /\ Key k = Some v) <->
  first_block 32 (fun z => 2 ^ 252 <= z <= secp_N - 2) rd v rest.
Proof. exact generate_iff_first_block. Qed.
Print Assumptions C15_first_block_in_range.

Theorem C15_reachable_keys : forall n bs v,
  hex_text (PrivKeyPrefix n) bs ->
  (exists rd k rest, GeneratePrivateKey (Some n) rd = Ret (k, rest) /\ Key k = Some v) <->
  2 ^ 252 <= v <= secp_N - 2.
Proof. exact generate_reaches. Qed.
Print Assumptions C15_reachable_keys.

(** The recursion bound of the model is not observable. *)
Theorem C15_fuel_irrelevant : forall net rd f, (length rd < f)%nat ->
  generate_fuel f net rd = GeneratePrivateKey net rd /\ GeneratePrivateKey net rd <> Panic PFuel.
Proof. exact GeneratePrivateKey_fuel. Qed.
Print Assumptions C15_fuel_irrelevant.

Example C15_example : hex_text (PrivKeyPrefix TestNetwork) [xef] /\ 2 ^ 252 <= good_value <= secp_N - 2 /\
  exists k, GeneratePrivateKey (Some TestNetwork) stream1 = Ret (k, [x01; x02; x03; x04]) /\ Key k = Some good_value.
Proof.
  split; [exact std_prefix_test|]. split; [vm_compute; split; discriminate|].
  eexists. split; vm_compute; reflexivity.
Qed.

(** ** C16 *)

Theorem C16_bad_prefix_never_returns : forall n rd r,
  (~ exists bs, hex_text (PrivKeyPrefix n) bs) -> GeneratePrivateKey (Some n) rd <> Ret r.
Proof. exact generate_never_returns. Qed.
Print Assumptions C16_bad_prefix_never_returns.

Example C16_example : (~ exists bs, hex_text (PrivKeyPrefix (Network (str "8") (str "00"))) bs) /\
  first_block 32 (fun z => 2 ^ 252 <= z <= secp_N - 2) (good_block ++ []) good_value [].
Proof.
  split.
  - intros [bs H]. apply hex_text_decode in H. discriminate H.
  - replace good_value with (bytes_number good_block) by (vm_compute; reflexivity).
    apply first_here; [reflexivity|]. vm_compute. split; discriminate.
Qed.

(** ** C17, C18 *)

Theorem C17_add_mod_N : forall a b c, AddPrivateKeys a b = Ret (Ok c) ->
  exists x y, Key a = Some x /\ Key b = Some y /\ KNetwork a = KNetwork b /\
    Key c = Some ((x + y) mod secp_N) /\ KNetwork c = KNetwork a /\
    shortest_hex (Hex c) ((x + y) mod secp_N) /\
    PrivateFromHex (Hex c) (KNetwork a) = Ret (Ok c).
Proof. exact (combine_success Z.add). Qed.
Print Assumptions C17_add_mod_N.

Theorem C18_mul_mod_N : forall a b c, MultiplyPrivateKeys a b = Ret (Ok c) ->
  exists x y, Key a = Some x /\ Key b = Some y /\ KNetwork a = KNetwork b /\
    Key c = Some ((x * y) mod secp_N) /\ KNetwork c = KNetwork a /\
    shortest_hex (Hex c) ((x * y) mod secp_N) /\
    PrivateFromHex (Hex c) (KNetwork a) = Ret (Ok c).
Proof. exact (combine_success Z.mul). Qed.
Print Assumptions C18_mul_mod_N.

Example C17_C18_example :
  (exists c, AddPrivateKeys (key_main hex1) (key_main (str "fffffffffffffffffffffffffffffffebaaedce6af48a03bbfd25e8cd0364140")) = Ret (Ok c)) /\
  (exists c, MultiplyPrivateKeys (key_main hex1) (key_main (str "fffffffffffffffffffffffffffffffebaaedce6af48a03bbfd25e8cd036413f")) = Ret (Ok c)).
Proof. split; eexists; vm_compute; reflexivity. Qed.

(** ** C19 *)

Theorem C19_add_commutative : forall a b, AddPrivateKeys a b = AddPrivateKeys b a.
Proof. exact add_comm. Qed.
Print Assumptions C19_add_commutative.

Theorem C19_mul_commutative : forall a b, MultiplyPrivateKeys a b = MultiplyPrivateKeys b a.
Proof. exact mul_comm. Qed.
Print Assumptions C19_mul_commutative.

Example C19_example : exists c, AddPrivateKeys (key_main (str "40")) (key_main (str "80")) = Ret (Ok c) /\
  AddPrivateKeys (key_main (str "80")) (key_main (str "40")) = Ret (Ok c) /\ Key c = Some 192.
Proof. eexists. split; [|split]; vm_compute; reflexivity. Qed.

(** ** C20 *)

Theorem C20_add_associative : forall a b c ab bc r s,
  AddPrivateKeys a b = Ret (Ok ab) -> AddPrivateKeys ab c = Ret (Ok r) ->
  AddPrivateKeys b c = Ret (Ok bc) -> AddPrivateKeys a bc = Ret (Ok s) -> r = s.
Proof. exact add_assoc. Qed.
Print Assumptions C20_add_associative.

Theorem C20_mul_associative : forall a b c ab bc r s,
  MultiplyPrivateKeys a b = Ret (Ok ab) -> MultiplyPrivateKeys ab c = Ret (Ok r) ->
  MultiplyPrivateKeys b c = Ret (Ok bc) -> MultiplyPrivateKeys a bc = Ret (Ok s) -> r = s.
Proof. exact mul_assoc. Qed.
Print Assumptions C20_mul_associative.

Theorem C20_distributive : forall a b c bc ab ac r s,
  AddPrivateKeys b c = Ret (Ok bc) -> MultiplyPrivateKeys a bc = Ret (Ok r) ->
  MultiplyPrivateKeys a b = Ret (Ok ab) -> MultiplyPrivateKeys a c = Ret (Ok ac) ->
  AddPrivateKeys ab ac = Ret (Ok s) -> r = s.
Proof. exact mul_add_distr. Qed.
Print Assumptions C20_distributive.

Example C20_example :
  let a := key_main (str "40") in let b := key_main (str "80") in let c := key_main (str "70") in
  exists bc r ab ac s, AddPrivateKeys b c = Ret (Ok bc) /\ MultiplyPrivateKeys a bc = Ret (Ok r) /\
    MultiplyPrivateKeys a b = Ret (Ok ab) /\ MultiplyPrivateKeys a c = Ret (Ok ac) /\
    AddPrivateKeys ab ac = Ret (Ok s) /\
  exists ab' r1 bc' r2, AddPrivateKeys a (key_main (str "20")) = Ret (Ok ab') /\
    AddPrivateKeys ab' (key_main (str "10")) = Ret (Ok r1) /\
    AddPrivateKeys (key_main (str "20")) (key_main (str "10")) = Ret (Ok bc') /\ AddPrivateKeys a bc' = Ret (Ok r2) /\
  exists m1 s1 m2 s2, MultiplyPrivateKeys a b = Ret (Ok m1) /\ MultiplyPrivateKeys m1 (key_main (str "90")) = Ret (Ok s1) /\
    MultiplyPrivateKeys b (key_main (str "90")) = Ret (Ok m2) /\ MultiplyPrivateKeys a m2 = Ret (Ok s2).
Proof.
  cbv zeta.
  do 5 eexists. do 5 (split; [vm_compute; reflexivity|]).
  do 4 eexists. do 4 (split; [vm_compute; reflexivity|]).
  do 4 eexists. do 3 (split; [vm_compute; reflexivity|]). vm_compute. reflexivity.
Qed.

(** ** C21 *)

Theorem C21_add_outcome : forall a b n1 n2 bs x y,
  KNetwork a = Some n1 -> KNetwork b = Some n2 -> hex_text (PrivKeyPrefix n1) bs ->
  Key a = Some x -> Key b = Some y ->
  (n1 <> n2 -> AddPrivateKeys a b = Ret (Err EDifferentNetwork)) /\
  (n1 = n2 -> equal_up_to_case (WIF a) (WIF b) -> AddPrivateKeys a b = Ret (Err EIdentical)) /\
  (n1 = n2 -> ~ equal_up_to_case (WIF a) (WIF b) ->
   forall s, shortest_hex s ((x + y) mod secp_N) ->
     (Nat.odd (length s) = true -> AddPrivateKeys a b = Ret (Err EHexLength)) /\
     (Nat.odd (length s) = false -> exists c, AddPrivateKeys a b = Ret (Ok c))).
Proof. exact (combine_outcome Z.add). Qed.
Print Assumptions C21_add_outcome.

Theorem C21_mul_outcome : forall a b n1 n2 bs x y,
  KNetwork a = Some n1 -> KNetwork b = Some n2 -> hex_text (PrivKeyPrefix n1) bs ->
  Key a = Some x -> Key b = Some y ->
  (n1 <> n2 -> MultiplyPrivateKeys a b = Ret (Err EDifferentNetwork)) /\
  (n1 = n2 -> equal_up_to_case (WIF a) (WIF b) -> MultiplyPrivateKeys a b = Ret (Err EIdentical)) /\
  (n1 = n2 -> ~ equal_up_to_case (WIF a) (WIF b) ->
   forall s, shortest_hex s ((x * y) mod secp_N) ->
     (Nat.odd (length s) = true -> MultiplyPrivateKeys a b = Ret (Err EHexLength)) /\
     (Nat.odd (length s) = false -> exists c, MultiplyPrivateKeys a b = Ret (Ok c))).
Proof. exact (combine_outcome Z.mul). Qed.
Print Assumptions C21_mul_outcome.

(** With any prefix, hex or not: what counts is prefix and result together. *)
Theorem C21_add_any_prefix : forall a b n x y s,
  KNetwork a = Some n -> KNetwork b = Some n -> Key a = Some x -> Key b = Some y ->
  ~ equal_up_to_case (WIF a) (WIF b) -> shortest_hex s ((x + y) mod secp_N) ->
  ((exists bs, hex_text (PrivKeyPrefix n ++ s) bs) -> exists c, AddPrivateKeys a b = Ret (Ok c)) /\
  ((~ exists bs, hex_text (PrivKeyPrefix n ++ s) bs) -> exists e, AddPrivateKeys a b = Ret (Err e)).
Proof. exact (combine_any_prefix Z.add). Qed.
Print Assumptions C21_add_any_prefix.

Theorem C21_mul_any_prefix : forall a b n x y s,
  KNetwork a = Some n -> KNetwork b = Some n -> Key a = Some x -> Key b = Some y ->
  ~ equal_up_to_case (WIF a) (WIF b) -> shortest_hex s ((x * y) mod secp_N) ->
  ((exists bs, hex_text (PrivKeyPrefix n ++ s) bs) -> exists c, MultiplyPrivateKeys a b = Ret (Ok c)) /\
  ((~ exists bs, hex_text (PrivKeyPrefix n ++ s) bs) -> exists e, MultiplyPrivateKeys a b = Ret (Err e)).
Proof. exact (combine_any_prefix Z.mul). Qed.
Print Assumptions C21_mul_any_prefix.

(** A network with prefix "8" takes the results with an odd number of digits. *)
Example C21_example :
  let n := Network (str "8") (str "00") in
  exists c, AddPrivateKeys (key_on n (str "040")) (key_on n (str "080")) = Ret (Err EHexLength) /\
    AddPrivateKeys (key_on n (str "080")) (key_on n (str "090")) = Ret (Ok c) /\ Hex c = str "110" /\
    AddPrivateKeys (key_main (str "40")) (key_main (str "80")) = Ret (Ok (key_main (str "c0"))) /\
    AddPrivateKeys (key_main (str "80")) (key_main (str "90")) = Ret (Err EHexLength).
Proof.
  cbv zeta. exists (key_on (Network (str "8") (str "00")) (str "110")).
  split; [vm_compute; reflexivity|]. split; [vm_compute; reflexivity|]. split; [vm_compute; reflexivity|].
  split; vm_compute; reflexivity.
Qed.

(** "Two different valid keys can always be added" is false: here the sum is
    2^248, whose shortest hex has 63 digits. *)
Theorem C21_distinct_valid_keys_add_refuted : exists a b x y,
  produced a /\ produced b /\ KNetwork a = KNetwork b /\ Key a = Some x /\ Key b = Some y /\
  1 <= x < secp_N /\ 1 <= y < secp_N /\ x <> y /\
  length (Hex a) = 64%nat /\ length (Hex b) = 64%nat /\
  AddPrivateKeys a b = Ret (Err EHexLength).
Proof.
  exists (key_main (str "00ffffffffffffffffffffffffffffffffffffffffffffffffffffffffffffff")),
         (key_main (str "0000000000000000000000000000000000000000000000000000000000000001")).
  do 2 eexists.
  split; [apply (produced_hex (str "00ffffffffffffffffffffffffffffffffffffffffffffffffffffffffffffff") (Some MainNetwork)); vm_compute; reflexivity|].
  split; [apply (produced_hex (str "0000000000000000000000000000000000000000000000000000000000000001") (Some MainNetwork)); vm_compute; reflexivity|].
  split; [vm_compute; reflexivity|]. split; [vm_compute; reflexivity|]. split; [vm_compute; reflexivity|].
  split; [vm_compute; split; [discriminate|reflexivity]|].
  split; [vm_compute; split; [discriminate|reflexivity]|].
  split; [vm_compute; discriminate|]. split; [vm_compute; reflexivity|]. split; [vm_compute; reflexivity|].
  vm_compute. reflexivity.
Qed.
Print Assumptions C21_distinct_valid_keys_add_refuted.

(** ** C22 *)

Theorem C22_add_wif_51_iff : forall a b c n z,
  n = MainNetwork \/ n = TestNetwork -> KNetwork a = Some n ->
  AddPrivateKeys a b = Ret (Ok c) -> Key c = Some z ->
  (length (WIF c) = 51%nat <-> 2 ^ 252 <= z).
Proof. exact (combine_wif_51 Z.add). Qed.
Print Assumptions C22_add_wif_51_iff.

Theorem C22_mul_wif_51_iff : forall a b c n z,
  n = MainNetwork \/ n = TestNetwork -> KNetwork a = Some n ->
  MultiplyPrivateKeys a b = Ret (Ok c) -> Key c = Some z ->
  (length (WIF c) = 51%nat <-> 2 ^ 252 <= z).
Proof. exact (combine_wif_51 Z.mul). Qed.
Print Assumptions C22_mul_wif_51_iff.

(** The WIF of the result is the usual 32-byte WIF of its number only then. *)
Theorem C22_add_wif_standard_iff : forall a b c n v z ks w,
  n = MainNetwork \/ n = TestNetwork -> KNetwork a = Some n -> hex_text (PrivKeyPrefix n) [v] ->
  AddPrivateKeys a b = Ret (Ok c) -> Key c = Some z -> octets 32 z ks -> base58check (v :: ks) w ->
  (WIF c = w <-> 2 ^ 252 <= z).
Proof. exact (combine_wif_nonstandard Z.add). Qed.
Print Assumptions C22_add_wif_standard_iff.

Theorem C22_mul_wif_standard_iff : forall a b c n v z ks w,
  n = MainNetwork \/ n = TestNetwork -> KNetwork a = Some n -> hex_text (PrivKeyPrefix n) [v] ->
  MultiplyPrivateKeys a b = Ret (Ok c) -> Key c = Some z -> octets 32 z ks -> base58check (v :: ks) w ->
  (WIF c = w <-> 2 ^ 252 <= z).
Proof. exact (combine_wif_nonstandard Z.mul). Qed.
Print Assumptions C22_mul_wif_standard_iff.

Example C22_example :
  length (WIF (get no_key (AddPrivateKeys (key_main (str "10")) (key_main (str "20"))))) = 9%nat /\
  Key (get no_key (AddPrivateKeys (key_main (str "10")) (key_main (str "20")))) = Some 48.
Proof. split; vm_compute; reflexivity. Qed.

(** A result with a standard WIF. *)
Example C22_example_standard : exists c ks, octets 32 (2 ^ 255 + 16) ks /\
  AddPrivateKeys (key_main (str "10")) (key_main (x38 :: repeat x30 63)) = Ret (Ok c) /\
  Key c = Some (2 ^ 255 + 16) /\ base58check (x80 :: ks) (WIF c).
Proof.
  exists (get no_key (AddPrivateKeys (key_main (str "10")) (key_main (x38 :: repeat x30 63)))).
  exists (x80 :: repeat x00 30 ++ [x10]).
  split; [split; vm_compute; reflexivity|]. split; [vm_compute; reflexivity|]. split; [vm_compute; reflexivity|].
  apply base58check_encode. vm_compute. reflexivity.
Qed.

(** ** C23 *)

Theorem C23_same_wif_refused : forall a b, KNetwork a = KNetwork b -> WIF a = WIF b ->
  AddPrivateKeys a b = Ret (Err EIdentical) /\ MultiplyPrivateKeys a b = Ret (Err EIdentical).
Proof. exact same_wif_refused. Qed.
Print Assumptions C23_same_wif_refused.

(** "Only identical keys are refused as identical" is false. *)
Theorem C23_only_identical_refused_refuted :
  exists h1 h2 k1 k2 n1 n2,
    PrivateFromHex h1 (Some MainNetwork) = Ret (Ok k1) /\ PrivateFromHex h2 (Some MainNetwork) = Ret (Ok k2) /\
    length h1 = 64%nat /\ length h2 = 64%nat /\
    Key k1 = Some n1 /\ Key k2 = Some n2 /\ 1 <= n1 < secp_N /\ 1 <= n2 < secp_N /\ n1 <> n2 /\
    AddPrivateKeys k1 k2 = Ret (Err EIdentical) /\ MultiplyPrivateKeys k1 k2 = Ret (Err EIdentical).
Proof. exact different_keys_refused. Qed.
Print Assumptions C23_only_identical_refused_refuted.

Example C23_example : AddPrivateKeys (key_main (str "ab")) (key_main (str "AB")) = Ret (Err EIdentical) /\
  WIF (key_main (str "ab")) = WIF (key_main (str "AB")).
Proof. split; vm_compute; reflexivity. Qed.

(** ** C50 *)

Theorem C50_random_number : forall rd v rest,
  generateRandomBigInt rd = Ret (v, rest) <->
  first_block 32 (fun z => z < secp_N - 1) rd v rest.
Proof. exact random_number. Qed.
Print Assumptions C50_random_number.

Theorem C50_panics_iff_no_block : forall rd,
  (exists e, generateRandomBigInt rd = Panic e) <->
  ~ exists v rest, first_block 32 (fun z => z < secp_N - 1) rd v rest.
Proof. exact random_panics. Qed.
Print Assumptions C50_panics_iff_no_block.

Theorem C50_range_and_blocks : forall rd v rest,
  generateRandomBigInt rd = Ret (v, rest) ->
  0 <= v <= secp_N - 2 /\ exists m, (0 < m)%nat /\ length rd = (m * 32 + length rest)%nat.
Proof. exact random_range. Qed.
Print Assumptions C50_range_and_blocks.

Example C50_example : exists rest, generateRandomBigInt stream1 = Ret (set_bytes (repeat x11 31), rest).
Proof. eexists. vm_compute. reflexivity. Qed.
