(** * Each call of the Go source, as a caller sees it (C96)

    Theorems only; each is closed by an existing lemma. [ends] runs the text of
    the Go source ([GoSource.v], [GoSem.v]); [SpecGo.v] says what returning,
    refusing and crashing are; the formats are those of [Spec.v], the curve that
    of [CurveSpec.v]. No statement mentions a function of [Model.v]. The
    hypothesis [curve_ready] holds once the package is initialised, see [C94_init]. *)

From Coq Require Import String.
From Verif Require Import GoBase GoNum Sha256 Model CurveSpec EcdsaContract GoSyntax GoSource GoSem SpecSource SpecMore SpecGo Spec.
From Verif Require Import SpecFacts PrivFacts MnemFacts MnemProps MnemWitness WordsEnglish SourceAll SourceWitness FastLib GoFacts.
Local Open Scope Z_scope.

Theorem C96_CheckWIF : forall E w s,
  ((exists new, returns E "CheckWIF" [VStr w] s [VBool true] new) <-> exists p, base58check p w) /\
  ((exists new, returns E "CheckWIF" [VStr w] s [VBool false] new) <->
     (~ exists p, base58check p w) /\ ~ short_text w) /\
  (crashes E "CheckWIF" [VStr w] s <-> short_text w).
Proof. exact seen_CheckWIF. Qed.
Print Assumptions C96_CheckWIF.

Theorem C96_PrivateFromHex : forall E t v n s, is_net (heap s) v (Some n) ->
  (forall bs, hex_text (PrivKeyPrefix n ++ t) bs -> exists k,
     returns_priv E "PrivateFromHex" [VStr t; v] s k /\ Hex k = t /\ KNetwork k = Some n /\
     match Key k with Some z => hex_number t z | None => t = [] end /\ base58check bs (WIF k)) /\
  (unspellable (PrivKeyPrefix n ++ t) -> exists e, refuses E "PrivateFromHex" [VStr t; v] s VNil e) /\
  crashes E "PrivateFromHex" [VStr t; VNil] s.
Proof. exact seen_PrivateFromHex. Qed.
Print Assumptions C96_PrivateFromHex.

(** The first byte of the payload is dropped, whatever it is. *)
Theorem C96_PrivateFromWIF : forall E w v net s, is_net (heap s) v net ->
  (forall version bs, base58check (version :: bs) w -> exists k,
     returns_priv E "PrivateFromWIF" [VStr w; v] s k /\ WIF k = w /\ KNetwork k = net /\
     hex_text (Hex k) bs /\ lower_case_hex (Hex k) /\
     Key k = match bs with [] => None | _ => Some (bytes_number bs) end) /\
  ((~ exists p, base58check p w) -> ~ short_text w -> refuses E "PrivateFromWIF" [VStr w; v] s VNil EWifInvalid) /\
  (base58check [] w \/ short_text w -> crashes E "PrivateFromWIF" [VStr w; v] s).
Proof. exact seen_PrivateFromWIF. Qed.
Print Assumptions C96_PrivateFromWIF.

(** The key is the first usable number among the blocks of 32 random bytes, and
    what follows that block is left for later calls. *)
Theorem C96_GeneratePrivateKey : forall E v n bs s, is_net (heap s) v (Some n) -> hex_text (PrivKeyPrefix n) bs ->
  (forall z rest, first_block 32 usable (source s) z rest -> exists p k ks new,
     ends E "GeneratePrivateKey" [v] s (Done [p] (State (heap s ++ new) rest (logged s))) /\
     is_priv (heap s ++ new) p k /\ is_new s p /\
     Key k = Some z /\ KNetwork k = Some n /\ octets 32 z ks /\ hex_text (Hex k) ks /\ lower_case_hex (Hex k) /\
     base58check (bs ++ ks) (WIF k)) /\
  ((~ exists z rest, first_block 32 usable (source s) z rest) -> crashes E "GeneratePrivateKey" [v] s).
Proof. exact seen_Generate. Qed.
Print Assumptions C96_GeneratePrivateKey.

(** The sum modulo N, written in the fewest hex digits; an error when prefix and
    digits do not make whole bytes. *)
Theorem C96_AddPrivateKeys : forall E s v1 a v2 b,
  curve_ready (heap s) -> is_priv (heap s) v1 a -> is_priv (heap s) v2 b ->
  forall n1 n2 x y, KNetwork a = Some n1 -> KNetwork b = Some n2 -> Key a = Some x -> Key b = Some y ->
  (n1 <> n2 -> refuses E "AddPrivateKeys" [v1; v2] s VNil EDifferentNetwork) /\
  (n1 = n2 -> equal_up_to_case (WIF a) (WIF b) -> refuses E "AddPrivateKeys" [v1; v2] s VNil EIdentical) /\
  (n1 = n2 -> ~ equal_up_to_case (WIF a) (WIF b) -> forall t, shortest_hex t ((x + y) mod secp_N) ->
     (forall bs, hex_text (PrivKeyPrefix n1 ++ t) bs -> exists w, base58check bs w /\
        returns_priv E "AddPrivateKeys" [v1; v2] s (PrivateKey (Some ((x + y) mod secp_N)) t w (Some n1))) /\
     (unspellable (PrivKeyPrefix n1 ++ t) -> exists e, refuses E "AddPrivateKeys" [v1; v2] s VNil e)).
Proof. exact (fun E s v1 a v2 b C H1 H2 => seen_combine E _ Z.add s v1 a v2 b (seen_AddPrivateKeys E s v1 a v2 b C H1 H2)). Qed.
Print Assumptions C96_AddPrivateKeys.

Theorem C96_MultiplyPrivateKeys : forall E s v1 a v2 b,
  curve_ready (heap s) -> is_priv (heap s) v1 a -> is_priv (heap s) v2 b ->
  forall n1 n2 x y, KNetwork a = Some n1 -> KNetwork b = Some n2 -> Key a = Some x -> Key b = Some y ->
  (n1 <> n2 -> refuses E "MultiplyPrivateKeys" [v1; v2] s VNil EDifferentNetwork) /\
  (n1 = n2 -> equal_up_to_case (WIF a) (WIF b) -> refuses E "MultiplyPrivateKeys" [v1; v2] s VNil EIdentical) /\
  (n1 = n2 -> ~ equal_up_to_case (WIF a) (WIF b) -> forall t, shortest_hex t ((x * y) mod secp_N) ->
     (forall bs, hex_text (PrivKeyPrefix n1 ++ t) bs -> exists w, base58check bs w /\
        returns_priv E "MultiplyPrivateKeys" [v1; v2] s (PrivateKey (Some ((x * y) mod secp_N)) t w (Some n1))) /\
     (unspellable (PrivKeyPrefix n1 ++ t) -> exists e, refuses E "MultiplyPrivateKeys" [v1; v2] s VNil e)).
Proof. exact (fun E s v1 a v2 b C H1 H2 => seen_combine E _ Z.mul s v1 a v2 b (seen_MultiplyPrivateKeys E s v1 a v2 b C H1 H2)). Qed.
Print Assumptions C96_MultiplyPrivateKeys.

Theorem C96_GetPublicKey : forall E v key k s,
  ecdsa_contract (E secp256k1_params) -> curve_ready (heap s) -> is_priv (heap s) v key ->
  Key key = Some k -> 0 <= k ->
  (~ (n256k1 | k) -> exists p x y new,
     returns E "PrivateKey.GetPublicKey" [v] s [p; VBool true] new /\
     is_pub (heap s ++ new) p (PublicKey (Some x) (Some y) (KNetwork key)) /\ is_new s p /\
     curve_point (x, y) /\ multiple (Some G256k1) k (Some (x, y))) /\
  ((n256k1 | k) -> exists new, returns E "PrivateKey.GetPublicKey" [v] s [VNil; VBool false] new).
Proof. exact seen_GetPublicKey. Qed.
Print Assumptions C96_GetPublicKey.

Theorem C96_PublicFromHex : forall E t v net s, curve_ready (heap s) -> is_net (heap s) v net ->
  (ecdsa_contract (E secp256k1_params) ->
   forall (b : bool) x, substring t 0 2 = str (if b then "02" else "03") -> (66 <= length t)%nat ->
     hex_number (substring t 2 66) x -> x < p256k1 ->
     ((exists y, curve_point (x, y)) -> exists y, curve_point (x, y) /\ Z.even y = b /\
        returns_pub E "PublicFromHex" [VStr t; v] s (PublicKey (Some x) (Some y) net)) /\
     ((~ exists y, curve_point (x, y)) -> refuses E "PublicFromHex" [VStr t; v] s VNil ENotOnSecp)) /\
  (forall x y, substring t 0 2 = str "04" -> (130 <= length t)%nat ->
     hex_number (substring t 2 66) x -> hex_number (substring t 66 130) y ->
     returns_pub E "PublicFromHex" [VStr t; v] s (PublicKey (Some x) (Some y) net)) /\
  ((2 <= length t)%nat -> substring t 0 2 <> str "02" -> substring t 0 2 <> str "03" -> substring t 0 2 <> str "04" ->
     refuses E "PublicFromHex" [VStr t; v] s VNil EUnsupportedFormat) /\
  (crashes E "PublicFromHex" [VStr t; v] s <->
     (length t < 2)%nat \/
     (substring t 0 2 = str "04" /\ (length t < 130)%nat) \/
     ((substring t 0 2 = str "02" \/ substring t 0 2 = str "03") /\
      ((length t < 66)%nat \/ ~ exists x, signed_hex_number (substring t 2 66) x))).
Proof. exact seen_PublicFromHex. Qed.
Print Assumptions C96_PublicFromHex.

Theorem C96_AddPublicKeys : forall E v1 v2 x1 y1 x2 y2 n1 n2 c s,
  ecdsa_contract (E secp256k1_params) -> curve_ready (heap s) ->
  is_pub (heap s) v1 (PublicKey (Some x1) (Some y1) n1) -> is_pub (heap s) v2 (PublicKey (Some x2) (Some y2) n2) ->
  (n1 <> n2 -> refuses E "AddPublicKeys" [v1; v2; VBool c] s VNil EDifferentNetwork) /\
  (n1 = n2 -> curve_point (x1, y1) -> curve_point (x2, y2) ->
     (forall x y, point_sum (Some (x1, y1)) (Some (x2, y2)) (Some (x, y)) ->
        returns_pub E "AddPublicKeys" [v1; v2; VBool c] s (PublicKey (Some x) (Some y) n1)) /\
     (point_sum (Some (x1, y1)) (Some (x2, y2)) None ->
        refuses E "AddPublicKeys" [v1; v2; VBool c] s VNil ENotOnCurve)).
Proof. exact seen_AddPublicKeys. Qed.
Print Assumptions C96_AddPublicKeys.

Theorem C96_Format : forall E v x y net c s, is_pub (heap s) v (PublicKey (Some x) (Some y) net) ->
  0 <= x < 2 ^ 256 -> 0 <= y < 2 ^ 256 -> exists t bs new,
  returns E "PublicKey.Format" [v; VBool c] s [VStr t] new /\ sec1 c x y bs /\ hex_text t bs /\ lower_case_hex t.
Proof. exact seen_Format. Qed.
Print Assumptions C96_Format.

Theorem C96_Address : forall E v x y n c s, is_pub (heap s) v (PublicKey (Some x) (Some y) (Some n)) ->
  0 <= x < 2 ^ 256 -> 0 <= y < 2 ^ 256 ->
  (forall pre, hex_text (PubKeyHashPrefix n) pre -> exists a bs new,
     returns E "PublicKey.Address" [v; VBool c] s [VStr a; VNil] new /\ sec1 c x y bs /\ base58check (pre ++ hash160 bs) a) /\
  (unspellable (PubKeyHashPrefix n) -> exists e, refuses E "PublicKey.Address" [v; VBool c] s (VStr []) e).
Proof. exact seen_Address. Qed.
Print Assumptions C96_Address.

(** Three words for every four random bytes [e]: the bits of [e] and the checksum
    bits, the whole reversed. *)
Theorem C96_NewMnemonic : forall E k l s, (4 <= k <= 8)%nat ->
  let call := "NewMnemonic"%string in let args := [VInt (Z.of_nat (3 * k)); VStrs l] in
  let e := firstn (4 * k) (source s) in
  let h := drop_zero_bits (bits (sha256 (drop_zero_bytes e))) in
  let B := rev (bits e ++ firstn k h) in
  ((length (source s) < 4 * k)%nat -> exists new rest,
     ends E call args s (Done [VStr []; VErr ERandRead] (State (heap s ++ new) rest (logged s)))) /\
  ((4 * k <= length (source s))%nat ->
     (forall ws, (k <= length h)%nat -> phrase_bits l ws B -> Forall (fun w => ~ In x20 w) ws -> exists t new,
        ends E call args s (Done [VStr t; VNil] (State (heap s ++ new) (skipn (4 * k) (source s)) (logged s))) /\
        spaced ws t) /\
     (crashes E call args s <-> (length h < k)%nat \/ ~ exists ws, phrase_bits l ws B)).
Proof. exact seen_NewMnemonic. Qed.
Print Assumptions C96_NewMnemonic.

(** The four ends of NewSeedFromMnemonic; none of them is a seed. *)
Theorem C96_NewSeedFromMnemonic : forall E m pass l ws s, spaced ws m ->
  let call := "NewSeedFromMnemonic"%string in let args := [VStr m; VStr pass; VStrs l] in
  let gives vs := exists new lines, ends E call args s (Done vs (State (heap s ++ new) (source s) (logged s ++ lines))) in
  (exists w, In w ws /\ ~ In w l) /\ gives [VNil; VErr EInvalidMnemonic] \/
  exists Bs, Forall2 (word_bits l) ws Bs /\
    ((length (concat Bs) mod 4 <> 0)%nat /\ crashes E call args s \/
     (length (concat Bs) mod 8 = 4)%nat /\ gives [VNil; VErr EHexLength] \/
     exists d c, concat Bs = bits (d ++ [c]) /\
       (hd_error (sha256 d) = Some c /\ gives [VNil; VNil] \/
        hd_error (sha256 d) <> Some c /\ gives [VNil; VErr EInvalidChecksum])).
Proof. exact seen_Seed. Qed.
Print Assumptions C96_NewSeedFromMnemonic.

(** Other numbers of words, and nil lists. *)
Theorem C96_mnemonic_refusals : forall E words l s m pass,
  (~ In words [12; 15; 18; 21; 24] -> refuses E "NewMnemonic" [VInt words; VStrs l] s (VStr []) EUnsupportedLength) /\
  refuses E "NewMnemonic" [VInt words; VNil] s (VStr []) EInvalidWordlist /\
  refuses E "NewSeedFromMnemonic" [VStr m; VStr pass; VNil] s VNil EInvalidMnemonic.
Proof. exact seen_mnemonic_refusals. Qed.
Print Assumptions C96_mnemonic_refusals.

(** Nil keys. *)
Theorem C96_nil_private : forall E s v k, curve_ready (heap s) -> is_priv_ptr (heap s) v k ->
  crashes E "PrivateKey.GetPublicKey" [VNil] s /\
  crashes E "AddPrivateKeys" [VNil; v] s /\ crashes E "AddPrivateKeys" [v; VNil] s /\
  crashes E "MultiplyPrivateKeys" [VNil; v] s /\ crashes E "MultiplyPrivateKeys" [v; VNil] s.
Proof. exact seen_nil_private. Qed.
Print Assumptions C96_nil_private.

Theorem C96_nil_public : forall E s v p c, curve_ready (heap s) -> is_pub_ptr (heap s) v p ->
  crashes E "PublicKey.Format" [VNil; VBool c] s /\ crashes E "PublicKey.Address" [VNil; VBool c] s /\
  crashes E "AddPublicKeys" [VNil; v; VBool c] s /\ crashes E "AddPublicKeys" [v; VNil; VBool c] s.
Proof. exact seen_nil_public. Qed.
Print Assumptions C96_nil_public.

(** Cases that meet the hypotheses. The state is [example_state] of [SourceWitness.v]. *)
Example C96_example_curve : curve_ready (heap example_state).
Proof. exact example_curve. Qed.
Example C96_example_library : ecdsa_contract fast_lib.
Proof. exact fast_lib_meets. Qed.
Example C96_example_net : is_net (heap example_state) (VPtr 10) (Some MainNetwork) /\
  hex_text (PrivKeyPrefix MainNetwork ++ str "AbCd") [x80; xab; xcd].
Proof. split; [exact example_net|]. apply hex_text_decode. reflexivity. Qed.
Example C96_example_wif : (exists p, base58check p (WIF example_key)) /\ short_text (str "12").
Proof.
  split.
  - apply CheckWIF_true_iff. vm_compute. reflexivity.
  - apply CheckWIF_panic_iff. exists PSlice. vm_compute. reflexivity.
Qed.
Example C96_example_random : first_block 32 usable (repeat x00 32 ++ repeat x7f 32 ++ [x05]) (bytes_number (repeat x7f 32)) [x05].
Proof.
  apply first_skip; [reflexivity| |apply first_here; [reflexivity|]].
  - intros [H _]. apply H. reflexivity.
  - split; discriminate.
Qed.
Example C96_example_keys : is_priv (heap example_state) (VPtr 13) example_key /\
  is_pub (heap example_state) (VPtr 16) example_pub /\ Key example_key = Some 1 /\ ~ (n256k1 | 1).
Proof.
  split; [exact example_priv|]. split; [exact example_is_pub|]. split; [reflexivity|].
  intros [q H]. apply (f_equal (fun z => z mod n256k1)) in H. rewrite Z.mod_mul in H by discriminate. discriminate H.
Qed.
Example C96_example_sum : shortest_hex (str "c0") ((64 + 128) mod secp_N).
Proof. apply shortest_hex_sprintf. split; [discriminate|reflexivity]. Qed.
(** Sixteen random bytes, the English list. *)
Example C96_example_phrase : exists ws,
  let h := drop_zero_bits (bits (sha256 (drop_zero_bytes ent16))) in
  (4 <= length h)%nat /\ phrase_bits EnglishWordlist ws (rev (bits ent16 ++ firstn 4 h)).
Proof.
  assert (exists t, NewMnemonic (Z.of_nat (3 * 4)) (Some EnglishWordlist) (ent16 ++ []) = Ret (Ok t)) as (t & H).
  { exists (made 12 ent16). vm_compute. reflexivity. }
  apply NewMnemonic_success in H; [|split; repeat constructor].
  destruct H as (e & rest & ws & Hs & Le & Hh & Hp & _).
  assert (e = ent16) as ->.
  { apply (f_equal (firstn 16)) in Hs. rewrite firstn_app in Hs.
    rewrite (firstn_app 16 e rest), Le in Hs. rewrite (firstn_all2 e) in Hs by (rewrite Le; repeat constructor).
    symmetry. exact (eq_trans Hs (app_nil_r e)). }
  exists ws. split; [exact Hh|exact Hp].
Qed.
Example C96_example_spaced : spaced [str "abandon"; str "art"] (str "abandon art").
Proof.
  apply (spaced_more (str "abandon") [str "art"] (str "art")); [|apply spaced_one]; cbn; intuition discriminate.
Qed.
