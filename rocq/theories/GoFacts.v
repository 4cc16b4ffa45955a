(** * Each call of the Go source, as a caller sees it: lemmas for C96 *)

From Coq Require Import String Lia.
From Verif Require Import GoBase GoNum Sha256 Base58 GoRand Model ModelPtr SpecApi CurveSpec EcdsaContract GoSyntax GoSource GoSem SpecSource SpecGo Spec.
From Verif Require Import NumFacts EcFacts SpecMore SpecFacts PrivFacts GenFacts CombFacts PrivProps RestatePriv Uniform PubFacts PubCurve CallFacts MnemFacts MnemProps SeedFacts AnyList RestateMnem SourceBase SourceAll RunFacts.
Notation substring := Spec.substring.
Local Open Scope Z_scope.

Section Seen.
Context (E : curve_params -> ecdsa_lib).
Notation E0 := (E secp256k1_params).

(** from [answers] *)
Lemma seen_truth f args s o : answers E f args s o truth ->
  (forall b, o = Ret b -> exists new, returns E f args s [VBool b] new) /\
  (forall p, o = Panic p -> crashes E f args s).
Proof.
  intros (new & H). split; intros a ->.
  - destruct H as (vs & H & ->). exists new. exact H.
  - eexists _, _. exact H.
Qed.

Lemma seen_priv f args s o : answers E f args s o (new_priv s) ->
  (forall k, o = Ret (Ok k) -> returns_priv E f args s k) /\
  (forall e, o = Ret (Err e) -> refuses E f args s VNil e) /\
  (forall p, o = Panic p -> crashes E f args s).
Proof.
  intros (new & H). repeat split; intros a ->.
  - destruct H as (vs & H & v & -> & Hp & Hn). exists v, new. repeat split; assumption.
  - destruct H as (vs & H & ->). exists new. exact H.
  - eexists _, _. exact H.
Qed.

Lemma seen_pub f args s o : answers E f args s o (new_pub s) ->
  (forall k, o = Ret (Ok k) -> returns_pub E f args s k) /\
  (forall e, o = Ret (Err e) -> refuses E f args s VNil e) /\
  (forall p, o = Panic p -> crashes E f args s).
Proof.
  intros (new & H). repeat split; intros a ->.
  - destruct H as (vs & H & v & -> & Hp & Hn). exists v, new. repeat split; assumption.
  - destruct H as (vs & H & ->). exists new. exact H.
  - eexists _, _. exact H.
Qed.

Lemma seen_text_or_err f args s o : answers E f args s o text_or_err ->
  (forall t, o = Ret (Ok t) -> exists new, returns E f args s [VStr t; VNil] new) /\
  (forall e, o = Ret (Err e) -> refuses E f args s (VStr []) e) /\
  (forall p, o = Panic p -> crashes E f args s).
Proof.
  intros (new & H). repeat split; intros a ->.
  - destruct H as (vs & H & v & -> & ->). exists new. exact H.
  - destruct H as (vs & H & ->). exists new. exact H.
  - eexists _, _. exact H.
Qed.

(** ** CheckWIF *)
Lemma seen_CheckWIF w s :
  ((exists new, returns E "CheckWIF" [VStr w] s [VBool true] new) <-> exists p, base58check p w) /\
  ((exists new, returns E "CheckWIF" [VStr w] s [VBool false] new) <->
     (~ exists p, base58check p w) /\ ~ short_text w) /\
  (crashes E "CheckWIF" [VStr w] s <-> short_text w).
Proof.
  destruct (seen_truth _ _ _ _ (answers_CheckWIF E w s)) as [HR HP].
  destruct (CheckWIF_exact w) as (H1 & H2 & H3).
  change (exists bs, bs <> [] /\ (length bs < 4)%nat /\ base58_text bs w) with (short_text w) in H2, H3.
  assert (forall b, (exists new, returns E "CheckWIF" [VStr w] s [VBool b] new) <-> CheckWIF w = Ret b) as R.
  { intros b. split; [|apply HR]. intros (new & H). destruct (CheckWIF w) as [b'|p] eqn:C.
    - destruct (HR b' eq_refl) as (new' & H'). pose proof (ends_fun E _ _ _ _ _ _ H H'). congruence.
    - destruct (HP p eq_refl) as (p' & s' & H'). pose proof (ends_fun E _ _ _ _ _ _ H H'). congruence. }
  assert (crashes E "CheckWIF" [VStr w] s <-> exists p, CheckWIF w = Panic p) as P.
  { split; [|intros (p & H); exact (HP p H)]. intros (p & s' & H). destruct (CheckWIF w) as [b'|q] eqn:C; [|eauto].
    destruct (HR b' eq_refl) as (new' & H'). pose proof (ends_fun E _ _ _ _ _ _ H H'). congruence. }
  rewrite !R, P. auto.
Qed.

(** ** PrivateFromHex *)
Lemma seen_PrivateFromHex t v n s : is_net (heap s) v (Some n) ->
  (forall bs, hex_text (PrivKeyPrefix n ++ t) bs -> exists k,
     returns_priv E "PrivateFromHex" [VStr t; v] s k /\ Hex k = t /\ KNetwork k = Some n /\
     match Key k with Some z => hex_number t z | None => t = [] end /\ base58check bs (WIF k)) /\
  (unspellable (PrivKeyPrefix n ++ t) -> exists e, refuses E "PrivateFromHex" [VStr t; v] s VNil e) /\
  crashes E "PrivateFromHex" [VStr t; VNil] s.
Proof.
  intros Hv. destruct (seen_priv _ _ _ _ (answers_PrivateFromHex E t v _ s Hv)) as (HR & HE & _).
  destruct (seen_priv _ _ _ _ (answers_PrivateFromHex E t VNil None s eq_refl)) as (_ & _ & HP).
  destruct (PrivateFromHex_exact t n) as (H1 & H2 & H3). split; [|split].
  - intros bs Hb. destruct (H1 (ex_intro _ bs Hb)) as (k & Hk & Hh & Hn & Hz). exists k.
    repeat split; auto. eapply wif_is_base58check; eauto.
  - intros H. destruct (H2 H) as (e & He). exists e. auto.
  - exact (HP _ H3).
Qed.

(** ** PrivateFromWIF *)
Lemma seen_PrivateFromWIF w v net s : is_net (heap s) v net ->
  (forall version bs, base58check (version :: bs) w -> exists k,
     returns_priv E "PrivateFromWIF" [VStr w; v] s k /\ WIF k = w /\ KNetwork k = net /\
     hex_text (Hex k) bs /\ lower_case_hex (Hex k) /\
     Key k = match bs with [] => None | _ => Some (bytes_number bs) end) /\
  ((~ exists p, base58check p w) -> ~ short_text w -> refuses E "PrivateFromWIF" [VStr w; v] s VNil EWifInvalid) /\
  (base58check [] w \/ short_text w -> crashes E "PrivateFromWIF" [VStr w; v] s).
Proof.
  intros Hv. destruct (seen_priv _ _ _ _ (answers_PrivateFromWIF E w v _ s Hv)) as (HR & HE & HP).
  destruct (PrivateFromWIF_outcomes w net) as (H1 & H2). split; [|split].
  - intros version bs Hb.
    destruct (PrivateFromWIF w net) as [[k|e]|p] eqn:P.
    + exists k. apply PrivateFromWIF_exact in P. destruct P as (v' & bs' & Hb' & HW & HN & HH & HL & HK).
      assert (version :: bs = v' :: bs') as Q by (eapply base58check_inj; eauto).
      injection Q as <- <-. split; [auto|]. auto.
    + exfalso. destruct (proj1 (H2 e) eq_refl) as [_ C].
      destruct (CheckWIF_exact w) as (C1 & _). rewrite (proj2 C1 (ex_intro (fun p => base58check p w) _ Hb)) in C. discriminate.
    + exfalso. destruct (proj1 H1 (ex_intro _ p eq_refl)) as [C|C].
      * assert (version :: bs = []) by (eapply base58check_inj; eauto). discriminate.
      * destruct (CheckWIF_exact w) as (C1 & _ & C3). destruct (proj2 C3 C) as (e & Ce).
        rewrite (proj2 C1 (ex_intro (fun p => base58check p w) _ Hb)) in Ce. discriminate.
  - intros N S. apply HE, H2. split; [reflexivity|]. apply CheckWIF_exact. auto.
  - intros C. destruct (proj2 H1 C) as (p & Hp). exact (HP p Hp).
Qed.

(** ** GeneratePrivateKey *)
Lemma seen_Generate v n bs s : is_net (heap s) v (Some n) -> hex_text (PrivKeyPrefix n) bs ->
  (forall z rest, first_block 32 usable (source s) z rest -> exists p k ks new,
     ends E "GeneratePrivateKey" [v] s (Done [p] (State (heap s ++ new) rest (logged s))) /\
     is_priv (heap s ++ new) p k /\ is_new s p /\
     Key k = Some z /\ KNetwork k = Some n /\ octets 32 z ks /\ hex_text (Hex k) ks /\ lower_case_hex (Hex k) /\
     base58check (bs ++ ks) (WIF k)) /\
  ((~ exists z rest, first_block 32 usable (source s) z rest) -> crashes E "GeneratePrivateKey" [v] s).
Proof.
  intros Hv Hb. destruct (answers_Generate E v _ s Hv) as (new & H). split.
  - intros z rest F. apply (proj2 (generate_iff_first_block n bs _ _ _ Hb)) in F. destruct F as (k & G & Hz).
    rewrite G in H. destruct H as (vs & He & p & -> & Hp & Hn). cbn [fst snd] in *.
    destruct (generated_wellformed _ _ _ _ G) as (z' & Hz' & R & L & Lo & Hx & Hnet & Hrt).
    rewrite Hz in Hz'. injection Hz' as <-.
    assert (0 <= z < 2 ^ 256) as B.
    { assert (0 <= 2 ^ 252 /\ secp_N - 2 < 2 ^ 256) by (split; [discriminate|reflexivity]). lia. }
    destruct (hex64_octets z B) as (ks & Ho & Hd). rewrite (hex64_of_text _ z L Lo Hx) in Hd.
    apply hex_text_decode in Hd.
    exists p, k, ks, new. repeat (split; [assumption|]).
    eapply wif_is_base58check; [exact Hrt|]. now apply hex_text_app.
  - intros N. rewrite (proj2 (generate_outcomes _ _) N) in H. destruct H as (left & H). eexists _, _. exact H.
Qed.

(** ** AddPrivateKeys and MultiplyPrivateKeys *)
Lemma seen_combine f op s v1 a v2 b :
  answers E f [v1; v2] s (combine op a b) (new_priv s) ->
  forall n1 n2 x y, KNetwork a = Some n1 -> KNetwork b = Some n2 -> Key a = Some x -> Key b = Some y ->
  (n1 <> n2 -> refuses E f [v1; v2] s VNil EDifferentNetwork) /\
  (n1 = n2 -> equal_up_to_case (WIF a) (WIF b) -> refuses E f [v1; v2] s VNil EIdentical) /\
  (n1 = n2 -> ~ equal_up_to_case (WIF a) (WIF b) -> forall t, shortest_hex t (op x y mod secp_N) ->
     (forall bs, hex_text (PrivKeyPrefix n1 ++ t) bs -> exists w, base58check bs w /\
        returns_priv E f [v1; v2] s (PrivateKey (Some (op x y mod secp_N)) t w (Some n1))) /\
     (unspellable (PrivKeyPrefix n1 ++ t) -> exists e, refuses E f [v1; v2] s VNil e)).
Proof.
  intros H n1 n2 x y N1 N2 K1 K2. destruct (seen_priv _ _ _ _ H) as (HR & HE & _). split; [|split].
  - intros D. apply HE. unfold combine. rewrite N1, N2.
    assert (net_eqb (Some n1) (Some n2) = false) as -> by (apply net_eqb_neq; congruence). reflexivity.
  - intros -> W. apply HE. unfold combine. rewrite N1, N2, net_eqb_refl. cbn [negb].
    apply equal_up_to_case_lower in W. rewrite W, str_eqb_refl. reflexivity.
  - intros -> W t Ht. destruct (combine_any_prefix op a b n2 x y t N1 N2 K1 K2 W Ht) as [A1 A2]. split.
    + intros bs Hb. destruct (A1 (ex_intro _ bs Hb)) as (c & Hc).
      destruct (combine_success op a b c Hc) as (x' & y' & Kx & Ky & _ & Kc & Nc & Hs & Hrt).
      rewrite K1 in Kx. rewrite K2 in Ky. injection Kx as <-. injection Ky as <-. rewrite N1 in *.
      assert (Hex c = t) as HT by (apply shortest_hex_sprintf in Hs as [_ ->]; apply shortest_hex_sprintf in Ht as [_ ->]; reflexivity).
      exists (WIF c). split.
      * eapply wif_is_base58check; [exact Hrt|]. now rewrite HT.
      * destruct c as [kc hc wc nc]. cbn [Key Hex WIF KNetwork] in Kc, Nc, HT |- *. subst kc hc nc. apply HR. exact Hc.
    + intros U. destruct (A2 U) as (e & He). exists e. auto.
Qed.

Lemma seen_AddPrivateKeys s v1 a v2 b : curve_ready (heap s) -> is_priv (heap s) v1 a -> is_priv (heap s) v2 b ->
  answers E "AddPrivateKeys" [v1; v2] s (combine Z.add a b) (new_priv s).
Proof. intros HC H1 H2. exact (answers_AddPrivateKeys E v1 (Some a) v2 (Some b) s HC H1 H2). Qed.
Lemma seen_MultiplyPrivateKeys s v1 a v2 b : curve_ready (heap s) -> is_priv (heap s) v1 a -> is_priv (heap s) v2 b ->
  answers E "MultiplyPrivateKeys" [v1; v2] s (combine Z.mul a b) (new_priv s).
Proof. intros HC H1 H2. exact (answers_MultiplyPrivateKeys E v1 (Some a) v2 (Some b) s HC H1 H2). Qed.

(** ** GetPublicKey *)
Lemma seen_GetPublicKey v key k s : ecdsa_contract E0 -> curve_ready (heap s) -> is_priv (heap s) v key ->
  Key key = Some k -> 0 <= k ->
  (~ (n256k1 | k) -> exists p x y new,
     returns E "PrivateKey.GetPublicKey" [v] s [p; VBool true] new /\
     is_pub (heap s ++ new) p (PublicKey (Some x) (Some y) (KNetwork key)) /\ is_new s p /\
     curve_point (x, y) /\ multiple (Some G256k1) k (Some (x, y))) /\
  ((n256k1 | k) -> exists new, returns E "PrivateKey.GetPublicKey" [v] s [VNil; VBool false] new).
Proof.
  intros HE HC Hv Hk H0. destruct (answers_GetPublicKey E v (Some key) s HC Hv) as (new & H).
  cbn [GetPublicKey_ptr on_ptr] in H. split.
  - intros N. destruct (GetPublicKey_point E0 HE key k Hk H0 N) as (x & y & G & Hc & Hm). rewrite G in H.
    destruct H as (vs & H & p & -> & Hp & Hn). exists p, x, y, new. auto.
  - intros N. rewrite (GetPublicKey_infinity E0 HE key k Hk H0 N) in H. destruct H as (vs & H & ->).
    exists new. exact H.
Qed.

(** ** PublicFromHex *)
Lemma seen_PublicFromHex t v net s : curve_ready (heap s) -> is_net (heap s) v net ->
  (ecdsa_contract E0 -> forall (b : bool) x, substring t 0 2 = str (if b then "02" else "03") -> (66 <= length t)%nat ->
     hex_number (substring t 2 66) x -> x < p256k1 ->
     ((exists y, curve_point (x, y)) -> exists y, curve_point (x, y) /\ Z.even y = b /\
        returns_pub E "PublicFromHex" [VStr t; v] s (PublicKey (Some x) (Some y) net)) /\
     ((~ exists y, curve_point (x, y)) -> refuses E "PublicFromHex" [VStr t; v] s VNil ENotOnSecp)) /\
  (forall x y, substring t 0 2 = str "04" -> (130 <= length t)%nat ->
     hex_number (substring t 2 66) x -> hex_number (substring t 66 130) y ->
     returns_pub E "PublicFromHex" [VStr t; v] s (PublicKey (Some x) (Some y) net)) /\
  ((2 <= length t)%nat -> substring t 0 2 <> str "02" -> substring t 0 2 <> str "03" -> substring t 0 2 <> str "04" ->
     refuses E "PublicFromHex" [VStr t; v] s VNil EUnsupportedFormat) /\
  (crashes E "PublicFromHex" [VStr t; v] s <->
     (length t < 2)%nat \/
     (substring t 0 2 = str "04" /\ (length t < 130)%nat) \/
     ((substring t 0 2 = str "02" \/ substring t 0 2 = str "03") /\
      ((length t < 66)%nat \/ ~ exists x, signed_hex_number (substring t 2 66) x))).
Proof.
  intros HC Hv. destruct (seen_pub _ _ _ _ (answers_PublicFromHex E t v net s HC Hv)) as (HR & HE & HP).
  split; [|split; [|split]].
  - intros C b x Hb Hl Hx Hp. destruct (compressed_import E0 C t net b x Hb Hl Hx Hp) as [A1 A2]. split.
    + intros Y. destruct (A1 Y) as (y & Hc & Hy & G). exists y. auto.
    + auto.
  - intros x y H4 Hl Hx Hy. apply HR. now apply uncompressed_unchecked.
  - intros Hl H2 H3 H4. apply HE. now apply PublicFromHex_unsupported.
  - rewrite <- (PublicFromHex_panic_iff E0 t net). split; [|intros (p & H); exact (HP p H)].
    intros (p & s' & H). destruct (PublicFromHex E0 t net) as [[k|e]|q] eqn:G; [| |eauto]; exfalso.
    + destruct (HR k eq_refl) as (w & new & H' & _). pose proof (ends_fun E _ _ _ _ _ _ H H'). discriminate.
    + destruct (HE e eq_refl) as (new & H'). pose proof (ends_fun E _ _ _ _ _ _ H H'). discriminate.
Qed.

(** ** AddPublicKeys *)
Lemma seen_AddPublicKeys v1 v2 x1 y1 x2 y2 n1 n2 c s : ecdsa_contract E0 -> curve_ready (heap s) ->
  is_pub (heap s) v1 (PublicKey (Some x1) (Some y1) n1) -> is_pub (heap s) v2 (PublicKey (Some x2) (Some y2) n2) ->
  (n1 <> n2 -> refuses E "AddPublicKeys" [v1; v2; VBool c] s VNil EDifferentNetwork) /\
  (n1 = n2 -> curve_point (x1, y1) -> curve_point (x2, y2) ->
     (forall x y, point_sum (Some (x1, y1)) (Some (x2, y2)) (Some (x, y)) ->
        returns_pub E "AddPublicKeys" [v1; v2; VBool c] s (PublicKey (Some x) (Some y) n1)) /\
     (point_sum (Some (x1, y1)) (Some (x2, y2)) None ->
        refuses E "AddPublicKeys" [v1; v2; VBool c] s VNil ENotOnCurve)).
Proof.
  intros C HC H1 H2.
  destruct (seen_pub _ _ _ _ (answers_AddPublicKeys E v1 (Some _) v2 (Some _) c s HC H1 H2)) as (HR & HE & _).
  cbn [AddPublicKeys_ptr on_ptr] in *. split.
  - intros D. apply HE. now apply AddPublicKeys_networks.
  - intros <- P1 P2.
    destruct (sum_exists (Some (x1, y1)) (Some (x2, y2)) P1 P2) as (r & _ & _ & U).
    destruct (AddPublicKeys_point E0 C (PublicKey (Some x1) (Some y1) n1) (PublicKey (Some x2) (Some y2) n1) c x1 y1 x2 y2)
      as [(x & y & G & S)|(G & S)]; try reflexivity.
    { exists x1, y1. auto. } { exists x2, y2. auto. }
    + split.
      * intros x' y' S'. pose proof (eq_trans (U _ S) (eq_sym (U _ S'))) as Q. injection Q as <- <-. auto.
      * intros S'. pose proof (eq_trans (U _ S) (eq_sym (U _ S'))). discriminate.
    + split.
      * intros x' y' S'. pose proof (eq_trans (U _ S) (eq_sym (U _ S'))). discriminate.
      * auto.
Qed.

(** ** Format and Address *)
Lemma seen_Format v x y net c s : is_pub (heap s) v (PublicKey (Some x) (Some y) net) ->
  0 <= x < 2 ^ 256 -> 0 <= y < 2 ^ 256 -> exists t bs new,
  returns E "PublicKey.Format" [v; VBool c] s [VStr t] new /\ sec1 c x y bs /\ hex_text t bs /\ lower_case_hex t.
Proof.
  intros Hv Hx Hy. destruct (answers_Format E v (Some _) c s Hv) as (new & H). cbn [Format_ptr on_ptr] in H.
  destruct (Format_sec1 x y net c Hx Hy) as (t & bs & F & S & T & L & _). rewrite F in H.
  destruct H as (vs & H & ->). exists t, bs, new. auto.
Qed.

Lemma seen_Address v x y n c s : is_pub (heap s) v (PublicKey (Some x) (Some y) (Some n)) ->
  0 <= x < 2 ^ 256 -> 0 <= y < 2 ^ 256 ->
  (forall pre, hex_text (PubKeyHashPrefix n) pre -> exists a bs new,
     returns E "PublicKey.Address" [v; VBool c] s [VStr a; VNil] new /\ sec1 c x y bs /\ base58check (pre ++ hash160 bs) a) /\
  (unspellable (PubKeyHashPrefix n) -> exists e, refuses E "PublicKey.Address" [v; VBool c] s (VStr []) e).
Proof.
  intros Hv Hx Hy. destruct (seen_text_or_err _ _ _ _ (answers_Address E v (Some _) c s Hv)) as (HR & HE & _).
  cbn [Address_ptr on_ptr] in *. split.
  - intros pre Hp. destruct (Address_base58check x y n pre c Hx Hy Hp) as (a & bs & G & S & B & _).
    destruct (HR a G) as (new & H). exists a, bs, new. auto.
  - intros U. destruct (Address (PublicKey (Some x) (Some y) (Some n)) c) as [[a|e]|p] eqn:G.
    + exfalso. apply U. destruct c.
      * apply (proj1 (Address_compressed_iff (Some x) (Some y) n) (ex_intro _ a G)).
      * apply (proj1 (Address_uncompressed_iff (Some x) (Some y) n) (ex_intro _ a G)).
    + exists e. auto.
    + exfalso. destruct (proj1 (Address_panic_iff _ _) (ex_intro _ p G)) as [[_ A]|[A _]]; discriminate A.
Qed.

(** ** NewMnemonic *)
Lemma seen_NewMnemonic k l s : (4 <= k <= 8)%nat ->
  let call := "NewMnemonic"%string in let args := [VInt (Z.of_nat (3 * k)); VStrs l] in
  let e := firstn (4 * k) (source s) in
  let h := drop_zero_bits (bits (sha256 (drop_zero_bytes e))) in
  let B := rev (bits e ++ firstn k h) in
  ((length (source s) < 4 * k)%nat -> exists new rest,
     ends E call args s (Done [VStr []; VErr ERandRead] (State (heap s ++ new) rest (logged s)))) /\
  ((4 * k <= length (source s))%nat ->
     (forall ws, (k <= length h)%nat -> phrase_bits l ws B -> Forall (fun w => ~ In x20 w) ws -> exists t new,
        ends E call args s (Done [VStr t; VNil] (State (heap s ++ new) (skipn (4 * k) (source s)) (logged s))) /\
        spaced ws t) /\
     (crashes E call args s <-> (length h < k)%nat \/ ~ exists ws, phrase_bits l ws B)).
Proof.
  intros Hk. cbv zeta. set (e := firstn (4 * k) (source s)).
  pose proof (answers_Mnemonic E (Z.of_nat (3 * k)) (VStrs l) (Some l) s eq_refl) as (new & H).
  split.
  - intros L. rewrite (NewMnemonic_short k l _ Hk L) in H. destruct H as (vs & H & ->). eauto.
  - intros L. assert (length e = (4 * k)%nat) as Le by (unfold e; rewrite firstn_length; lia). split.
    + intros ws Hh Hp Hs.
      assert (NewMnemonic (Z.of_nat (3 * k)) (Some l) (source s) = Ret (Ok (join_space ws))) as G.
      { apply (NewMnemonic_success k l _ _ Hk). exists e, (skipn (4 * k) (source s)), ws.
        split; [symmetry; apply firstn_skipn|]. split; [exact Le|]. split; [exact Hh|]. split; [exact Hp|reflexivity]. }
      rewrite G in H. destruct H as (vs & H & t & -> & ->). exists (join_space ws), new. split.
      * replace (skipn (4 * k) (source s)) with (left_by_mnemonic (Z.of_nat (3 * k)) (Some l) (source s)); [exact H|].
        unfold left_by_mnemonic. do 9 (destruct k as [|k]; [try lia; reflexivity|]). lia.
      * apply spaced_join; [|exact Hs]. intros ->. destruct Hp as (is & F & HB). inversion F; subst is.
        cbn [flat_map] in HB. apply (f_equal (@length bool)) in HB. rewrite rev_length, app_length, bits_length, Le in HB.
        cbn [length] in HB. lia.
    + pose proof (NewMnemonic_panic_iff k l (source s) Hk L) as P. cbv zeta in P. fold e in P. rewrite <- P. split.
      * intros (p & s' & H'). destruct (NewMnemonic (Z.of_nat (3 * k)) (Some l) (source s)) as [r|q]; [|eauto].
        destruct H as (vs & H & _). pose proof (ends_fun E _ _ _ _ _ _ H H'). discriminate.
      * intros (p & G). rewrite G in H. destruct H as (left & H). eexists _, _. exact H.
Qed.

(** ** NewSeedFromMnemonic *)
Lemma seen_Seed m pass l ws s : spaced ws m ->
  let call := "NewSeedFromMnemonic"%string in let args := [VStr m; VStr pass; VStrs l] in
  let gives vs := exists new lines, ends E call args s (Done vs (State (heap s ++ new) (source s) (logged s ++ lines))) in
  (exists w, In w ws /\ ~ In w l) /\ gives [VNil; VErr EInvalidMnemonic] \/
  exists Bs, Forall2 (word_bits l) ws Bs /\
    ((length (concat Bs) mod 4 <> 0)%nat /\ crashes E call args s \/
     (length (concat Bs) mod 8 = 4)%nat /\ gives [VNil; VErr EHexLength] \/
     exists d c, concat Bs = bits (d ++ [c]) /\
       (hd_error (sha256 d) = Some c /\ gives [VNil; VNil] \/
        hd_error (sha256 d) <> Some c /\ gives [VNil; VErr EInvalidChecksum])).
Proof.
  intros Hs. cbv zeta.
  pose proof (answers_Seed E m pass (VStrs l) (Some l) s eq_refl) as (new & H).
  assert (forall r vs, snd (NewSeedFromMnemonic m pass (Some l)) = Ret r ->
    (forall h ws, bytes_or_err h r ws -> ws = vs) ->
    exists new lines, ends E "NewSeedFromMnemonic" [VStr m; VStr pass; VStrs l] s
      (Done vs (State (heap s ++ new) (source s) (logged s ++ lines)))) as G.
  { intros r vs Hr Hv. rewrite Hr in H. destruct H as (us & H & Hu). rewrite (Hv _ _ Hu) in H. eauto. }
  destruct (NewSeed_any m pass (Some l) ws Hs) as [(U & X)|(Bs & F & [(L & X)|[(L & X)|(d & c & HB & [(K & X)|(K & X)])]])].
  - left. split; [exact U|]. eapply G; [rewrite X; reflexivity|]. intros h us Hu. exact Hu.
  - right. exists Bs. split; [exact F|]. left. split; [exact L|]. rewrite X in H. eexists _, _. exact H.
  - right. exists Bs. split; [exact F|]. right; left. split; [exact L|]. eapply G; [exact X|]. intros h us Hu. exact Hu.
  - right. exists Bs. split; [exact F|]. right; right. exists d, c. split; [exact HB|]. left. split; [exact K|].
    eapply G; [exact X|]. intros h us (u & -> & ->). reflexivity.
  - right. exists Bs. split; [exact F|]. right; right. exists d, c. split; [exact HB|]. right. split; [exact K|].
    eapply G; [exact X|]. intros h us Hu. exact Hu.
Qed.

(** ** What is refused whatever the rest *)
Lemma seen_mnemonic_refusals words l s m pass :
  (~ In words [12; 15; 18; 21; 24] -> refuses E "NewMnemonic" [VInt words; VStrs l] s (VStr []) EUnsupportedLength) /\
  refuses E "NewMnemonic" [VInt words; VNil] s (VStr []) EInvalidWordlist /\
  refuses E "NewSeedFromMnemonic" [VStr m; VStr pass; VNil] s VNil EInvalidMnemonic.
Proof.
  split; [|split].
  - intros N. destruct (answers_Mnemonic E words (VStrs l) (Some l) s eq_refl) as (new & H).
    rewrite (NewMnemonic_unsupported _ _ _ N) in H. destruct H as (vs & H & ->). exists new.
    unfold left_by_mnemonic in H. destruct (existsb (Z.eqb words) [12; 15; 18; 21; 24]) eqn:X; [|exact H].
    exfalso. apply N. apply existsb_exists in X as (x & Hx & Q). apply Z.eqb_eq in Q. now subst x.
  - destruct (answers_Mnemonic E words VNil None s eq_refl) as (new & H).
    rewrite NewMnemonic_nil in H. destruct H as (vs & H & ->). exists new. exact H.
  - destruct (answers_Seed E m pass VNil None s eq_refl) as (new & H).
    rewrite NewSeed_nil_list in H. destruct H as (vs & H & ->). exists new.
    cbn [fst] in H. rewrite app_nil_r in H. exact H.
Qed.

Lemma seen_nil_private s v k : curve_ready (heap s) -> is_priv_ptr (heap s) v k ->
  crashes E "PrivateKey.GetPublicKey" [VNil] s /\
  crashes E "AddPrivateKeys" [VNil; v] s /\ crashes E "AddPrivateKeys" [v; VNil] s /\
  crashes E "MultiplyPrivateKeys" [VNil; v] s /\ crashes E "MultiplyPrivateKeys" [v; VNil] s.
Proof.
  intros HC Hk. repeat split.
  - destruct (answers_GetPublicKey E VNil None s HC eq_refl) as (new & H). eexists _, _. exact H.
  - destruct (answers_AddPrivateKeys E VNil None v k s HC eq_refl Hk) as (new & H). eexists _, _. exact H.
  - destruct (answers_AddPrivateKeys E v k VNil None s HC Hk eq_refl) as (new & H). destruct k; eexists _, _; exact H.
  - destruct (answers_MultiplyPrivateKeys E VNil None v k s HC eq_refl Hk) as (new & H). eexists _, _. exact H.
  - destruct (answers_MultiplyPrivateKeys E v k VNil None s HC Hk eq_refl) as (new & H). destruct k; eexists _, _; exact H.
Qed.

Lemma seen_nil_public s v p c : curve_ready (heap s) -> is_pub_ptr (heap s) v p ->
  crashes E "PublicKey.Format" [VNil; VBool c] s /\ crashes E "PublicKey.Address" [VNil; VBool c] s /\
  crashes E "AddPublicKeys" [VNil; v; VBool c] s /\ crashes E "AddPublicKeys" [v; VNil; VBool c] s.
Proof.
  intros HC Hk. repeat split.
  - destruct (answers_Format E VNil None c s eq_refl) as (new & H). eexists _, _. exact H.
  - destruct (answers_Address E VNil None c s eq_refl) as (new & H). eexists _, _. exact H.
  - destruct (answers_AddPublicKeys E VNil None v p c s HC eq_refl Hk) as (new & H). eexists _, _. exact H.
  - destruct (answers_AddPublicKeys E v p VNil None c s HC Hk eq_refl) as (new & H). destruct p; eexists _, _; exact H.
Qed.
End Seen.
