(** * Combining private keys: lemmas behind C17-C23, and the shape of WIFs (C14) *)

From Verif Require Import GoBase GoNum Sha256 Base58 GoRand Model.
From Verif Require Import NumFacts HexFacts Base58Facts Spec SpecFacts PrivFacts GenFacts.
From Coq Require Import ZifyBool ZifyNat ZifyN.
Local Open Scope Z_scope.
Local Opaque sha256.

Lemma network_eta n : n = Network (PrivKeyPrefix n) (PubKeyHashPrefix n).
Proof. destruct n; reflexivity. Qed.

Lemma net_eqb_eq a b : net_eqb a b = true <-> a = b.
Proof.
  destruct a as [[p q]|], b as [[p' q']|]; cbn; try (split; congruence).
  rewrite andb_true_iff, !str_eqb_eq. split; [intros [-> ->]; reflexivity|intros [= -> ->]; auto].
Qed.
Lemma net_eqb_refl a : net_eqb a a = true.
Proof. apply net_eqb_eq. reflexivity. Qed.
Lemma net_eqb_neq a b : net_eqb a b = false <-> a <> b.
Proof. rewrite <- net_eqb_eq. destruct (net_eqb a b); split; congruence. Qed.
Lemma net_eqb_sym a b : net_eqb a b = net_eqb b a.
Proof.
  destruct (net_eqb a b) eqn:E, (net_eqb b a) eqn:F; try reflexivity.
  - apply net_eqb_eq in E. subst. rewrite net_eqb_refl in F. discriminate.
  - apply net_eqb_eq in F. subst. rewrite net_eqb_refl in E. discriminate.
Qed.

(** Both functions are the same code with a different operation. *)
Definition combine (op : Z -> Z -> Z) (p1 p2 : private_key) : outcome (result private_key) :=
  if negb (net_eqb (KNetwork p1) (KNetwork p2)) then Ret (Err EDifferentNetwork)
  else if str_eqb (to_lower (WIF p1)) (to_lower (WIF p2)) then Ret (Err EIdentical)
  else match Key p1, Key p2 with
       | Some k1, Some k2 => PrivateFromHex (sprintf_x ((op k1 k2) mod secp_N)) (KNetwork p1)
       | _, _ => Panic PNil
       end.
Lemma Add_combine a b : AddPrivateKeys a b = combine Z.add a b.
Proof. reflexivity. Qed.
Lemma Mul_combine a b : MultiplyPrivateKeys a b = combine Z.mul a b.
Proof. reflexivity. Qed.

Lemma N_pos : 0 < secp_N.
Proof. reflexivity. Qed.
Lemma mod_N_range z : 0 <= z mod secp_N < secp_N.
Proof. apply Z.mod_pos_bound, N_pos. Qed.

(** The key a sum or product gives when it is given at all. *)
Lemma PrivateFromHex_sprintf z net k : 0 <= z ->
  PrivateFromHex (sprintf_x z) net = Ret (Ok k) ->
  Key k = Some z /\ Hex k = sprintf_x z /\ KNetwork k = net /\ shortest_hex (Hex k) z.
Proof.
  intros Hz H. destruct net as [n|]; [|discriminate].
  apply PrivateFromHex_success in H as (bs & _ & _ & Hh & Hn & Hk).
  split; [|split; [assumption|split; [assumption|]]].
  - destruct (Key k) as [y|].
    + apply hex_number_set_string in Hk as (_ & _ & Hk). rewrite set_string16_sprintf_x in Hk by assumption. congruence.
    + exfalso. apply (sprintf_x_nonempty _ Hk).
  - rewrite Hh. apply shortest_hex_sprintf. auto.
Qed.

(** C17, C18: everything a success says. *)
Lemma combine_success op a b c : combine op a b = Ret (Ok c) ->
  exists x y, Key a = Some x /\ Key b = Some y /\ KNetwork a = KNetwork b /\
    Key c = Some ((op x y) mod secp_N) /\ KNetwork c = KNetwork a /\
    shortest_hex (Hex c) ((op x y) mod secp_N) /\
    PrivateFromHex (Hex c) (KNetwork a) = Ret (Ok c).
Proof.
  unfold combine. destruct (net_eqb (KNetwork a) (KNetwork b)) eqn:En; cbn [negb]; [|discriminate].
  apply net_eqb_eq in En.
  destruct (str_eqb _ _); [discriminate|].
  destruct (Key a) as [x|]; [|discriminate]. destruct (Key b) as [y|]; [|discriminate].
  intros H. exists x, y.
  destruct (PrivateFromHex_sprintf _ _ _ (proj1 (mod_N_range _)) H) as (H1 & H2 & H3 & H4).
  split; [reflexivity|split; [reflexivity|split; [assumption|split; [assumption|split; [assumption|split; [assumption|]]]]]].
  rewrite H2. exact H.
Qed.

(** C19 *)
Lemma combine_comm op a b : (forall x y, op x y = op y x) -> combine op a b = combine op b a.
Proof.
  intros Hop. unfold combine. rewrite (net_eqb_sym (KNetwork b)), (str_eqb_sym (to_lower (WIF b))).
  destruct (net_eqb (KNetwork a) (KNetwork b)) eqn:En; cbn [negb]; [|reflexivity].
  apply net_eqb_eq in En. rewrite En.
  destruct (str_eqb _ _); [reflexivity|].
  destruct (Key a), (Key b); try reflexivity. rewrite Hop. reflexivity.
Qed.

(** C20: two successful results with the same number and network are the same key. *)
Lemma combine_same_number op1 op2 a b c d r s :
  combine op1 a b = Ret (Ok r) -> combine op2 c d = Ret (Ok s) ->
  KNetwork a = KNetwork c -> Key r = Key s -> r = s.
Proof.
  intros H1 H2 Hn Hk.
  apply combine_success in H1 as (x & y & _ & _ & _ & K1 & _ & S1 & P1).
  apply combine_success in H2 as (x' & y' & _ & _ & _ & K2 & _ & S2 & P2).
  assert (E : Hex r = Hex s).
  { apply shortest_hex_sprintf in S1 as [_ ->], S2 as [_ ->]. congruence. }
  rewrite E, Hn, P2 in P1. congruence.
Qed.

(** C21 *)
Lemma hex_decode_odd s : Forall is_hex s -> Nat.odd (length s) = true -> hex_decode s = Err EHexLength.
Proof.
  induction s as [|c|c1 c2 s IH] using list_pair_ind; intros Hx Ho; cbn [hex_decode].
  - discriminate.
  - inversion Hx as [|? ? Hc _]; subst. apply is_hex_fromhex in Hc as [d ->]. reflexivity.
  - inversion Hx as [|? ? Hc Hx']; subst. inversion Hx' as [|? ? Hc' Hx'']; subst.
    apply is_hex_fromhex in Hc as [d ->]. apply is_hex_fromhex in Hc' as [d' ->].
    rewrite IH; [reflexivity|assumption|]. exact Ho.
Qed.

Lemma PrivateFromHex_parity n bs z : hex_text (PrivKeyPrefix n) bs -> 0 <= z ->
  (Nat.odd (length (sprintf_x z)) = true -> PrivateFromHex (sprintf_x z) (Some n) = Ret (Err EHexLength)) /\
  (Nat.odd (length (sprintf_x z)) = false -> exists k, PrivateFromHex (sprintf_x z) (Some n) = Ret (Ok k)).
Proof.
  intros Hbs Hz. apply hex_text_decode in Hbs. pose proof (sprintf_x_is_hex z Hz) as Hx. split; intros Ho.
  - apply PrivateFromHex_err. rewrite (hex_decode_app _ _ _ Hbs), hex_decode_odd by assumption. reflexivity.
  - apply PrivateFromHex_prefix_even; [|assumption|].
    + rewrite <- Nat.negb_odd, Ho. reflexivity.
    + exists bs. apply hex_text_decode, Hbs.
Qed.

Lemma combine_outcome op a b n1 n2 bs x y :
  KNetwork a = Some n1 -> KNetwork b = Some n2 -> hex_text (PrivKeyPrefix n1) bs ->
  Key a = Some x -> Key b = Some y ->
  (n1 <> n2 -> combine op a b = Ret (Err EDifferentNetwork)) /\
  (n1 = n2 -> equal_up_to_case (WIF a) (WIF b) -> combine op a b = Ret (Err EIdentical)) /\
  (n1 = n2 -> ~ equal_up_to_case (WIF a) (WIF b) ->
   forall s, shortest_hex s ((op x y) mod secp_N) ->
     (Nat.odd (length s) = true -> combine op a b = Ret (Err EHexLength)) /\
     (Nat.odd (length s) = false -> exists c, combine op a b = Ret (Ok c))).
Proof.
  intros Hn1 Hn2 Hbs Hx Hy. unfold combine. rewrite Hn1, Hn2, Hx, Hy.
  split; [|split].
  - intros Hne. assert (net_eqb (Some n1) (Some n2) = false) as -> by (apply net_eqb_neq; congruence). reflexivity.
  - intros -> Hc. rewrite net_eqb_refl. cbn [negb]. apply equal_up_to_case_lower in Hc.
    rewrite Hc, str_eqb_refl. reflexivity.
  - intros -> Hc s Hs. rewrite net_eqb_refl. cbn [negb].
    assert (str_eqb (to_lower (WIF a)) (to_lower (WIF b)) = false) as ->.
    { apply str_eqb_neq. intros E. apply Hc, equal_up_to_case_lower, E. }
    apply shortest_hex_sprintf in Hs as [Hz ->].
    apply (PrivateFromHex_parity n2 bs _ Hbs Hz).
Qed.

(** No panics for keys that have a number and a network; a missing number panics
    once the two comparisons are passed. *)
Lemma combine_total op a b n1 x y :
  KNetwork a = Some n1 -> Key a = Some x -> Key b = Some y ->
  exists r, combine op a b = Ret r.
Proof.
  intros Hn Hx Hy. unfold combine. rewrite Hn, Hx, Hy.
  destruct (negb _); [eauto|]. destruct (str_eqb _ _); [eauto|]. apply PrivateFromHex_total.
Qed.

(** ** Shape of Base58Check strings (C14, C22) *)

Lemma b58_shape bs b r d k :
  bs = b :: r -> b <> x00 -> 0 < d < 58 ->
  d * 58 ^ Z.of_nat k <= bytes_number bs < (d + 1) * 58 ^ Z.of_nat k ->
  exists t, b58encode bs = b58char d :: t /\ length t = k.
Proof.
  intros Hbs Hb Hd Hn. rewrite (b58encode_no_lead _ _ _ Hbs Hb).
  rewrite bytes_number_set_bytes in Hn.
  destruct (digits_lead 58 _ d k ltac:(lia) Hd Hn) as (t & -> & Ht).
  exists (map b58char t). split; [reflexivity|]. rewrite map_length. exact Ht.
Qed.

Lemma bytes_number_cons b r :
  bytes_number (b :: r) = byte_number b * 256 ^ Z.of_nat (length r) + bytes_number r.
Proof. change (b :: r) with ([b] ++ r). rewrite bytes_number_app. unfold bytes_number at 1. cbn [map number length].
  change (256 ^ Z.of_nat 0) with 1. f_equal. ring. Qed.

(** 1 version byte + 32 key bytes + 4 checksum bytes. *)
Lemma wif37_main ks w : length ks = 32%nat -> base58check (x80 :: ks) w ->
  exists t, w = x35 :: t /\ length t = 50%nat.
Proof.
  intros Hl Hw. apply base58check_encode in Hw. rewrite Hw. cbn [app].
  apply (b58_shape _ x80 (ks ++ checksum4 (x80 :: ks)) 4 50); [reflexivity|discriminate|lia|].
  rewrite bytes_number_cons.
  pose proof (bytes_number_bound (ks ++ checksum4 (x80 :: ks))) as Hb.
  rewrite app_length, checksum4_length, Hl in *. change (byte_number x80) with 128.
  assert (4 * 58 ^ Z.of_nat 50 <= 128 * 256 ^ Z.of_nat (32 + 4)) by (apply Z.leb_le; vm_compute; reflexivity).
  assert (129 * 256 ^ Z.of_nat (32 + 4) <= (4 + 1) * 58 ^ Z.of_nat 50) by (apply Z.leb_le; vm_compute; reflexivity).
  lia.
Qed.

Lemma wif37_test ks w : length ks = 32%nat -> base58check (xef :: ks) w ->
  exists t, w = x39 :: t /\ length t = 50%nat.
Proof.
  intros Hl Hw. apply base58check_encode in Hw. rewrite Hw. cbn [app].
  apply (b58_shape _ xef (ks ++ checksum4 (xef :: ks)) 8 50); [reflexivity|discriminate|lia|].
  rewrite bytes_number_cons.
  pose proof (bytes_number_bound (ks ++ checksum4 (xef :: ks))) as Hb.
  rewrite app_length, checksum4_length, Hl in *. change (byte_number xef) with 239.
  assert (8 * 58 ^ Z.of_nat 50 <= 239 * 256 ^ Z.of_nat (32 + 4)) by (apply Z.leb_le; vm_compute; reflexivity).
  assert (240 * 256 ^ Z.of_nat (32 + 4) <= (8 + 1) * 58 ^ Z.of_nat 50) by (apply Z.leb_le; vm_compute; reflexivity).
  lia.
Qed.

(** Fewer than 32 key bytes: at most 50 characters. *)
Lemma wif_short p w : p <> [] -> hd_error p <> Some x00 -> (length p < 33)%nat -> base58check p w ->
  (length w <= 50)%nat.
Proof.
  intros Hne Hh Hl Hw. apply base58check_encode in Hw. rewrite Hw.
  destruct p as [|b r]; [congruence|].
  rewrite (b58encode_no_lead ((b :: r) ++ checksum4 (b :: r)) b (r ++ checksum4 (b :: r)) eq_refl)
    by (intros ->; apply Hh; reflexivity).
  rewrite map_length. apply digits_length_le; [lia|].
  pose proof (set_bytes_bound ((b :: r) ++ checksum4 (b :: r))) as Hb.
  rewrite app_length, checksum4_length in Hb.
  assert (256 ^ Z.of_nat (length (b :: r) + 4) <= 256 ^ 36) by (apply Z.pow_le_mono_r; lia).
  assert (256 ^ 36 <= 58 ^ Z.of_nat 50) by (apply Z.leb_le; vm_compute; reflexivity).
  lia.
Qed.

Lemma std_prefix_main : hex_text (PrivKeyPrefix MainNetwork) [x80].
Proof. apply hex_text_decode. reflexivity. Qed.
Lemma std_prefix_test : hex_text (PrivKeyPrefix TestNetwork) [xef].
Proof. apply hex_text_decode. reflexivity. Qed.

Lemma std_wif_payload h n v k : hex_text (PrivKeyPrefix n) [v] -> PrivateFromHex h (Some n) = Ret (Ok k) ->
  exists ks, hex_text h ks /\ length h = (2 * length ks)%nat /\ base58check (v :: ks) (WIF k).
Proof.
  intros Hv H. apply PrivateFromHex_success in H as (bs & Ht & Hw & _).
  apply hex_text_decode in Hv, Ht. rewrite (hex_decode_app _ _ _ Hv) in Ht.
  destruct (hex_decode h) as [ks|] eqn:E; [|discriminate]. injection Ht as <-.
  exists ks. rewrite hex_text_decode. repeat split; [assumption|apply hex_decode_length, E|exact Hw].
Qed.

(** C14, for any 64-digit hex. *)
Lemma wif_main_shape h k : length h = 64%nat -> PrivateFromHex h (Some MainNetwork) = Ret (Ok k) ->
  length (WIF k) = 51%nat /\ hd_error (WIF k) = Some x35.
Proof.
  intros Hl H. destruct (std_wif_payload _ _ _ _ std_prefix_main H) as (ks & _ & Hk & Hw).
  destruct (wif37_main ks (WIF k) ltac:(lia) Hw) as (t & -> & Ht). cbn. auto.
Qed.
Lemma wif_test_shape h k : length h = 64%nat -> PrivateFromHex h (Some TestNetwork) = Ret (Ok k) ->
  length (WIF k) = 51%nat /\ hd_error (WIF k) = Some x39.
Proof.
  intros Hl H. destruct (std_wif_payload _ _ _ _ std_prefix_test H) as (ks & _ & Hk & Hw).
  destruct (wif37_test ks (WIF k) ltac:(lia) Hw) as (t & -> & Ht). cbn. auto.
Qed.

(** C22 *)
Lemma wif_51_iff n h k : n = MainNetwork \/ n = TestNetwork -> (length h <= 64)%nat ->
  PrivateFromHex h (Some n) = Ret (Ok k) ->
  (length (WIF k) = 51%nat <-> length h = 64%nat).
Proof.
  intros Hn Hle H. split; intros Hl.
  - assert (exists v, v <> x00 /\ hex_text (PrivKeyPrefix n) [v]) as (v & Hv0 & Hv).
    { destruct Hn as [->| ->]; [exists x80; split; [discriminate|apply std_prefix_main]|
                               exists xef; split; [discriminate|apply std_prefix_test]]. }
    destruct (std_wif_payload _ _ _ _ Hv H) as (ks & _ & Hk & Hw).
    destruct (Nat.lt_ge_cases (length ks) 32) as [Hlt|Hge]; [|lia].
    pose proof (wif_short (v :: ks) (WIF k) ltac:(discriminate) ltac:(cbn; congruence) ltac:(cbn; lia) Hw). lia.
  - destruct Hn as [->| ->]; [apply (wif_main_shape h k)|apply (wif_test_shape h k)]; assumption.
Qed.

Lemma N_lt_2_256 : secp_N < 2 ^ 256.
Proof. reflexivity. Qed.

Lemma combine_wif_51 op a b c n z : n = MainNetwork \/ n = TestNetwork -> KNetwork a = Some n ->
  combine op a b = Ret (Ok c) -> Key c = Some z ->
  (length (WIF c) = 51%nat <-> 2 ^ 252 <= z).
Proof.
  intros Hstd Hn H Hz. apply combine_success in H as (x & y & _ & _ & _ & Hk & _ & Hs & Hp).
  rewrite Hn in Hp. rewrite Hz in Hk. injection Hk as Hk. rewrite <- Hk in Hs.
  pose proof (mod_N_range (op x y)) as Hr. rewrite <- Hk in Hr. pose proof N_lt_2_256 as HN.
  apply shortest_hex_sprintf in Hs as [Hz0 Hs].
  pose proof (sprintf_x_64 z ltac:(lia)) as H64. unfold gen_big in H64.
  rewrite <- H64, <- Hs. apply (wif_51_iff n); [assumption| |assumption].
  rewrite Hs. apply sprintf_x_length_le; [|lia]. change (16 ^ Z.of_nat 64) with (2 ^ 256). lia.
Qed.

(** ... and the WIF of a smaller result is not the 32-byte WIF of that number. *)
Lemma combine_wif_nonstandard op a b c n v z ks w : 
  n = MainNetwork \/ n = TestNetwork -> KNetwork a = Some n -> hex_text (PrivKeyPrefix n) [v] ->
  combine op a b = Ret (Ok c) -> Key c = Some z -> octets 32 z ks -> base58check (v :: ks) w ->
  (WIF c = w <-> 2 ^ 252 <= z).
Proof.
  intros Hstd Hn Hv H Hz [Hkl Hkn] Hw. rewrite <- (combine_wif_51 op a b c n z Hstd Hn H Hz). split.
  - intros ->. destruct Hstd as [->| ->].
      assert (E : [v] = [x80]) by apply (hex_text_fun _ _ _ Hv std_prefix_main). injection E as ->.
      destruct (wif37_main _ _ Hkl Hw) as (t & -> & Ht). cbn. lia.
    + assert (E : [v] = [xef]) by apply (hex_text_fun _ _ _ Hv std_prefix_test). injection E as ->.
      destruct (wif37_test _ _ Hkl Hw) as (t & -> & Ht). cbn. lia.
  - intros Hl. apply (combine_wif_51 op a b c n z Hstd Hn H Hz) in Hl as Hbig.
    apply combine_success in H as (x & y & _ & _ & _ & Hk & _ & Hs & Hp).
    rewrite Hn in Hp. rewrite Hz in Hk. injection Hk as Hk. rewrite <- Hk in Hs.
    pose proof (mod_N_range (op x y)) as Hr. rewrite <- Hk in Hr. pose proof N_lt_2_256 as HN.
    destruct (std_wif_payload _ _ _ _ Hv Hp) as (ks' & Ht & Hl' & Hw').
    assert (ks' = ks) as ->.
    { apply bytes_number_inj.
      - apply shortest_hex_sprintf in Hs as [Hz0 Hs]. rewrite Hs in Hl'.
        pose proof (proj2 (sprintf_x_64 z ltac:(lia)) Hbig). lia.
      - rewrite Hkn. apply (hex_number_fun (Hex c)); [|apply Hs].
        apply hex_number_bytes; [apply Hs|assumption]. }
    apply (base58check_fun _ _ _ Hw' Hw).
Qed.
