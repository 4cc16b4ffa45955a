(** * Cancelling, complements, doubling, and address collisions (C82-C86) *)

From Coq Require Import Znumtheory.
From Verif Require Import GoBase GoNum Sha256 Ripemd160 Base58 Model NumFacts Spec SpecFacts PrivFacts CombFacts PrivProps.
From Verif Require Import EcRef PubFacts Base58Facts Primes NumTheory CurveSpec Curve CurveMul CurveGroup EcdsaContract EcFacts PubCurve RestatePriv Witness.
Local Open Scope Z_scope.
Local Opaque sha256 ripemd160 secp_P secp_N.

(** ** C82: addresses *)

Lemma sec1_length c x y bs : sec1 c x y bs -> length bs = if c then 33%nat else 65%nat.
Proof.
  intros (X & [HX _] & H). destruct c.
  - subst bs. cbn [length]. rewrite HX. reflexivity.
  - destruct H as (Y & [HY _] & ->). cbn [length]. rewrite app_length, HX, HY. reflexivity.
Qed.

Lemma byte_string_dec (a b : list byte) : {a = b} + {a <> b}.
Proof. apply (list_eq_dec Byte.byte_eq_dec). Qed.

Lemma address_collision x y x' y' n c d a :
  curve_point (x, y) -> curve_point (x', y') ->
  Address (PublicKey (Some x) (Some y) (Some n)) c = Ret (Ok a) ->
  Address (PublicKey (Some x') (Some y') (Some n)) d = Ret (Ok a) ->
  (c = d /\ x = x' /\ y = y') \/
  exists bs bt, sec1 c x y bs /\ sec1 d x' y' bt /\ bs <> bt /\
    (sha256 bs = sha256 bt \/ (sha256 bs <> sha256 bt /\ ripemd160 (sha256 bs) = ripemd160 (sha256 bt))).
Proof.
  intros C C' H H'.
  pose proof P_lt_2_256 as PL.
  assert (R : 0 <= x < 2 ^ 256 /\ 0 <= y < 2 ^ 256 /\ 0 <= x' < 2 ^ 256 /\ 0 <= y' < 2 ^ 256).
  { destruct C as (A1 & A2 & _), C' as (A3 & A4 & _). cbn [fst snd] in *. rewrite p256k1_P in *. lia. }
  destruct R as (Rx & Ry & Rx' & Ry').
  destruct (Address_injective_hash (PublicKey (Some x) (Some y) (Some n)) (PublicKey (Some x') (Some y') (Some n)) c d a n eq_refl eq_refl H H') as (s & t & bs & bt & F1 & F2 & T1 & T2 & HH).
  destruct (Format_sec1 x y (Some n) c Rx Ry) as (s0 & bs0 & F1' & S1 & T1' & _).
  destruct (Format_sec1 x' y' (Some n) d Rx' Ry') as (t0 & bt0 & F2' & S2 & T2' & _).
  assert (s0 = s) by congruence. assert (t0 = t) by congruence. subst s0 t0.
  rewrite (hex_text_fun _ _ _ T1' T1) in S1. rewrite (hex_text_fun _ _ _ T2' T2) in S2.
  destruct (byte_string_dec bs bt) as [->|Ne].
  - left. pose proof (sec1_length _ _ _ _ S1) as L1. rewrite (sec1_length _ _ _ _ S2) in L1.
    assert (c = d) by (destruct c, d; (reflexivity || discriminate)). subst d.
    split; [reflexivity|]. destruct (sec1_inj c _ _ _ _ _ S1 S2) as [<- E]. split; [reflexivity|].
    destruct c; [|exact E]. exact (parity_point x y y' C C' E).
  - right. exists bs, bt. split; [exact S1|]. split; [exact S2|]. split; [exact Ne|].
    destruct (byte_string_dec (sha256 bs) (sha256 bt)) as [E|E]; [left; exact E|right].
    split; [exact E|exact HH].
Qed.

(** ** C83: cancelling *)

Lemma combine_key op a b c x y : combine op a b = Ret (Ok c) -> Key a = Some x -> Key b = Some y ->
  Key c = Some (op x y mod secp_N).
Proof.
  intros H Ka Kb. apply combine_success in H as (x' & y' & Ka' & Kb' & _ & K & _).
  rewrite K. congruence.
Qed.

Lemma add_cancels a b b' c c' x y y' : Key a = Some x -> Key b = Some y -> Key b' = Some y' ->
  AddPrivateKeys a b = Ret (Ok c) -> AddPrivateKeys a b' = Ret (Ok c') ->
  (Key c = Key c' <-> y mod n256k1 = y' mod n256k1).
Proof.
  intros Ka Kb Kb' H H'. rewrite Add_combine in H, H'. rewrite n256k1_N.
  rewrite (combine_key _ _ _ _ _ _ H Ka Kb), (combine_key _ _ _ _ _ _ H' Ka Kb').
  pose proof CombFacts.N_pos as HN. split.
  - intros E. assert (E' : (x + y) mod secp_N = (x + y') mod secp_N) by congruence.
    apply mod_eq_divide in E'; [|lia]. apply mod_eq_divide; [lia|]. replace (y - y') with (x + y - (x + y')) by lia. exact E'.
  - intros E. rewrite <- (Zplus_mod_idemp_r y), <- (Zplus_mod_idemp_r y'), E. reflexivity.
Qed.

Lemma mul_cancels a b b' c c' x y y' : Key a = Some x -> Key b = Some y -> Key b' = Some y' ->
  ~ (n256k1 | x) ->
  MultiplyPrivateKeys a b = Ret (Ok c) -> MultiplyPrivateKeys a b' = Ret (Ok c') ->
  (Key c = Key c' <-> y mod n256k1 = y' mod n256k1).
Proof.
  intros Ka Kb Kb' Hx H H'. rewrite Mul_combine in H, H'. rewrite n256k1_N in *.
  rewrite (combine_key _ _ _ _ _ _ H Ka Kb), (combine_key _ _ _ _ _ _ H' Ka Kb').
  pose proof CombFacts.N_pos as HN. split.
  - intros E. assert (E' : (x * y) mod secp_N = (x * y') mod secp_N) by congruence.
    apply mod_eq_divide in E'; [|lia]. apply mod_eq_divide; [lia|].
    replace (x * y - x * y') with (x * (y - y')) in E' by ring.
    apply prime_mult in E' as [D|D]; [contradiction|exact D|exact prime_N].
  - intros E. rewrite <- (Zmult_mod_idemp_r y), <- (Zmult_mod_idemp_r y'), E. reflexivity.
Qed.

(** A byte more makes the WIF longer. *)
Lemma wif_longer v ks w w' : v <> x00 -> base58check (v :: ks) w -> base58check (v :: x00 :: ks) w' ->
  (length w < length w')%nat.
Proof.
  intros Hv H H'. apply base58check_encode in H, H'. subst w w'. cbn [app].
  rewrite (b58encode_no_lead _ v _ eq_refl Hv), (b58encode_no_lead _ v _ eq_refl Hv), !map_length.
  rewrite <- !bytes_number_set_bytes, !bytes_number_cons.
  set (c := checksum4 (v :: ks)). set (c' := checksum4 (v :: x00 :: ks)).
  assert (Hlc : length c = 4%nat) by apply checksum4_length.
  assert (Hlc' : length c' = 4%nat) by apply checksum4_length.
  pose proof (bytes_number_bound (ks ++ c)) as B.
  pose proof (bytes_number_bound (ks ++ c')) as B'.
  change (byte_number x00) with 0. cbn [length].
  rewrite app_length in B, B'. rewrite !app_length. rewrite Hlc in *. rewrite Hlc' in *. rewrite Nat2Z.inj_succ, Z.pow_succ_r by lia.
  assert (V : 1 <= byte_number v) by (destruct v; try (exfalso; apply Hv; reflexivity); vm_compute; discriminate).
  set (Q := 256 ^ Z.of_nat (length ks + 4)) in *.
  assert (QP : 0 < Q) by (apply Z.pow_pos_nonneg; lia).
  set (m := byte_number v * Q + bytes_number (ks ++ c)).
  set (m' := byte_number v * (256 * Q) + (0 * Q + bytes_number (ks ++ c'))).
  assert (Hm : 0 < m) by (unfold m; nia).
  assert (Hmm : 58 * m <= m') by (unfold m, m'; nia).
  clearbody m m'.
  pose proof (proj1 (digits_length 58 m _ ltac:(lia) Hm) eq_refl) as (L1 & L2 & L3).
  destruct (Nat.lt_ge_cases (length (digits 58 m)) (length (digits 58 m'))) as [|Hge]; [assumption|exfalso].
  pose proof (proj1 (digits_length 58 m' _ ltac:(lia) ltac:(lia)) eq_refl) as (K1 & K2 & K3).
  set (l := length (digits 58 m)) in *. set (l' := length (digits 58 m')) in *.
  assert (H : 58 ^ Z.of_nat l' <= 58 ^ Z.of_nat l) by (apply Z.pow_le_mono_r; lia).
  replace (Z.of_nat l) with (Z.succ (Z.of_nat l - 1)) in H by lia.
  rewrite Z.pow_succ_r in H by lia. nia.
Qed.

Lemma equal_up_to_case_length s t : equal_up_to_case s t -> length s = length t.
Proof. induction 1; cbn [length]; congruence. Qed.

(** One number, two importable texts whose WIFs have different lengths. *)
Lemma two_imports n v z : hex_text (PrivKeyPrefix n) [v] -> v <> x00 -> 0 <= z < 2 ^ 256 ->
  exists h1 k1 h2 k2, PrivateFromHex h1 (Some n) = Ret (Ok k1) /\ PrivateFromHex h2 (Some n) = Ret (Ok k2) /\
    Key k1 = Some z /\ Key k2 = Some z /\ KNetwork k1 = Some n /\ KNetwork k2 = Some n /\
    length (WIF k1) <> length (WIF k2).
Proof.
  intros Hv Hv0 Hz. destruct (hex64_octets z Hz) as (X & [XL XN] & HX). apply hex_text_decode in HX.
  pose proof (hex64_length z Hz) as L.
  assert (T : hex_text (str "00") [x00]) by (apply hex_text_decode; reflexivity).
  pose proof (hex_text_app _ _ _ _ T HX) as HX2.
  destruct (PrivateFromHex_exact (hex64 z) n) as (A & _ & _).
  destruct (PrivateFromHex_exact (str "00" ++ hex64 z) n) as (B & _ & _).
  destruct A as (k1 & P1 & _ & N1 & K1); [eexists; apply hex_text_app; eassumption|].
  destruct B as (k2 & P2 & _ & N2 & K2); [eexists; apply hex_text_app; eassumption|].
  exists (hex64 z), k1, (str "00" ++ hex64 z), k2. split; [exact P1|]. split; [exact P2|].
  assert (Q1 : hex_number (hex64 z) z).
  { rewrite <- XN at 2. apply hex_number_bytes; [intros E; rewrite E in L; discriminate|exact HX]. }
  assert (Q2 : hex_number (str "00" ++ hex64 z) z).
  { assert (E : bytes_number ([x00] ++ X) = z) by (cbn [app]; rewrite bytes_number_cons; change (byte_number x00) with 0; lia).
    rewrite <- E at 2. apply hex_number_bytes; [discriminate|exact HX2]. }
  split. { destruct (Key k1) as [u|]; [f_equal; eapply hex_number_fun; eassumption|]. rewrite K1 in L. discriminate. }
  split. { destruct (Key k2) as [u|]; [f_equal; eapply hex_number_fun; eassumption|]. discriminate. }
  split; [exact N1|]. split; [exact N2|].
  destruct (std_wif_payload _ _ _ _ Hv P1) as (ks1 & T1 & _ & W1).
  destruct (std_wif_payload _ _ _ _ Hv P2) as (ks2 & T2 & _ & W2).
  rewrite (hex_text_fun _ _ _ T1 HX) in W1. rewrite (hex_text_fun _ _ _ T2 HX2) in W2.
  pose proof (wif_longer v X _ _ Hv0 W1 W2). lia.
Qed.

Lemma complement op n v a x z t s : hex_text (PrivKeyPrefix n) [v] -> v <> x00 ->
  KNetwork a = Some n -> Key a = Some x -> 0 <= z < 2 ^ 256 -> op x z mod secp_N = t ->
  shortest_hex s t -> Nat.even (length s) = true ->
  exists h b c, PrivateFromHex h (Some n) = Ret (Ok b) /\ Key b = Some z /\
    combine op a b = Ret (Ok c) /\ Key c = Some t.
Proof.
  intros Hv Hv0 Hn Hx Hz Ht Hs He.
  destruct (two_imports n v z Hv Hv0 Hz) as (h1 & k1 & h2 & k2 & P1 & P2 & K1 & K2 & N1 & N2 & Hl).
  assert (G : forall h k, PrivateFromHex h (Some n) = Ret (Ok k) -> Key k = Some z -> KNetwork k = Some n ->
                length (WIF a) <> length (WIF k) ->
                exists h b c, PrivateFromHex h (Some n) = Ret (Ok b) /\ Key b = Some z /\
                  combine op a b = Ret (Ok c) /\ Key c = Some t).
  { intros h k P K N Hd.
    destruct (combine_outcome op a k n n [v] x z Hn N Hv Hx K) as (_ & _ & O).
    assert (Hne : ~ equal_up_to_case (WIF a) (WIF k)) by (intros Q; apply Hd, equal_up_to_case_length, Q).
    rewrite Ht in O. destruct (O eq_refl Hne s Hs) as (_ & O2).
    rewrite <- Nat.negb_odd in He. apply negb_true_iff in He.
    destruct (O2 He) as (c & Hc). exists h, k, c. split; [exact P|]. split; [exact K|]. split; [exact Hc|].
    rewrite <- Ht. exact (combine_key op a k c x z Hc Hx K). }
  destruct (Nat.eq_dec (length (WIF a)) (length (WIF k1))) as [E|E].
  - apply (G h2 k2); try assumption. congruence.
  - apply (G h1 k1); assumption.
Qed.

Lemma N_lt_2_256 : secp_N < 2 ^ 256.
Proof. vm_compute. reflexivity. Qed.

Lemma add_complement n v a x t s : hex_text (PrivKeyPrefix n) [v] -> v <> x00 ->
  KNetwork a = Some n -> Key a = Some x -> 0 <= t < n256k1 ->
  shortest_hex s t -> Nat.even (length s) = true ->
  exists h b c y, PrivateFromHex h (Some n) = Ret (Ok b) /\ Key b = Some y /\ 0 <= y < n256k1 /\
    AddPrivateKeys a b = Ret (Ok c) /\ Key c = Some t /\
    forall b' c' y', Key b' = Some y' -> 0 <= y' < n256k1 ->
      AddPrivateKeys a b' = Ret (Ok c') -> Key c' = Some t -> y' = y.
Proof.
  intros Hv Hv0 Hn Hx Ht Hs He. pose proof N_lt_2_256 as NL. pose proof CombFacts.N_pos as NP.
  set (y := (t - x) mod secp_N). pose proof (mod_N_range (t - x)) as Hy. fold y in Hy. rewrite n256k1_N in *.
  destruct (complement Z.add n v a x y t s Hv Hv0 Hn Hx ltac:(lia)) as (h & b & c & P & K & S & Kc).
  { unfold y. rewrite Zplus_mod_idemp_r. replace (x + (t - x)) with t by lia. apply Z.mod_small, Ht. }
  { exact Hs. } { exact He. }
  exists h, b, c, y. split; [exact P|]. split; [exact K|]. split; [exact Hy|]. split; [exact S|]. split; [exact Kc|].
  intros b' c' y' K' Hy' S' Kc'.
  assert (E : y' mod n256k1 = y mod n256k1) by (apply (add_cancels a b' b c' c x y' y Hx K' K S' S); congruence).
  rewrite n256k1_N, !Z.mod_small in E by assumption. exact E.
Qed.

Lemma mul_complement n v a x t s : hex_text (PrivKeyPrefix n) [v] -> v <> x00 ->
  KNetwork a = Some n -> Key a = Some x -> 1 <= x < n256k1 -> 0 <= t < n256k1 ->
  shortest_hex s t -> Nat.even (length s) = true ->
  exists h b c y, PrivateFromHex h (Some n) = Ret (Ok b) /\ Key b = Some y /\ 0 <= y < n256k1 /\
    MultiplyPrivateKeys a b = Ret (Ok c) /\ Key c = Some t /\
    forall b' c' y', Key b' = Some y' -> 0 <= y' < n256k1 ->
      MultiplyPrivateKeys a b' = Ret (Ok c') -> Key c' = Some t -> y' = y.
Proof.
  intros Hv Hv0 Hn Hx Rx Ht Hs He. pose proof N_lt_2_256 as NL. pose proof CombFacts.N_pos as NP. rewrite n256k1_N in *.
  assert (Hd : ~ (secp_N | x)) by (intros D; apply Z.divide_pos_le in D; lia).
  destruct (bezout_nat x Hd ltac:(lia)) as (u & w & _ & _ & E).
  set (y := (u * t) mod secp_N). pose proof (mod_N_range (u * t)) as Hy. fold y in Hy.
  destruct (complement Z.mul n v a x y t s Hv Hv0 Hn Hx ltac:(lia)) as (h & b & c & P & K & S & Kc).
  { unfold y. rewrite Zmult_mod_idemp_r. replace (x * (u * t)) with (t + (w * t) * secp_N) by nia.
    rewrite Z.mod_add by lia. apply Z.mod_small, Ht. }
  { exact Hs. } { exact He. }
  exists h, b, c, y. split; [exact P|]. split; [exact K|]. split; [exact Hy|]. split; [exact S|]. split; [exact Kc|].
  intros b' c' y' K' Hy' S' Kc'. rewrite <- n256k1_N in Hd.
  assert (E' : y' mod n256k1 = y mod n256k1) by (apply (mul_cancels a b' b c' c x y' y Hx K' K Hd S' S); congruence).
  rewrite n256k1_N, !Z.mod_small in E' by assumption. exact E'.
Qed.

(** ** C84: what is returned is a usable key *)

Lemma combine_nonzero op a b c n bs : KNetwork a = Some n -> hex_text (PrivKeyPrefix n) bs ->
  combine op a b = Ret (Ok c) -> exists z, Key c = Some z /\ 1 <= z < secp_N.
Proof.
  intros Hn Hbs H. pose proof H as H0. apply combine_success in H as (x & y & Kx & Ky & En & K & _ & _ & _).
  exists (op x y mod secp_N). split; [exact K|]. pose proof (mod_N_range (op x y)) as R.
  assert (op x y mod secp_N <> 0); [|lia]. intros Z0.
  destruct (combine_outcome op a b n n bs x y Hn (eq_trans (eq_sym En) Hn) Hbs Kx Ky) as (_ & O1 & O2).
  destruct (byte_string_dec (to_lower (WIF a)) (to_lower (WIF b))) as [Q|Q].
  - apply equal_up_to_case_lower in Q. rewrite (O1 eq_refl Q) in H0. discriminate.
  - assert (Q' : ~ equal_up_to_case (WIF a) (WIF b)) by (intros W; apply Q, equal_up_to_case_lower, W).
    destruct (O2 eq_refl Q' (str "0")) as (O3 & _).
    { rewrite Z0. apply shortest_hex_sprintf. split; [lia|reflexivity]. }
    rewrite (O3 eq_refl) in H0. discriminate.
Qed.

Section Usable.
Context (E : ecdsa_lib) (HE : ecdsa_contract E).

Lemma combined_usable a b c n bs : KNetwork a = Some n -> hex_text (PrivKeyPrefix n) bs ->
  AddPrivateKeys a b = Ret (Ok c) \/ MultiplyPrivateKeys a b = Ret (Ok c) ->
  exists z A, Key c = Some z /\ 1 <= z < n256k1 /\ GetPublicKey E c = Ret (Some A) /\ curve_key A.
Proof.
  intros Hn Hbs H. rewrite Add_combine, Mul_combine in H.
  assert (exists z, Key c = Some z /\ 1 <= z < secp_N) as (z & K & R)
    by (destruct H as [H|H]; eapply combine_nonzero; eassumption).
  rewrite <- n256k1_N in R.
  destruct (GetPublicKey_range E HE c z K R) as (x & y & HA & C & _).
  exists z. eexists. split; [exact K|]. split; [exact R|]. split; [exact HA|].
  exists x, y. split; [reflexivity|]. split; [reflexivity|exact C].
Qed.

End Usable.

(** Products of usable keys are never zero, on any network. *)
Lemma product_usable a b c x y : Key a = Some x -> Key b = Some y -> 1 <= x < n256k1 -> 1 <= y < n256k1 ->
  MultiplyPrivateKeys a b = Ret (Ok c) -> exists z, Key c = Some z /\ 1 <= z < n256k1.
Proof.
  intros Ka Kb Hx Hy H. rewrite Mul_combine in H. rewrite n256k1_N in *.
  exists (x * y mod secp_N). split; [exact (combine_key _ _ _ _ _ _ H Ka Kb)|].
  pose proof (mod_N_range (x * y)) as R.
  assert (x * y mod secp_N <> 0); [|lia]. intros Z0.
  pose proof CombFacts.N_pos as NP. apply Z.mod_divide in Z0; [|lia].
  apply prime_mult in Z0 as [D|D]; [| |exact prime_N]; apply Z.divide_pos_le in D; lia.
Qed.

(** ** C85: doubling *)

Lemma add_itself a : AddPrivateKeys a a = Ret (Err EIdentical) /\ MultiplyPrivateKeys a a = Ret (Err EIdentical).
Proof.
  unfold AddPrivateKeys, MultiplyPrivateKeys. rewrite net_eqb_refl. cbn [negb].
  rewrite (proj2 (str_eqb_eq _ _) eq_refl). auto.
Qed.

Lemma leading_zeros h n v k z : hex_text (PrivKeyPrefix n) [v] -> v <> x00 ->
  PrivateFromHex h (Some n) = Ret (Ok k) -> Key k = Some z ->
  exists k', PrivateFromHex (str "00" ++ h) (Some n) = Ret (Ok k') /\ Key k' = Some z /\
    (length (WIF k) < length (WIF k'))%nat /\
    (forall s, shortest_hex s ((z + z) mod n256k1) ->
       (Nat.even (length s) = true -> exists c, AddPrivateKeys k k' = Ret (Ok c) /\ Key c = Some ((z + z) mod n256k1)) /\
       (Nat.even (length s) = false -> AddPrivateKeys k k' = Ret (Err EHexLength))) /\
    (forall s, shortest_hex s ((z * z) mod n256k1) ->
       (Nat.even (length s) = true -> exists c, MultiplyPrivateKeys k k' = Ret (Ok c) /\ Key c = Some ((z * z) mod n256k1)) /\
       (Nat.even (length s) = false -> MultiplyPrivateKeys k k' = Ret (Err EHexLength))).
Proof.
  intros Hv Hv0 P K.
  destruct (std_wif_payload _ _ _ _ Hv P) as (ks & T & _ & W).
  assert (T0 : hex_text (str "00") [x00]) by (apply hex_text_decode; reflexivity).
  pose proof (hex_text_app _ _ _ _ T0 T) as T'.
  destruct (PrivateFromHex_exact (str "00" ++ h) n) as (A & _ & _).
  destruct A as (k' & P' & _ & N' & K'); [eexists; apply hex_text_app; eassumption|].
  exists k'. split; [exact P'|].
  pose proof (proj1 (PrivateFromHex_success _ _ _) P) as (bs & _ & _ & _ & Nk & Kz). rewrite K in Kz.
  assert (Hne : h <> []) by (apply Kz).
  assert (Kk' : Key k' = Some z).
  { destruct (Key k') as [u|]; [|discriminate K']. f_equal. apply (hex_number_fun _ _ _ K').
    assert (Z0 : z = bytes_number ks) by (eapply hex_number_fun; [exact Kz|apply hex_number_bytes; assumption]).
    assert (Ez : bytes_number ([x00] ++ ks) = z) by (cbn [app]; rewrite bytes_number_cons; change (byte_number x00) with 0; lia).
    rewrite <- Ez. apply hex_number_bytes; [discriminate|exact T']. }
  split; [exact Kk'|].
  destruct (std_wif_payload _ _ _ _ Hv P') as (ks' & T2 & _ & W').
  rewrite (hex_text_fun _ _ _ T2 T') in W'. pose proof (wif_longer v ks _ _ Hv0 W W') as L.
  split; [exact L|].
  assert (Hd : ~ equal_up_to_case (WIF k) (WIF k')) by (intros Q; apply equal_up_to_case_length in Q; lia).
  assert (G : forall op s, shortest_hex s (op z z mod secp_N) ->
    (Nat.even (length s) = true -> exists c, combine op k k' = Ret (Ok c) /\ Key c = Some (op z z mod secp_N)) /\
    (Nat.even (length s) = false -> combine op k k' = Ret (Err EHexLength))).
  { intros op s Hs. destruct (combine_outcome op k k' n n [v] z z Nk N' Hv K Kk') as (_ & _ & O).
    destruct (O eq_refl Hd s Hs) as (O1 & O2). split; intros He.
    - rewrite <- Nat.negb_odd in He. apply negb_true_iff in He. destruct (O2 He) as (c & Hc).
      exists c. split; [exact Hc|]. exact (combine_key op k k' c z z Hc K Kk').
    - apply O1. rewrite <- Nat.negb_even, He. reflexivity. }
  rewrite n256k1_N. split; intros s Hs; [apply (G Z.add s Hs)|apply (G Z.mul s Hs)].
Qed.

Section Points.
Context (E : ecdsa_lib) (HE : ecdsa_contract E).

Lemma double_public a x A f : Key a = Some x -> 0 <= x -> GetPublicKey E a = Ret (Some A) ->
  exists px py, AddPublicKeys E A A f = Ret (Ok (PublicKey (Some px) (Some py) (KNetwork a))) /\
    multiple (Some G256k1) (2 * x) (Some (px, py)).
Proof.
  intros K Hx HA. destruct (GetPublicKey_inv E HE a x A K Hx HA) as (xa & ya & -> & C & R).
  rewrite (AddPublicKeys_eq E HE) by assumption.
  destruct (ec_add (Some (xa, ya)) (Some (xa, ya))) as [[px py]|] eqn:S.
  - exists px, py. split; [reflexivity|]. apply multiple_G; [lia|].
    replace (2 * x) with (x + x) by lia. rewrite Z2Nat.inj_add, nmul_add, R by (try assumption; exact GG_valid). exact S.
  - apply double_nonzero in S; [discriminate|exact C].
Qed.

(** ** C86: public keys cancel *)

Lemma public_cancels p q q' c d r r' : curve_key p -> curve_key q -> curve_key q' ->
  AddPublicKeys E p q c = Ret (Ok r) -> AddPublicKeys E p q' d = Ret (Ok r') ->
  PX r = PX r' -> PY r = PY r' -> q = q'.
Proof.
  intros Hp Hq Hq' H H' EX EY.
  destruct (AddPublicKeys_inv E HE p q c r Hp Hq H) as (x1 & y1 & x2 & y2 & x & y & Ep & Eq & Er & C1 & C2 & _ & S).
  destruct (AddPublicKeys_inv E HE p q' d r' Hp Hq' H') as (x1' & y1' & x3 & y3 & x' & y' & Ep' & Eq' & Er' & _ & C3 & _ & S').
  assert (x1' = x1) by congruence. assert (y1' = y1) by congruence. subst x1' y1'.
  rewrite Er, Er' in EX, EY. cbn [PX PY] in EX, EY.
  assert (Q : Some (x2, y2) = Some (x3, y3)).
  { apply (add_cancel (Some (x1, y1))); [exact C1|exact C2|exact C3|]. congruence. }
  rewrite Eq, Eq'. congruence.
Qed.

Lemma public_subtract p q c d r x y y' : curve_key p -> curve_key q -> PX q = Some x -> PY q = Some y ->
  AddPublicKeys E p q c = Ret (Ok r) -> curve_point (x, y') -> cong (y + y') 0 ->
  AddPublicKeys E r (PublicKey (Some x) (Some y') (PNetwork q)) d = Ret (Ok p).
Proof.
  intros Hp Hq HX HY H C' Hc.
  destruct (AddPublicKeys_inv E HE p q c r Hp Hq H) as (x1 & y1 & x2 & y2 & xr & yr & Ep & Eq & Er & C1 & C2 & C3 & S).
  assert (x2 = x) by (rewrite Eq in HX; cbn in HX; congruence).
  assert (y2 = y) by (rewrite Eq in HY; cbn in HY; congruence). subst x2 y2.
  apply curve_point_iff in C'.
  assert (Hn : PNetwork q = PNetwork p) by (rewrite Eq; reflexivity).
  rewrite Er, Hn. rewrite (AddPublicKeys_eq E HE) by assumption.
  rewrite <- S.
  rewrite ec_add_assoc by assumption.
  assert (ec_add (Some (x, y)) (Some (x, y')) = None) as ->.
  { cbn [ec_add]. rewrite Z.eqb_refl. apply cong0 in Hc. rewrite Hc. reflexivity. }
  rewrite ec_add_0_r. rewrite Ep. reflexivity.
Qed.

(** The key to subtract exists and is importable from the text of the other one
    with the other sign. *)
Lemma opposite_exists x y : curve_point (x, y) ->
  curve_point (x, p256k1 - y) /\ cong (y + (p256k1 - y)) 0.
Proof.
  intros C. assert (Hc : cong (y + (p256k1 - y)) 0) by (exists 1; lia).
  split; [|exact Hc]. apply curve_point_iff in C.
  pose proof (neg_valid (Some (x, y)) C) as V. cbn [ec_neg valid] in V.
  assert (Y0 : y <> 0).
  { intros ->. assert (D : ec_add (Some (x, 0)) (Some (x, 0)) = None).
    { cbn [ec_add]. rewrite Z.eqb_refl, Zmod_0_l. reflexivity. }
    apply double_nonzero in D; [discriminate|exact C]. }
  apply curve_point_iff. pose proof C as (_ & Ry & _). rewrite p256k1_P.
  replace (secp_P - y) with ((- y) mod secp_P); [exact V|].
  rewrite Z_mod_nz_opp_full; rewrite Z.mod_small by exact Ry; lia.
Qed.

(** C82 for private keys. *)
Lemma private_collision a b x y A B c d n t : Key a = Some x -> Key b = Some y ->
  1 <= x < n256k1 -> 1 <= y < n256k1 -> KNetwork a = Some n -> KNetwork b = Some n ->
  GetPublicKey E a = Ret (Some A) -> GetPublicKey E b = Ret (Some B) ->
  Address A c = Ret (Ok t) -> Address B d = Ret (Ok t) ->
  (c = d /\ x = y) \/
  (exists bs bt : list byte, bs <> bt /\ sha256 bs = sha256 bt) \/
  (exists bs bt : list byte, bs <> bt /\ length bs = 32%nat /\ length bt = 32%nat /\ ripemd160 bs = ripemd160 bt).
Proof.
  intros Ka Kb Hx Hy Na Nb HA HB H1 H2.
  destruct (GetPublicKey_inv E HE a x A Ka ltac:(lia) HA) as (xa & ya & EA & CA & RA).
  destruct (GetPublicKey_inv E HE b y B Kb ltac:(lia) HB) as (xb & yb & EB & CB & RB).
  rewrite EA, Na in H1. rewrite EB, Nb in H2. apply curve_point_iff in CA, CB.
  destruct (address_collision xa ya xb yb n c d t CA CB H1 H2) as [(Ec & Ex & Ey)|(bs & bt & S1 & S2 & Ne & Col)].
  - left. split; [exact Ec|].
    apply (distinct_points E HE a b x y A B Ka Kb Hx Hy HA HB); rewrite EA, EB; cbn [PX PY]; congruence.
  - right. destruct Col as [Col|[Ne2 Col]]; [left; eauto|right].
    exists (sha256 bs), (sha256 bt). rewrite !sha256_length. auto.
Qed.

End Points.

(** With a prefix of an odd number of digits the sum "0" completes a byte. *)
Definition odd_prefix : network := Network (str "8") (str "00").
Lemma zero_sum : exists n a b c,
  KNetwork a = Some n /\ KNetwork b = Some n /\
  Key a = Some 1 /\ Key b = Some (n256k1 - 1) /\
  AddPrivateKeys a b = Ret (Ok c) /\ Key c = Some 0 /\
  forall E, ecdsa_contract E -> GetPublicKey E c = Ret None.
Proof.
  exists odd_prefix, (key_on odd_prefix (str "001")),
    (key_on odd_prefix (str "0fffffffffffffffffffffffffffffffebaaedce6af48a03bbfd25e8cd0364140")),
    (key_on odd_prefix (str "0")).
  do 6 (split; [vm_compute; reflexivity|]). intros E HE.
  apply (GetPublicKey_infinity E HE _ 0); [vm_compute; reflexivity|lia|apply Z.divide_0_r].
Qed.
