(** * Private keys: the lemmas in the exact shape the property file needs *)

From Verif Require Import GoBase GoNum Sha256 Base58 GoRand Model.
From Verif Require Import NumFacts HexFacts Base58Facts Spec SpecApi SpecFacts PrivFacts GenFacts CombFacts.
From Coq Require Import ZifyBool ZifyNat ZifyN.
Local Open Scope Z_scope.
Local Opaque sha256.

Lemma produced_cases k : produced k ->
  (exists h net, PrivateFromHex h net = Ret (Ok k)) \/ (exists w net, PrivateFromWIF w net = Ret (Ok k)).
Proof.
  intros H. inversion H as [h net k' E|w net k' E|net rd k' rest E|a b k' E|a b k' E]; subst.
  - left; eauto.
  - right; eauto.
  - left. apply GeneratePrivateKey_success in E as (n & v & _ & _ & _ & _ & E). eauto.
  - left. apply combine_success in E as (x & y & _ & _ & _ & _ & _ & _ & E). eauto.
  - left. apply (combine_success Z.mul) in E as (x & y & _ & _ & _ & _ & _ & _ & E). eauto.
Qed.

Lemma produced_wif_valid k : produced k -> CheckWIF (WIF k) = Ret true.
Proof.
  intros H. apply produced_cases in H as [(h & net & H)|(w & net & H)].
  - apply (PrivateFromHex_wif_valid _ _ _ H).
  - apply PrivateFromWIF_success in H as (v & bs & Hw & ->). cbn. apply CheckWIF_true_iff. eauto.
Qed.

Lemma produced_number k : produced k ->
  match Key k with Some z => hex_number (Hex k) z | None => Hex k = [] end.
Proof.
  intros H. apply produced_cases in H as [(h & net & H)|(w & net & H)].
  - destruct net as [n|]; [|discriminate].
    apply PrivateFromHex_success in H as (bs & _ & _ & -> & _ & H). exact H.
  - apply PrivateFromWIF_success in H as (v & bs & Hw & ->). cbn [Key Hex].
    destruct bs as [|b bs]; [reflexivity|].
    apply hex_number_bytes; [rewrite hex_encode_cons; discriminate|apply hex_text_encode].
Qed.

Lemma hex_wif_hex' h n v k net' :
  hex_text (PrivKeyPrefix n) [v] -> PrivateFromHex h (Some n) = Ret (Ok k) ->
  exists k', PrivateFromWIF (WIF k) net' = Ret (Ok k') /\
    Key k' = Key k /\ WIF k' = WIF k /\ KNetwork k' = net' /\
    lower_case_hex (Hex k') /\ equal_up_to_case (Hex k') h.
Proof.
  intros Hv H. pose proof (hex_wif_hex _ _ _ _ net' Hv H) as K. eexists. split; [exact K|]. cbn.
  repeat split.
  - apply lower_case_hex_to_lower.
    destruct (std_wif_payload _ _ _ _ Hv H) as (ks & Ht & _). apply hex_text_decode in Ht.
    apply (hex_decode_ok_iff h). eauto.
  - apply equal_up_to_case_lower, to_lower_idem.
Qed.

Lemma wif_hex_wif_iff w n v v' p k :
  base58check (v :: p) w -> hex_text (PrivKeyPrefix n) [v'] ->
  PrivateFromWIF w (Some n) = Ret (Ok k) ->
  exists k', PrivateFromHex (Hex k) (Some n) = Ret (Ok k') /\ Key k' = Key k /\ Hex k' = Hex k /\
             (WIF k' = w <-> v' = v).
Proof.
  intros Hw Hv H. rewrite (PrivateFromWIF_ok _ _ _ _ Hw) in H. injection H as <-. cbn [Hex Key].
  apply hex_text_decode in Hv. eexists. split.
  - apply (PrivateFromHex_ok _ _ (v' :: p)).
    rewrite (hex_decode_app _ _ _ Hv), hex_decode_encode. reflexivity.
  - cbn [Key Hex WIF]. repeat split.
    + intros E. assert (B : base58check (v' :: p) w) by (apply base58check_encode; congruence).
      pose proof (base58check_inj _ _ _ B Hw) as K. congruence.
    + intros ->. apply base58check_encode in Hw. congruence.
Qed.

Lemma wif_main_test_differ h1 h2 k1 k2 :
  PrivateFromHex h1 (Some MainNetwork) = Ret (Ok k1) ->
  PrivateFromHex h2 (Some TestNetwork) = Ret (Ok k2) -> WIF k1 <> WIF k2.
Proof.
  intros H1 H2 E.
  destruct (std_wif_payload _ _ _ _ std_prefix_main H1) as (a & _ & _ & B1).
  destruct (std_wif_payload _ _ _ _ std_prefix_test H2) as (b & _ & _ & B2).
  rewrite E in B1. pose proof (base58check_inj _ _ _ B1 B2). discriminate.
Qed.

Lemma wif_same_net h1 h2 n k1 k2 :
  PrivateFromHex h1 (Some n) = Ret (Ok k1) -> PrivateFromHex h2 (Some n) = Ret (Ok k2) ->
  (WIF k1 = WIF k2 <-> equal_up_to_case h1 h2).
Proof.
  intros H1 H2. rewrite equal_up_to_case_lower.
  pose proof H1 as K1. pose proof H2 as K2.
  apply PrivateFromHex_success in K1 as (b1 & T1 & _), K2 as (b2 & T2 & _).
  rewrite (wif_unambiguous _ _ _ _ _ _ _ _ H1 H2 T1 T2).
  apply hex_text_decode in T1, T2. apply hex_encode_decode in T1, T2.
  rewrite to_lower_app in T1, T2. split.
  - intros ->. rewrite T1 in T2. apply app_inv_head in T2. exact T2.
  - intros E. rewrite E in T1. rewrite <- T2 in T1. apply hex_encode_inj in T1. exact T1.
Qed.

Lemma CheckWIF_exact w :
  (CheckWIF w = Ret true <-> exists p, base58check p w) /\
  (CheckWIF w = Ret false <->
     (~ exists p, base58check p w) /\ ~ exists bs, bs <> [] /\ (length bs < 4)%nat /\ base58_text bs w) /\
  ((exists e, CheckWIF w = Panic e) <->
     exists bs, bs <> [] /\ (length bs < 4)%nat /\ base58_text bs w).
Proof.
  pose proof (CheckWIF_true_iff w) as H1. pose proof (CheckWIF_panic_iff w) as H2.
  split; [assumption|split; [|assumption]]. rewrite <- H1, <- H2.
  destruct (CheckWIF w) as [[|]|e]; split; intros K; try discriminate; try congruence.
  - destruct K as [K _]. congruence.
  - split; [discriminate|]. intros [e He]. discriminate.
  - destruct K as [_ K]. exfalso. eauto.
Qed.

Lemma PrivateFromHex_exact h n :
  ((exists bs, hex_text (PrivKeyPrefix n ++ h) bs) ->
     exists k, PrivateFromHex h (Some n) = Ret (Ok k) /\ Hex k = h /\ KNetwork k = Some n /\
       match Key k with Some z => hex_number h z | None => h = [] end) /\
  ((~ exists bs, hex_text (PrivKeyPrefix n ++ h) bs) ->
     exists e, PrivateFromHex h (Some n) = Ret (Err e)) /\
  PrivateFromHex h None = Panic PNil.
Proof.
  repeat split.
  - intros H. apply PrivateFromHex_accepts in H as [k H]. exists k. split; [assumption|].
    apply PrivateFromHex_success in H as (bs & _ & _ & H). exact H.
  - intros H. destruct (PrivateFromHex_total h n) as [[k|e] E]; [|eauto].
    exfalso. apply H, PrivateFromHex_accepts. eauto.
Qed.

Lemma hex_text_iff s : (exists bs, hex_text s bs) <->
  Nat.even (length s) = true /\ Forall (fun c => exists d, hex_digit c d) s.
Proof.
  assert ((exists bs, hex_text s bs) <-> (exists bs, hex_decode s = Ok bs)) as ->.
  { split; intros [bs H]; exists bs; apply hex_text_decode, H. }
  rewrite hex_decode_ok_iff. apply and_iff_compat_l.
  split; intros H; (eapply Forall_impl; [|exact H]); cbn.
  - intros c Hc. apply is_hex_fromhex in Hc as [d Hd]. eexists. apply fromhex_hex_digit, Hd.
  - intros c [d Hd]. apply hex_digit_fromhex in Hd. apply is_hex_fromhex. eauto.
Qed.

Lemma no_range_check_std net n : net = MainNetwork \/ net = TestNetwork -> 0 <= n ->
  exists h k, PrivateFromHex h (Some net) = Ret (Ok k) /\ Key k = Some n.
Proof.
  intros [->| ->] Hn; [apply (no_range_check _ _ [x80])|apply (no_range_check _ _ [xef])];
    try assumption; [apply std_prefix_main|apply std_prefix_test].
Qed.

Lemma PrivateFromWIF_exact w net :
  (forall k, PrivateFromWIF w net = Ret (Ok k) <->
     exists v bs, base58check (v :: bs) w /\ WIF k = w /\ KNetwork k = net /\
       hex_text (Hex k) bs /\ lower_case_hex (Hex k) /\
       Key k = match bs with [] => None | _ => Some (bytes_number bs) end).
Proof.
  intros k. rewrite PrivateFromWIF_success. split.
  - intros (v & bs & Hw & ->). exists v, bs. cbn. repeat split; try assumption.
    + apply hex_text_encode.
    + apply lower_case_hex_encode.
  - intros (v & bs & Hw & H1 & H2 & H3 & H4 & H5). exists v, bs. split; [assumption|].
    destruct k as [a b c d]. cbn in *. rewrite (hex_text_lower _ _ H3 H4). congruence.
Qed.

Lemma PrivateFromWIF_network_ignored w net net' k : PrivateFromWIF w net = Ret (Ok k) ->
  PrivateFromWIF w net' = Ret (Ok (PrivateKey (Key k) (Hex k) (WIF k) net')).
Proof.
  rewrite !PrivateFromWIF_success. intros (v & bs & Hw & ->). exists v, bs. auto.
Qed.

Lemma PrivateFromWIF_outcomes w net :
  ((exists e, PrivateFromWIF w net = Panic e) <->
     base58check [] w \/ exists bs, bs <> [] /\ (length bs < 4)%nat /\ base58_text bs w) /\
  (forall e, PrivateFromWIF w net = Ret (Err e) <-> e = EWifInvalid /\ CheckWIF w = Ret false).
Proof. split; [apply PrivateFromWIF_panic_iff|intros; apply PrivateFromWIF_error_iff]. Qed.

Lemma compressed_wif' w v ks net : length ks = 32%nat -> base58check (v :: ks ++ [x01]) w ->
  exists k, PrivateFromWIF w net = Ret (Ok k) /\
    Key k = Some (256 * bytes_number ks + 1) /\ Key k <> Some (bytes_number ks) /\ length (Hex k) = 66%nat.
Proof.
  intros Hl Hw. eexists. split; [apply (compressed_wif _ _ _ net Hl Hw)|]. cbn [Key Hex].
  split; [reflexivity|]. split.
  - pose proof (bytes_number_bound ks) as Hb.
    assert (256 * bytes_number ks + 1 <> bytes_number ks) by lia. congruence.
  - rewrite hex_encode_length, app_length, Hl. reflexivity.
Qed.

Lemma generated_wellformed net rd k rest : GeneratePrivateKey net rd = Ret (k, rest) ->
  exists v, Key k = Some v /\ 2 ^ 252 <= v <= secp_N - 2 /\
    length (Hex k) = 64%nat /\ lower_case_hex (Hex k) /\ hex_number (Hex k) v /\
    KNetwork k = net /\ PrivateFromHex (Hex k) net = Ret (Ok k).
Proof.
  intros H. apply GeneratePrivateKey_success in H as (n & v & -> & Hb & Hk & Hh & Hp).
  pose proof (first_block_good _ _ _ _ _ Hb) as Hg. pose proof (first_block_range _ _ _ _ _ Hb) as Hr.
  change (256 ^ Z.of_nat 32) with (2 ^ 256) in Hr.
  destruct (PrivateFromHex_sprintf _ _ _ (proj1 Hr) Hp) as (_ & _ & Hn & Hs).
  exists v. rewrite Hh at 1. destruct Hs as (Hs1 & Hs2 & _). rewrite <- Hh in Hp.
  unfold gen_range in Hg. repeat split; try assumption; try lia; try apply Hs2.
  apply sprintf_x_64; [assumption|]. unfold gen_big. lia.
Qed.

Lemma generated_shape rd k rest :
  (GeneratePrivateKey (Some MainNetwork) rd = Ret (k, rest) -> length (WIF k) = 51%nat /\ hd_error (WIF k) = Some x35) /\
  (GeneratePrivateKey (Some TestNetwork) rd = Ret (k, rest) -> length (WIF k) = 51%nat /\ hd_error (WIF k) = Some x39).
Proof.
  split; intros H; apply generated_wellformed in H as (v & _ & _ & Hl & _ & _ & _ & Hp).
  - apply (wif_main_shape _ _ Hl Hp).
  - apply (wif_test_shape _ _ Hl Hp).
Qed.

Lemma generate_iff_first_block n bs rd v rest :
  hex_text (PrivKeyPrefix n) bs ->
  (exists k, GeneratePrivateKey (Some n) rd = Ret (k, rest) /\ Key k = Some v) <->
  first_block 32 (fun z => 2 ^ 252 <= z <= secp_N - 2) rd v rest.
Proof.
  intros Hbs. pose proof (GeneratePrivateKey_spec n bs rd Hbs) as H. split.
  - intros (k & E & Hk). rewrite E in H. destruct H as (v' & Hb & Hk' & _).
    rewrite Hk in Hk'. injection Hk' as <-. exact Hb.
  - intros Hb. destruct (GeneratePrivateKey (Some n) rd) as [[k r]|p].
    + destruct H as (v' & Hb' & Hk' & _).
      destruct (first_block_fun _ _ _ _ _ _ _ Hb Hb') as [-> ->]. eauto.
    + destruct H as [_ H]. exfalso. apply (H _ _ Hb).
Qed.

Lemma generate_reaches n bs v : hex_text (PrivKeyPrefix n) bs ->
  (exists rd k rest, GeneratePrivateKey (Some n) rd = Ret (k, rest) /\ Key k = Some v) <->
  2 ^ 252 <= v <= secp_N - 2.
Proof.
  intros Hbs. split.
  - intros (rd & k & rest & H). 
    assert (exists k, GeneratePrivateKey (Some n) rd = Ret (k, rest) /\ Key k = Some v) as K by eauto.
    apply (generate_iff_first_block n bs rd v rest Hbs) in K. apply (first_block_good _ _ _ _ _ K).
  - intros Hv. destruct (octets_exist 32 v) as (b & Hl & Hn).
    { change (256 ^ Z.of_nat 32) with (2 ^ 256). pose proof N_lt_2_256.
      assert (0 < 2 ^ 252) by reflexivity. lia. }
    exists (b ++ []).
    assert (first_block 32 (fun z => 2 ^ 252 <= z <= secp_N - 2) (b ++ []) v []) as K.
    { rewrite <- Hn. apply first_here; [assumption|]. rewrite Hn. exact Hv. }
    apply (generate_iff_first_block n bs _ _ _ Hbs) in K as (k & K). eauto.
Qed.

Lemma generate_never_returns n rd r :
  (~ exists bs, hex_text (PrivKeyPrefix n) bs) -> GeneratePrivateKey (Some n) rd <> Ret r.
Proof. intros H. rewrite GeneratePrivateKey_bad by assumption. discriminate. Qed.

(** ** C20 *)

Lemma combine_assoc op a b c ab bc r s :
  (forall x y z, op (op x y mod secp_N) z mod secp_N = op x (op y z mod secp_N) mod secp_N) ->
  combine op a b = Ret (Ok ab) -> combine op ab c = Ret (Ok r) ->
  combine op b c = Ret (Ok bc) -> combine op a bc = Ret (Ok s) -> r = s.
Proof.
  intros Hop H1 H2 H3 H4. apply (combine_same_number op op ab c a bc); try assumption.
  - apply combine_success in H1 as (x & y & _ & _ & _ & _ & Hn & _). exact Hn.
  - apply combine_success in H1 as (x & y & Ka & Kb & _ & Kab & _).
    apply combine_success in H2 as (x' & z & Kab' & Kc & _ & Kr & _).
    apply combine_success in H3 as (y' & z' & Kb' & Kc' & _ & Kbc & _).
    apply combine_success in H4 as (x'' & w & Ka' & Kbc' & _ & Ks & _).
    rewrite Kr, Ks. f_equal. rewrite Kab in Kab'. rewrite Kbc in Kbc'.
    injection Kab' as <-. injection Kbc' as <-. rewrite Ka in Ka'. injection Ka' as <-.
    rewrite Kb in Kb'. injection Kb' as <-. rewrite Kc in Kc'. injection Kc' as <-. apply Hop.
Qed.

Lemma add_mod_assoc x y z : ((x + y) mod secp_N + z) mod secp_N = (x + (y + z) mod secp_N) mod secp_N.
Proof. rewrite Zplus_mod_idemp_l, Zplus_mod_idemp_r. f_equal. ring. Qed.
Lemma mul_mod_assoc x y z : ((x * y) mod secp_N * z) mod secp_N = (x * ((y * z) mod secp_N)) mod secp_N.
Proof. rewrite Zmult_mod_idemp_l, Zmult_mod_idemp_r. f_equal. ring. Qed.

Lemma add_assoc a b c ab bc r s :
  AddPrivateKeys a b = Ret (Ok ab) -> AddPrivateKeys ab c = Ret (Ok r) ->
  AddPrivateKeys b c = Ret (Ok bc) -> AddPrivateKeys a bc = Ret (Ok s) -> r = s.
Proof. apply (combine_assoc Z.add). apply add_mod_assoc. Qed.
Lemma mul_assoc a b c ab bc r s :
  MultiplyPrivateKeys a b = Ret (Ok ab) -> MultiplyPrivateKeys ab c = Ret (Ok r) ->
  MultiplyPrivateKeys b c = Ret (Ok bc) -> MultiplyPrivateKeys a bc = Ret (Ok s) -> r = s.
Proof. apply (combine_assoc Z.mul). apply mul_mod_assoc. Qed.
Lemma mul_add_distr a b c bc ab ac r s :
  AddPrivateKeys b c = Ret (Ok bc) -> MultiplyPrivateKeys a bc = Ret (Ok r) ->
  MultiplyPrivateKeys a b = Ret (Ok ab) -> MultiplyPrivateKeys a c = Ret (Ok ac) ->
  AddPrivateKeys ab ac = Ret (Ok s) -> r = s.
Proof.
  rewrite !Add_combine, !Mul_combine. intros H1 H2 H3 H4 H5.
  apply (combine_same_number Z.mul Z.add a bc ab ac); try assumption.
  - apply combine_success in H3 as (x & y & _ & _ & _ & _ & Hn & _). congruence.
  - apply combine_success in H1 as (x1 & y1 & A1 & B1 & _ & C1 & _).
    apply combine_success in H2 as (x2 & y2 & A2 & B2 & _ & C2 & _).
    apply combine_success in H3 as (x3 & y3 & A3 & B3 & _ & C3 & _).
    apply combine_success in H4 as (x4 & y4 & A4 & B4 & _ & C4 & _).
    apply combine_success in H5 as (x5 & y5 & A5 & B5 & _ & C5 & _).
    rewrite C2, C5. f_equal. rewrite C1 in B2. injection B2 as <-. rewrite C3 in A5. injection A5 as <-.
    rewrite C4 in B5. injection B5 as <-. rewrite A2 in A3, A4. injection A3 as <-. injection A4 as <-.
    rewrite A1 in B3. injection B3 as <-. rewrite B1 in B4. injection B4 as <-.
    rewrite Zmult_mod_idemp_r, <- Zplus_mod. f_equal. ring.
Qed.

Lemma add_comm a b : AddPrivateKeys a b = AddPrivateKeys b a.
Proof. apply (combine_comm Z.add). intros; ring. Qed.
Lemma mul_comm a b : MultiplyPrivateKeys a b = MultiplyPrivateKeys b a.
Proof. apply (combine_comm Z.mul). intros; ring. Qed.

(** C23, universal part. *)
Lemma same_wif_refused a b : KNetwork a = KNetwork b -> WIF a = WIF b ->
  AddPrivateKeys a b = Ret (Err EIdentical) /\ MultiplyPrivateKeys a b = Ret (Err EIdentical).
Proof.
  intros Hn Hw. unfold AddPrivateKeys, MultiplyPrivateKeys.
  rewrite Hn, Hw, net_eqb_refl, str_eqb_refl. auto.
Qed.

Lemma wif_is_base58check h n k bs :
  PrivateFromHex h (Some n) = Ret (Ok k) -> hex_text (PrivKeyPrefix n ++ h) bs ->
  base58check bs (WIF k).
Proof.
  intros H Ht. apply PrivateFromHex_success in H as (bs' & Ht' & Hw & _).
  rewrite (hex_text_fun _ _ _ Ht Ht'). exact Hw.
Qed.

(** ** C50 *)

Lemma random_number rd v rest :
  generateRandomBigInt rd = Ret (v, rest) <-> first_block 32 (fun z => z < secp_N - 1) rd v rest.
Proof.
  pose proof (generateRandomBigInt_spec rd) as H. split.
  - intros E. rewrite E in H. exact H.
  - intros Hb. destruct (generateRandomBigInt rd) as [[v' r']|p].
    + destruct (first_block_fun _ _ _ _ _ _ _ Hb H) as [-> ->]. reflexivity.
    + destruct H as [_ H]. exfalso. apply (H _ _ Hb).
Qed.
Lemma random_panics rd :
  (exists e, generateRandomBigInt rd = Panic e) <->
  ~ exists v rest, first_block 32 (fun z => z < secp_N - 1) rd v rest.
Proof.
  pose proof (generateRandomBigInt_spec rd) as H. split.
  - intros [e E] (v & r & Hb). rewrite E in H. apply (proj2 H _ _ Hb).
  - intros Hn. destruct (generateRandomBigInt rd) as [[v r]|p]; [|eauto].
    exfalso. apply Hn. exists v, r. exact H.
Qed.
Lemma random_range rd v rest : generateRandomBigInt rd = Ret (v, rest) ->
  0 <= v <= secp_N - 2 /\ exists m, (0 < m)%nat /\ length rd = (m * 32 + length rest)%nat.
Proof.
  intros H. apply random_number in H.
  pose proof (first_block_range _ _ _ _ _ H). pose proof (first_block_good _ _ _ _ _ H) as Hg. cbn beta in Hg.
  split; [lia|]. apply (first_block_length _ _ _ _ _ H).
Qed.
