(** * Private keys: lemmas behind properties C01-C12 *)

From Verif Require Import GoBase GoNum Sha256 Base58 GoRand Model.
From Verif Require Import NumFacts HexFacts Base58Facts Spec SpecFacts.
From Coq Require Import ZifyBool ZifyNat ZifyN.
Local Open Scope Z_scope.
Local Opaque sha256.

Lemma hex_encode_len bs : len (hex_encode bs) = 2 * len bs.
Proof. unfold len. rewrite hex_encode_length. lia. Qed.

Lemma firstn_hex k bs : (k <= length bs)%nat ->
  firstn (2 * k) (hex_encode bs) = hex_encode (firstn k bs).
Proof.
  intros Hk. rewrite <- (firstn_skipn k bs) at 1. rewrite hex_encode_app, firstn_app.
  rewrite firstn_all2 by (rewrite hex_encode_length, firstn_length; lia).
  rewrite hex_encode_length, firstn_length.
  replace (2 * k - 2 * Nat.min k (length bs))%nat with O by lia. apply app_nil_r.
Qed.

(** The first eight hex digits of the double hash. *)
Lemma checksum_slice p : slice (hex_encode (sha256 (sha256 p))) 0 8 = Ret (hex_encode (checksum4 p)).
Proof.
  rewrite slice_ok; [|lia|rewrite hex_encode_len; unfold len; rewrite sha256_length; lia].
  change (Z.to_nat (8 - 0)) with (2 * 4)%nat. cbn [Z.to_nat skipn].
  rewrite firstn_hex by (rewrite sha256_length; lia). reflexivity.
Qed.

Lemma CheckWIF_short w bs : b58decode w = Ok bs -> (length bs < 4)%nat -> CheckWIF w = Panic PSlice.
Proof.
  intros H Hl. unfold CheckWIF. rewrite H. cbv zeta.
  rewrite slice_bad; [reflexivity|]. rewrite hex_encode_len. unfold len. lia.
Qed.

Lemma CheckWIF_split w p c : b58decode w = Ok (p ++ c) -> length c = 4%nat ->
  CheckWIF w = Ret (str_eqb (hex_encode (checksum4 p)) (hex_encode c)).
Proof.
  intros H Hl. unfold CheckWIF. rewrite H. cbv zeta. rewrite hex_encode_app.
  assert (E : len (hex_encode p ++ hex_encode c) - 8 = len (hex_encode p)).
  { unfold len. rewrite app_length, (hex_encode_length c), Hl. lia. }
  rewrite E, slice_suffix, slice_prefix. cbn [bind].
  rewrite hex_decode_encode, checksum_slice. reflexivity.
Qed.

Lemma split4 {A} (bs : list A) : (4 <= length bs)%nat ->
  exists p c, bs = p ++ c /\ length c = 4%nat.
Proof.
  intros H. exists (firstn (length bs - 4) bs), (skipn (length bs - 4) bs). split.
  - symmetry. apply firstn_skipn.
  - rewrite skipn_length. lia.
Qed.

Lemma CheckWIF_invalid w e : b58decode w = Err e -> CheckWIF w = Ret false.
Proof. intros H. unfold CheckWIF. rewrite H. reflexivity. Qed.

Lemma base58check_decode p w : base58check p w <-> b58decode w = Ok (p ++ checksum4 p).
Proof.
  rewrite base58check_encode, b58decode_iff. split; [|intros [_ H]; exact H].
  intros H. split; [|exact H]. intros E. apply (f_equal (@length byte)) in E.
  rewrite app_length, checksum4_length in E. cbn in E. lia.
Qed.

(** C06 *)
Lemma CheckWIF_true_iff w : CheckWIF w = Ret true <-> exists p, base58check p w.
Proof.
  split.
  - intros H. destruct (b58decode w) as [bs|e] eqn:E.
    + destruct (Nat.lt_ge_cases (length bs) 4) as [Hlt|Hge].
      * rewrite (CheckWIF_short _ _ E Hlt) in H. discriminate.
      * destruct (split4 bs Hge) as (p & c & -> & Hc).
        rewrite (CheckWIF_split _ _ _ E Hc) in H. injection H as H. apply str_eqb_eq in H.
        apply hex_encode_inj in H. exists p. apply base58check_decode. rewrite H. exact E.
    + rewrite (CheckWIF_invalid _ _ E) in H. discriminate.
  - intros (p & H). apply base58check_decode in H.
    rewrite (CheckWIF_split _ _ _ H (checksum4_length p)). rewrite str_eqb_refl. reflexivity.
Qed.

(** C07 *)
Lemma CheckWIF_panic_iff w :
  (exists e, CheckWIF w = Panic e) <->
  exists bs, bs <> [] /\ (length bs < 4)%nat /\ base58_text bs w.
Proof.
  split.
  - intros [e H]. destruct (b58decode w) as [bs|e'] eqn:E.
    + destruct (Nat.lt_ge_cases (length bs) 4) as [Hlt|Hge].
      * exists bs. apply b58decode_iff in E as [H1 H2]. rewrite base58_text_encode. auto.
      * destruct (split4 bs Hge) as (p & c & -> & Hc).
        rewrite (CheckWIF_split _ _ _ E Hc) in H. discriminate.
    + rewrite (CheckWIF_invalid _ _ E) in H. discriminate.
  - intros (bs & Hne & Hl & H). apply base58_text_encode in H.
    exists PSlice. apply (CheckWIF_short _ bs); [|assumption]. apply b58decode_iff. auto.
Qed.

Lemma CheckWIF_panic_kind w e : CheckWIF w = Panic e -> e = PSlice.
Proof.
  intros H. destruct (b58decode w) as [bs|e'] eqn:E.
  - destruct (Nat.lt_ge_cases (length bs) 4) as [Hlt|Hge].
    + rewrite (CheckWIF_short _ _ E Hlt) in H. congruence.
    + destruct (split4 bs Hge) as (p & c & -> & Hc).
      rewrite (CheckWIF_split _ _ _ E Hc) in H. discriminate.
  - rewrite (CheckWIF_invalid _ _ E) in H. discriminate.
Qed.

(** PrivateFromWIF on the three kinds of input. *)
Lemma PrivateFromWIF_ok w v k net : base58check (v :: k) w ->
  PrivateFromWIF w net =
  Ret (Ok (PrivateKey (set_string16 (hex_encode k)) (hex_encode k) w net)).
Proof.
  intros H. unfold PrivateFromWIF.
  assert (CheckWIF w = Ret true) as -> by (apply CheckWIF_true_iff; eauto). cbn [bind negb].
  apply base58check_decode in H. rewrite H. cbn [bind_res].
  set (c := checksum4 (v :: k)). assert (Hc : length c = 4%nat) by apply checksum4_length. clearbody c.
  change ((v :: k) ++ c) with ([v] ++ (k ++ c)). rewrite hex_encode_app.
  assert (E2 : len (hex_encode [v]) = 2) by reflexivity.
  rewrite <- E2 at 1. rewrite slice_suffix. cbn [bind]. rewrite hex_encode_app.
  assert (E : len (hex_encode k ++ hex_encode c) - 8 = len (hex_encode k)).
  { unfold len. rewrite app_length, (hex_encode_length c), Hc. lia. }
  rewrite E, slice_prefix. reflexivity.
Qed.

Lemma PrivateFromWIF_empty w net : base58check [] w -> PrivateFromWIF w net = Panic PSlice.
Proof.
  intros H. unfold PrivateFromWIF.
  assert (CheckWIF w = Ret true) as -> by (apply CheckWIF_true_iff; eauto). cbn [bind negb].
  apply base58check_decode in H. rewrite H. cbn [bind_res app].
  set (c := checksum4 []). assert (Hc : length c = 4%nat) by apply checksum4_length. clearbody c.
  rewrite slice_ok; [|rewrite hex_encode_len; unfold len; lia|lia].
  cbn [bind]. rewrite slice_bad; [reflexivity|].
  unfold len. rewrite firstn_length, skipn_length, hex_encode_length. lia.
Qed.

Lemma PrivateFromWIF_invalid w net : CheckWIF w = Ret false -> PrivateFromWIF w net = Ret (Err EWifInvalid).
Proof. intros H. unfold PrivateFromWIF. rewrite H. reflexivity. Qed.

Lemma PrivateFromWIF_panic w net e : CheckWIF w = Panic e -> PrivateFromWIF w net = Panic e.
Proof. intros H. unfold PrivateFromWIF. rewrite H. reflexivity. Qed.

(** Case split used everywhere: every input of CheckWIF is of one of four kinds. *)
Lemma wif_cases w :
  (exists v k, base58check (v :: k) w) \/ base58check [] w \/
  CheckWIF w = Ret false \/
  (CheckWIF w = Panic PSlice /\ exists bs, bs <> [] /\ (length bs < 4)%nat /\ base58_text bs w).
Proof.
  destruct (CheckWIF w) as [[|]|e] eqn:E.
  - apply CheckWIF_true_iff in E as ([|v k] & H); [auto|left; eauto].
  - auto.
  - right; right; right. pose proof (CheckWIF_panic_kind _ _ E) as ->. split; [reflexivity|].
    apply CheckWIF_panic_iff. eauto.
Qed.

(** The number a successful import stores. *)
Lemma set_string16_hex_encode k :
  set_string16 (hex_encode k) = match k with [] => None | _ => Some (bytes_number k) end.
Proof.
  destruct k as [|b k]; [reflexivity|].
  rewrite (set_string16_decode _ (b :: k)); [|rewrite hex_encode_cons; discriminate|apply hex_decode_encode].
  rewrite bytes_number_set_bytes. reflexivity.
Qed.

(** C10 *)
Lemma PrivateFromWIF_success w net k :
  PrivateFromWIF w net = Ret (Ok k) <->
  exists v bs, base58check (v :: bs) w /\
    k = PrivateKey (match bs with [] => None | _ => Some (bytes_number bs) end) (hex_encode bs) w net.
Proof.
  split.
  - intros H. destruct (wif_cases w) as [(v & bs & Hw)|[Hw|[Hw|[Hw _]]]].
    + rewrite (PrivateFromWIF_ok _ _ _ net Hw) in H. injection H as <-.
      exists v, bs. rewrite set_string16_hex_encode. auto.
    + rewrite (PrivateFromWIF_empty _ net Hw) in H. discriminate.
    + rewrite (PrivateFromWIF_invalid _ net Hw) in H. discriminate.
    + rewrite (PrivateFromWIF_panic _ net _ Hw) in H. discriminate.
  - intros (v & bs & Hw & ->). rewrite (PrivateFromWIF_ok _ _ _ net Hw), set_string16_hex_encode. reflexivity.
Qed.

(** C11 *)
Lemma PrivateFromWIF_panic_iff w net :
  (exists e, PrivateFromWIF w net = Panic e) <->
  base58check [] w \/ exists bs, bs <> [] /\ (length bs < 4)%nat /\ base58_text bs w.
Proof.
  split.
  - intros [e H]. destruct (wif_cases w) as [(v & bs & Hw)|[Hw|[Hw|[Hw Hs]]]].
    + rewrite (PrivateFromWIF_ok _ _ _ net Hw) in H. discriminate.
    + auto.
    + rewrite (PrivateFromWIF_invalid _ net Hw) in H. discriminate.
    + auto.
  - intros [H|H].
    + exists PSlice. apply PrivateFromWIF_empty, H.
    + apply CheckWIF_panic_iff in H as [e H]. exists e. apply PrivateFromWIF_panic, H.
Qed.

Lemma PrivateFromWIF_error_iff w net e :
  PrivateFromWIF w net = Ret (Err e) <-> e = EWifInvalid /\ CheckWIF w = Ret false.
Proof.
  split.
  - intros H. destruct (wif_cases w) as [(v & bs & Hw)|[Hw|[Hw|[Hw _]]]].
    + rewrite (PrivateFromWIF_ok _ _ _ net Hw) in H. discriminate.
    + rewrite (PrivateFromWIF_empty _ net Hw) in H. discriminate.
    + rewrite (PrivateFromWIF_invalid _ net Hw) in H. split; [congruence|assumption].
    + rewrite (PrivateFromWIF_panic _ net _ Hw) in H. discriminate.
  - intros [-> H]. apply PrivateFromWIF_invalid, H.
Qed.

(** ** PrivateFromHex *)

Lemma PrivateFromHex_ok h n bs : hex_decode (PrivKeyPrefix n ++ h) = Ok bs ->
  PrivateFromHex h (Some n) =
  Ret (Ok (PrivateKey (set_string16 h) h (b58encode (bs ++ checksum4 bs)) (Some n))).
Proof.
  intros H. unfold PrivateFromHex. cbv zeta. rewrite H. cbn [bind_res].
  rewrite checksum_slice. cbn [bind]. rewrite (hex_decode_app _ _ _ H), hex_decode_encode. reflexivity.
Qed.

Lemma PrivateFromHex_err h n e : hex_decode (PrivKeyPrefix n ++ h) = Err e ->
  PrivateFromHex h (Some n) = Ret (Err e).
Proof. intros H. unfold PrivateFromHex. cbv zeta. rewrite H. reflexivity. Qed.

Lemma hex_suffix_is_hex a b bs : hex_decode (a ++ b) = Ok bs -> Forall is_hex a /\ Forall is_hex b.
Proof.
  intros H. assert (exists x, hex_decode (a ++ b) = Ok x) as K by eauto.
  apply hex_decode_ok_iff in K as [_ K]. apply Forall_app in K. exact K.
Qed.

(** Success, in terms of the specification. *)
Lemma PrivateFromHex_success h n k :
  PrivateFromHex h (Some n) = Ret (Ok k) <->
  exists bs, hex_text (PrivKeyPrefix n ++ h) bs /\ base58check bs (WIF k) /\
    Hex k = h /\ KNetwork k = Some n /\
    match Key k with Some z => hex_number h z | None => h = [] end.
Proof.
  split.
  - intros H. destruct (hex_decode (PrivKeyPrefix n ++ h)) as [bs|e] eqn:E.
    + rewrite (PrivateFromHex_ok _ _ _ E) in H. injection H as <-. cbn.
      exists bs. rewrite hex_text_decode, base58check_encode. repeat split; [assumption|].
      destruct h as [|c h]; [reflexivity|].
      destruct (hex_suffix_is_hex _ _ _ E) as [_ Hx].
      destruct (set_string16_hex (c :: h) ltac:(discriminate) Hx) as (z & Hz & _). rewrite Hz.
      apply hex_number_set_string. repeat split; [discriminate|assumption|assumption].
    + rewrite (PrivateFromHex_err _ _ _ E) in H. discriminate.
  - intros (bs & H1 & H2 & H3 & H4 & H5). apply hex_text_decode in H1. apply base58check_encode in H2.
    rewrite (PrivateFromHex_ok _ _ _ H1). destruct k as [kk kh kw kn]. cbn in *. subst.
    repeat f_equal. destruct kk as [z|].
    + apply hex_number_set_string in H5 as (_ & _ & H5). exact H5.
    + subst. reflexivity.
Qed.

(** C08 *)
Lemma PrivateFromHex_accepts h n :
  (exists k, PrivateFromHex h (Some n) = Ret (Ok k)) <->
  exists bs, hex_text (PrivKeyPrefix n ++ h) bs.
Proof.
  split.
  - intros [k H]. apply PrivateFromHex_success in H as (bs & H & _). eauto.
  - intros [bs H]. apply hex_text_decode in H. eexists. apply (PrivateFromHex_ok _ _ _ H).
Qed.

Lemma PrivateFromHex_total h n : exists r, PrivateFromHex h (Some n) = Ret r.
Proof.
  destruct (hex_decode (PrivKeyPrefix n ++ h)) as [bs|e] eqn:E.
  - eexists. apply (PrivateFromHex_ok _ _ _ E).
  - eexists. apply (PrivateFromHex_err _ _ _ E).
Qed.

(** C01 *)
Lemma PrivateFromHex_wif_valid h net k :
  PrivateFromHex h net = Ret (Ok k) -> CheckWIF (WIF k) = Ret true.
Proof.
  destruct net as [n|]; [|discriminate]. intros H. apply PrivateFromHex_success in H as (bs & _ & H & _).
  apply CheckWIF_true_iff. eauto.
Qed.

(** C02 *)
Lemma hex_wif_hex h n v k net' :
  hex_text (PrivKeyPrefix n) [v] ->
  PrivateFromHex h (Some n) = Ret (Ok k) ->
  PrivateFromWIF (WIF k) net' =
  Ret (Ok (PrivateKey (Key k) (to_lower h) (WIF k) net')).
Proof.
  intros Hv H. apply hex_text_decode in Hv.
  destruct (hex_decode (PrivKeyPrefix n ++ h)) as [bs|e] eqn:E;
    [|rewrite (PrivateFromHex_err _ _ _ E) in H; discriminate].
  rewrite (PrivateFromHex_ok _ _ _ E) in H. injection H as <-. cbn [Key WIF].
  rewrite (hex_decode_app _ _ _ Hv) in E. destruct (hex_decode h) as [ks|] eqn:Eh; [|discriminate].
  injection E as <-. cbn [app]. rewrite (PrivateFromWIF_ok _ v ks net').
  - rewrite (hex_encode_decode _ _ Eh). rewrite set_string16_lower; [reflexivity|].
    apply (hex_decode_ok_iff h). eauto.
  - apply base58check_encode. reflexivity.
Qed.

(** C03 *)
Lemma wif_hex_wif w n v k p :
  base58check (v :: p) w -> hex_text (PrivKeyPrefix n) [v] ->
  PrivateFromWIF w (Some n) = Ret (Ok k) ->
  PrivateFromHex (Hex k) (Some n) = Ret (Ok k).
Proof.
  intros Hw Hv H. rewrite (PrivateFromWIF_ok _ _ _ _ Hw) in H. injection H as <-. cbn [Hex].
  apply hex_text_decode in Hv.
  rewrite (PrivateFromHex_ok _ _ (v :: p)).
  - apply base58check_encode in Hw. rewrite <- Hw. reflexivity.
  - rewrite (hex_decode_app _ _ _ Hv), hex_decode_encode. reflexivity.
Qed.

(** C05 *)
Lemma wif_unambiguous h1 h2 n1 n2 k1 k2 b1 b2 :
  PrivateFromHex h1 (Some n1) = Ret (Ok k1) -> PrivateFromHex h2 (Some n2) = Ret (Ok k2) ->
  hex_text (PrivKeyPrefix n1 ++ h1) b1 -> hex_text (PrivKeyPrefix n2 ++ h2) b2 ->
  (WIF k1 = WIF k2 <-> b1 = b2).
Proof.
  intros H1 H2 T1 T2.
  apply PrivateFromHex_success in H1 as (c1 & U1 & B1 & _), H2 as (c2 & U2 & B2 & _).
  rewrite <- (hex_text_fun _ _ _ U1 T1), <- (hex_text_fun _ _ _ U2 T2). split; intros H.
  - rewrite H in B1. apply (base58check_inj _ _ _ B1 B2).
  - subst. apply (base58check_fun _ _ _ B1 B2).
Qed.

(** C09 *)
Lemma hex_of_any_number n : 0 <= n ->
  exists h, hex_number h n /\ exists bs, hex_text h bs.
Proof.
  intros Hn. set (h := sprintf_x n).
  destruct (Nat.even (length h)) eqn:Ev.
  - exists h. split.
    + apply hex_number_set_string. repeat split; [apply sprintf_x_nonempty|apply sprintf_x_is_hex, Hn|].
      apply set_string16_sprintf_x, Hn.
    + destruct (proj2 (hex_decode_ok_iff h)) as [bs Hbs]; [split; [assumption|apply sprintf_x_is_hex, Hn]|].
      exists bs. apply hex_text_decode, Hbs.
  - exists (pad_left (S (length h)) h). split.
    + apply hex_number_set_string. repeat split.
      * intros E. apply (f_equal (@length byte)) in E. rewrite pad_left_length in E. cbn [length] in E. lia.
      * apply pad_left_sprintf_x_hex, Hn.
      * apply pad_left_sprintf_x_value, Hn.
    + destruct (proj2 (hex_decode_ok_iff (pad_left (S (length h)) h))) as [bs Hbs].
      * split; [|apply pad_left_sprintf_x_hex, Hn].
        rewrite pad_left_length. rewrite Nat.max_l by lia. rewrite Nat.even_succ, <- Nat.negb_even, Ev. reflexivity.
      * exists bs. apply hex_text_decode, Hbs.
Qed.

Lemma no_range_check n net v : 0 <= n -> hex_text (PrivKeyPrefix net) v ->
  exists h k, PrivateFromHex h (Some net) = Ret (Ok k) /\ Key k = Some n.
Proof.
  intros Hn Hv. destruct (hex_of_any_number n Hn) as (h & Hh & bs & Hbs).
  pose proof (hex_text_app _ _ _ _ Hv Hbs) as Ht. apply hex_text_decode in Ht.
  exists h. eexists. split; [apply (PrivateFromHex_ok _ _ _ Ht)|].
  apply hex_number_set_string in Hh as (_ & _ & Hh). exact Hh.
Qed.

(** C12 *)
Lemma compressed_wif w v ks net : length ks = 32%nat -> base58check (v :: ks ++ [x01]) w ->
  PrivateFromWIF w net =
  Ret (Ok (PrivateKey (Some (256 * bytes_number ks + 1)) (hex_encode (ks ++ [x01])) w net)).
Proof.
  intros Hl Hw. rewrite (PrivateFromWIF_ok _ _ _ _ Hw), set_string16_hex_encode.
  destruct (ks ++ [x01]) as [|b r] eqn:E; [destruct ks; discriminate|].
  cbv iota. rewrite <- E. rewrite bytes_number_app. change (256 ^ Z.of_nat (length [x01])) with 256.
  change (bytes_number [x01]) with 1. rewrite (Z.mul_comm 256). reflexivity.
Qed.
