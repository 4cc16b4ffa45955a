(** * The specifications of [Spec.v] agree with the model's codecs *)

From Verif Require Import GoBase GoNum Sha256 Base58 NumFacts HexFacts Base58Facts Spec.
From Coq Require Import ZifyBool ZifyNat ZifyN.
Local Open Scope Z_scope.

Lemma number_valb b ds : number b ds = valb b ds.
Proof.
  induction ds as [|d ds IH]; [reflexivity|]. cbn [number]. rewrite IH, valb_cons. reflexivity.
Qed.

Lemma bytes_number_set_bytes bs : bytes_number bs = set_bytes bs.
Proof. apply number_valb. Qed.

Lemma bytes_number_app a b : bytes_number (a ++ b) = bytes_number a * 256 ^ Z.of_nat (length b) + bytes_number b.
Proof.
  unfold bytes_number. rewrite !number_valb, map_app, valb_app, map_length. reflexivity.
Qed.
Lemma bytes_number_bound bs : 0 <= bytes_number bs < 256 ^ Z.of_nat (length bs).
Proof. rewrite bytes_number_set_bytes. apply set_bytes_bound. Qed.
Lemma bytes_number_inj a b : length a = length b -> bytes_number a = bytes_number b -> a = b.
Proof.
  unfold bytes_number. rewrite !number_valb. intros Hl H. apply map_b2z_inj.
  apply (valb_inj_len 256); try lia; try apply digits_ok_bytes; [rewrite !map_length; exact Hl|exact H].
Qed.

Lemma hex_digit_fromhex c d : hex_digit c d <-> fromhex c = Some (Z.of_nat d).
Proof.
  unfold hex_digit. split.
  - intros H.
    do 16 (destruct d as [|d]; [cbn in H; destruct H as [H|H]; injection H as <-; reflexivity|]).
    cbn in H. destruct d; destruct H; discriminate.
  - intros H. pose proof (fromhex_range _ _ H) as Hr.
    assert (match fromhex c with
            | Some z => match nth_error (str "0123456789abcdef") (Z.to_nat z) with
                        | Some c' => byte_eqb c' c | None => false end ||
                        match nth_error (str "0123456789ABCDEF") (Z.to_nat z) with
                        | Some c' => byte_eqb c' c | None => false end
            | None => true end = true) as K by (destruct c; reflexivity).
    rewrite H in K. rewrite Nat2Z.id in K. apply orb_true_iff in K as [K|K].
    + left. destruct (nth_error _ d); [|discriminate]. apply byte_eqb_eq in K. congruence.
    + right. destruct (nth_error _ d); [|discriminate]. apply byte_eqb_eq in K. congruence.
Qed.

Lemma hex_digit_lt c d : hex_digit c d -> (d < 16)%nat.
Proof. intros H. apply hex_digit_fromhex, fromhex_range in H. lia. Qed.

Lemma fromhex_hex_digit c z : fromhex c = Some z -> hex_digit c (Z.to_nat z).
Proof.
  intros H. apply hex_digit_fromhex. rewrite Z2Nat.id; [exact H|]. apply fromhex_range in H. lia.
Qed.

Lemma hex_text_decode s bs : hex_text s bs <-> hex_decode s = Ok bs.
Proof.
  split.
  - induction 1 as [|h l s b bs dh dl Hh Hl Hb _ IH]; [reflexivity|].
    pose proof (hex_digit_lt _ _ Hh). pose proof (hex_digit_lt _ _ Hl).
    apply hex_digit_fromhex in Hh, Hl. cbn [hex_decode]. rewrite Hh, Hl, IH.
    repeat f_equal. apply b2z_inj. rewrite b2z_z2b by lia. unfold b2z. unfold byte_number in Hb. lia.
  - revert bs; induction s as [|c|c1 c2 s IH] using list_pair_ind; intros bs; cbn [hex_decode].
    + intros [= <-]. constructor.
    + destruct (fromhex c); discriminate.
    + destruct (fromhex c1) as [h|] eqn:E1; [|discriminate].
      destruct (fromhex c2) as [l|] eqn:E2; [|discriminate].
      destruct (hex_decode s) as [r|] eqn:E; [|discriminate].
      intros [= <-]. pose proof (fromhex_range _ _ E1). pose proof (fromhex_range _ _ E2).
      apply fromhex_hex_digit in E1, E2.
      apply (hex_text_cons _ _ _ _ _ _ _ E1 E2); [|apply IH; reflexivity].
      change (byte_number ?x) with (b2z x). rewrite b2z_z2b by lia. lia.
Qed.

Lemma hex_text_fun s a b : hex_text s a -> hex_text s b -> a = b.
Proof. rewrite !hex_text_decode. congruence. Qed.
Lemma hex_text_encode bs : hex_text (hex_encode bs) bs.
Proof. apply hex_text_decode, hex_decode_encode. Qed.
Lemma hex_text_app a b x y : hex_text a x -> hex_text b y -> hex_text (a ++ b) (x ++ y).
Proof. rewrite !hex_text_decode. intros Ha Hb. rewrite (hex_decode_app _ _ _ Ha), Hb. reflexivity. Qed.

Lemma hexchar_in d : 0 <= d < 16 -> In (hexchar d) (str "0123456789abcdef").
Proof.
  intros H.
  assert (existsb (byte_eqb (hexchar d)) (str "0123456789abcdef") = true) as K.
  { apply (Zsweep 16 (fun d => existsb (byte_eqb (hexchar d)) (str "0123456789abcdef"))); [reflexivity|lia]. }
  apply existsb_exists in K as (x & Hx & E). apply byte_eqb_eq in E. subst. exact Hx.
Qed.
Lemma lower_case_hex_map ds : digits_ok 16 ds -> lower_case_hex (map hexchar ds).
Proof. intros H. apply Forall_map. eapply Forall_impl; [|exact H]. apply hexchar_in. Qed.
Lemma lower_case_hex_encode bs : lower_case_hex (hex_encode bs).
Proof.
  induction bs as [|b bs IH]; [constructor|]. rewrite hex_encode_cons.
  constructor; [apply hexchar_in, nibble_hi|]. constructor; [apply hexchar_in, nibble_lo|exact IH].
Qed.
Lemma lower_case_hex_to_lower s : Forall is_hex s -> lower_case_hex (to_lower s).
Proof.
  intros H. apply scan_hex_iff in H as [ds Hs]. rewrite <- (scan_hex_lower _ _ Hs).
  apply lower_case_hex_map, (scan_hex_ok _ _ Hs).
Qed.
Lemma lower_case_fix c : In c (str "0123456789abcdef") -> lower_byte c = c /\ is_hex c.
Proof.
  intros H. unfold str in H. cbn in H.
  repeat (destruct H as [<-|H]; [split; [reflexivity|apply is_hex_fromhex; eexists; reflexivity]|]).
  destruct H.
Qed.
Lemma lower_case_hex_lower s : lower_case_hex s -> to_lower s = s.
Proof.
  induction 1 as [|c s Hc _ IH]; [reflexivity|]. cbn [to_lower map].
  rewrite (proj1 (lower_case_fix _ Hc)). fold (to_lower s). rewrite IH. reflexivity.
Qed.
Lemma lower_case_hex_is_hex s : lower_case_hex s -> Forall is_hex s.
Proof. intros H. eapply Forall_impl; [|exact H]. intros c Hc. apply (lower_case_fix _ Hc). Qed.

Lemma hex_text_lower s bs : hex_text s bs -> lower_case_hex s -> s = hex_encode bs.
Proof.
  intros H L. apply hex_text_decode in H. rewrite (hex_encode_decode _ _ H).
  symmetry. apply lower_case_hex_lower, L.
Qed.

Lemma forall2_hex_scan s ds : Forall2 hex_digit s ds <-> scan fromhex s = Some (map Z.of_nat ds).
Proof.
  split.
  - induction 1 as [|c d s ds Hc _ IH]; [reflexivity|]. cbn [scan map].
    apply hex_digit_fromhex in Hc. rewrite Hc, IH. reflexivity.
  - revert ds; induction s as [|c s IH]; intros ds; cbn [scan].
    + destruct ds; [constructor|discriminate].
    + destruct (fromhex c) as [z|] eqn:E; [|discriminate].
      destruct (scan fromhex s) as [zs|]; [|discriminate].
      destruct ds as [|d ds]; [discriminate|]. cbn [map]. intros [= -> ->].
      constructor; [apply hex_digit_fromhex, E|apply IH; reflexivity].
Qed.

Lemma hex_number_set_string s n : hex_number s n <-> s <> [] /\ Forall is_hex s /\ set_string16 s = Some n.
Proof.
  unfold hex_number. split.
  - intros (Hne & ds & H & ->). split; [assumption|]. apply forall2_hex_scan in H. split.
    + apply scan_hex_iff. eauto.
    + rewrite (set_string16_scan _ _ Hne H), number_valb. reflexivity.
  - intros (Hne & Hx & Hs). split; [assumption|]. apply scan_hex_iff in Hx as [zs Hz].
    rewrite (set_string16_scan _ _ Hne Hz) in Hs. injection Hs as <-.
    pose proof (scan_hex_ok _ _ Hz) as Hok.
    assert (Hm : map Z.of_nat (map Z.to_nat zs) = zs).
    { rewrite map_map. rewrite <- (map_id zs) at 2. apply map_ext_in. intros z Hin.
      apply Z2Nat.id. unfold digits_ok in Hok. rewrite Forall_forall in Hok. apply Hok in Hin. lia. }
    exists (map Z.to_nat zs). rewrite forall2_hex_scan, Hm, number_valb. auto.
Qed.

Lemma hex_number_bytes s bs : s <> [] -> hex_text s bs -> hex_number s (bytes_number bs).
Proof.
  intros Hne H. apply hex_text_decode in H. apply hex_number_set_string. repeat split.
  - assumption.
  - apply (hex_decode_ok_iff s). eauto.
  - rewrite bytes_number_set_bytes. apply set_string16_decode; assumption.
Qed.

Lemma shortest_hex_sprintf s n : shortest_hex s n <-> 0 <= n /\ s = sprintf_x n.
Proof.
  unfold shortest_hex. split.
  - intros (Hl & Hn & Hc). pose proof (lower_case_hex_lower _ Hl) as Hfix.
    apply hex_number_set_string in Hn as (Hne & Hx & Hs).
    apply scan_hex_iff in Hx as [ds Hds]. rewrite (set_string16_scan _ _ Hne Hds) in Hs.
    injection Hs as <-. pose proof (scan_hex_ok _ _ Hds) as Hok.
    pose proof (valb_nonneg 16 ds ltac:(lia) Hok) as Hnn.
    split; [assumption|]. rewrite <- Hfix, <- (scan_hex_lower _ _ Hds).
    unfold sprintf_x. rewrite sprint_base_nonneg by assumption. f_equal.
    unfold unsigned_digits. destruct Hc as [->|Hc].
    + cbn in Hds. injection Hds as <-. reflexivity.
    + assert (Hnl : no_lead0 ds).
      { destruct ds as [|d ds]; [exact I|]. intros ->. apply Hc.
        destruct s as [|c s]; [discriminate|]. cbn. f_equal.
        cbn [scan] in Hds. destruct (fromhex c) eqn:E; [|discriminate].
        destruct (scan fromhex s); [|discriminate]. injection Hds as -> _.
        cbn [to_lower map] in Hfix. injection Hfix as Hfix _.
        apply hexchar_fromhex in E. rewrite Hfix in E. rewrite <- E. reflexivity. }
      assert (valb 16 ds <> 0) as Hnz.
      { intros H0. destruct ds as [|d ds].
        - cbn in Hds. destruct s; [congruence|]. cbn [scan] in Hds.
          destruct (fromhex b), (scan fromhex s); discriminate.
        - pose proof (valb_pos 16 (d :: ds) ltac:(lia) Hok Hnl ltac:(discriminate)) as Hp.
          pose proof (Z.pow_pos_nonneg 16 (Z.of_nat (length (d :: ds)) - 1) ltac:(lia) ltac:(cbn [length]; lia)).
          lia. }
      destruct (Z.eqb_spec (valb 16 ds) 0); [contradiction|].
      symmetry. apply digits_valb; [lia|assumption|assumption].
  - intros (Hn & ->). repeat split.
    + unfold sprintf_x. rewrite sprint_base_nonneg by assumption.
      apply lower_case_hex_map. apply unsigned_digits_ok; lia.
    + apply sprintf_x_nonempty.
    + apply hex_number_set_string. repeat split; [apply sprintf_x_nonempty|apply sprintf_x_is_hex, Hn|].
      apply set_string16_sprintf_x, Hn.
    + destruct (Z.eq_dec n 0) as [->|Hne]; [left; reflexivity|right].
      unfold sprintf_x. rewrite sprint_base_nonneg by assumption.
      unfold unsigned_digits. destruct (Z.eqb_spec n 0); [contradiction|].
      pose proof (digits_digits_ok 16 n ltac:(lia) Hn) as Hok.
      pose proof (digits_no_lead0 16 n ltac:(lia) Hn) as Hnl.
      destruct (digits 16 n) as [|d r]; [discriminate|]. cbn [map hd_error].
      intros [= H]. apply Hnl. inversion Hok; subst.
      apply (hexchar_inj d 0); [assumption|lia|exact H].
Qed.

Lemma hex_number_fun s m n : hex_number s m -> hex_number s n -> m = n.
Proof. rewrite !hex_number_set_string. intros (_ & _ & H1) (_ & _ & H2). congruence. Qed.

(** ** Base58 *)

Lemma map_repeat {A B} (f : A -> B) x n : map f (repeat x n) = repeat (f x) n.
Proof. induction n; cbn; congruence. Qed.

Lemma nth_alphabet d : (d < 58)%nat -> nth d alphabet58 x00 = b58char (Z.of_nat d).
Proof.
  intros H. unfold b58char. rewrite Nat2Z.id. apply nth_indep. exact H.
Qed.

Lemma base58_text_encode bs s : base58_text bs s <-> s = b58encode bs.
Proof.
  split.
  - intros (z & body & ds & -> & Hb & -> & Hds & Hd0 & Hnum).
    unfold b58encode. rewrite map_app, map_repeat.
    change (b2z x00) with 0. rewrite convert_repeat.
    2:{ destruct body as [|c body]; [exact I|]. cbn [map no_lead0]. intros E. apply Hb. cbn. f_equal.
        apply b2z_inj. exact E. }
    rewrite map_app, map_repeat. f_equal.
    change (valb 256 (map b2z body)) with (set_bytes body).
    rewrite <- bytes_number_set_bytes, <- Hnum, number_valb.
    rewrite digits_valb; [|lia| |].
    + rewrite map_map. apply map_ext_in. intros d Hin. apply nth_alphabet.
      rewrite Forall_forall in Hds. auto.
    + apply Forall_map. eapply Forall_impl; [|exact Hds]. cbn. intros; lia.
    + destruct ds as [|d ds]; [exact I|]. cbn. cbn in Hd0. intros H. apply Hd0. f_equal. lia.
  - intros ->. unfold b58encode, convert.
    destruct (strip_lead 0 (map b2z bs)) as [z r] eqn:E. apply strip_lead_spec in E as [Hbs Hr].
    assert (Hok : digits_ok 256 (repeat 0 z ++ r)) by (rewrite <- Hbs; apply digits_ok_bytes).
    apply digits_ok_app in Hok as [_ Hok].
    pose proof (valb_nonneg 256 r ltac:(lia) Hok) as Hnn.
    pose proof (digits_digits_ok 58 _ ltac:(lia) Hnn) as Hok58.
    pose proof (digits_no_lead0 58 _ ltac:(lia) Hnn) as Hnl.
    exists z, (map z2b r), (map Z.to_nat (digits 58 (valb 256 r))).
    assert (Hm : map Z.of_nat (map Z.to_nat (digits 58 (valb 256 r))) = digits 58 (valb 256 r)).
    { rewrite map_map. rewrite <- (map_id (digits _ _)) at 2. apply map_ext_in. intros d Hin.
      unfold digits_ok in Hok58. rewrite Forall_forall in Hok58. apply Hok58 in Hin. lia. }
    repeat split.
    + apply map_b2z_inj. rewrite map_app, map_b2z_z2b by assumption. rewrite map_repeat. exact Hbs.
    + destruct r as [|d r]; [discriminate|]. cbn [map hd_error]. intros [= H]. apply Hr.
      inversion Hok; subst. apply (z2b_inj d 0); [assumption|lia|exact H].
    + rewrite map_app, map_repeat. f_equal.
      rewrite <- Hm at 1. rewrite !map_map. apply map_ext_in. intros d Hin.
      unfold digits_ok in Hok58. rewrite Forall_forall in Hok58. apply Hok58 in Hin.
      rewrite nth_alphabet by lia. reflexivity.
    + apply Forall_map. eapply Forall_impl; [|exact Hok58]. cbn. intros; lia.
    + destruct (digits 58 (valb 256 r)) as [|d ds]; [discriminate|].
      cbn [map hd_error]. intros [= H]. apply Hnl. inversion Hok58; subst. lia.
    + rewrite Hm, number_valb, valb_digits by lia. unfold bytes_number. rewrite number_valb.
      change byte_number with b2z. rewrite map_b2z_z2b by assumption. reflexivity.
Qed.

Lemma base58_text_inj a b s : base58_text a s -> base58_text b s -> a = b.
Proof. rewrite !base58_text_encode. intros H1 H2. apply b58encode_inj. congruence. Qed.

Lemma checksum4_length p : length (checksum4 p) = 4%nat.
Proof. unfold checksum4. rewrite firstn_length, sha256_length. reflexivity. Qed.

Lemma base58check_encode p s : base58check p s <-> s = b58encode (p ++ checksum4 p).
Proof. apply base58_text_encode. Qed.

Lemma app_checksum_inj p q : p ++ checksum4 p = q ++ checksum4 q -> p = q.
Proof.
  intros H. apply (f_equal (@length byte)) in H as Hl. rewrite !app_length, !checksum4_length in Hl.
  apply app_inv_tail with (l := checksum4 p).
  assert (length p = length q) by lia.
  apply (f_equal (firstn (length p))) in H. rewrite firstn_app, Nat.sub_diag, firstn_all in H.
  rewrite H0, firstn_app, Nat.sub_diag, firstn_all in H. cbn in H. rewrite !app_nil_r in H. congruence.
Qed.

Lemma base58check_inj p q s : base58check p s -> base58check q s -> p = q.
Proof. unfold base58check. intros H1 H2. apply app_checksum_inj. eapply base58_text_inj; eassumption. Qed.

Lemma base58check_fun p s t : base58check p s -> base58check p t -> s = t.
Proof. rewrite !base58check_encode. congruence. Qed.

(** ** Letter case *)

Lemma case_variant_lower c d : case_variant c d <-> lower_byte c = lower_byte d.
Proof.
  split.
  - intros [->|[(i & Hc & Hd)|(i & Hc & Hd)]]; [reflexivity| |];
    do 26 (destruct i as [|i]; [cbn in Hc, Hd; injection Hc as <-; injection Hd as <-; reflexivity|]);
    destruct i; cbn in Hc; discriminate.
  - intros H.
    assert (Hd : c = d \/ (exists i, nth_error (str "ABCDEFGHIJKLMNOPQRSTUVWXYZ") i = Some c /\
             nth_error (str "abcdefghijklmnopqrstuvwxyz") i = Some (lower_byte c)) \/ lower_byte c = c).
    { destruct c; try (right; right; reflexivity); right; left;
      match goal with |- exists i, nth_error _ i = Some ?c /\ _ =>
        exists (Z.to_nat (b2z c - 65)); split; reflexivity end. }
    assert (Hd' : (exists i, nth_error (str "ABCDEFGHIJKLMNOPQRSTUVWXYZ") i = Some d /\
             nth_error (str "abcdefghijklmnopqrstuvwxyz") i = Some (lower_byte d)) \/ lower_byte d = d).
    { destruct d; try (right; reflexivity); left;
      match goal with |- exists i, nth_error _ i = Some ?c /\ _ =>
        exists (Z.to_nat (b2z c - 65)); split; reflexivity end. }
    destruct Hd as [->|[(i & Hc1 & Hc2)|Hc]]; [left; reflexivity| |].
    + destruct Hd' as [(j & Hd1 & Hd2)|Hd].
      * left. rewrite <- H in Hd2.
        assert (i = j).
        { apply (proj1 (NoDup_nth_error (str "abcdefghijklmnopqrstuvwxyz"))); [|apply nth_error_Some; congruence|congruence].
          clear. repeat constructor; cbn; intuition discriminate. }
        subst. congruence.
      * right; left. exists i. rewrite H, Hd in Hc2. auto.
    + destruct Hd' as [(j & Hd1 & Hd2)|Hd].
      * right; right. exists j. rewrite <- H, Hc in Hd2. auto.
      * left. congruence.
Qed.

Lemma equal_up_to_case_lower s t : equal_up_to_case s t <-> to_lower s = to_lower t.
Proof.
  unfold equal_up_to_case. split.
  - induction 1 as [|c d s t Hc _ IH]; [reflexivity|]. cbn [to_lower map].
    apply case_variant_lower in Hc. fold (to_lower s). fold (to_lower t). congruence.
  - revert t; induction s as [|c s IH]; intros [|d t] H; cbn in H; try discriminate; constructor.
    + apply case_variant_lower. congruence.
    + apply IH. injection H as _ H. exact H.
Qed.
