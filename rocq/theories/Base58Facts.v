(** * Facts about the base58 codec *)

From Verif Require Import GoBase GoNum Base58 NumFacts HexFacts.
From Coq Require Import ZifyBool ZifyNat ZifyN.
Local Open Scope Z_scope.

(** ** Characters *)

Lemma b58digit_char d : 0 <= d < 58 -> b58digit (b58char d) = Some d.
Proof.
  intros H. apply opt_eqb_eq.
  apply (Zsweep 58 (fun d => opt_eqb (b58digit (b58char d)) (Some d))); [reflexivity|lia].
Qed.

Lemma b58digit_range c d : b58digit c = Some d -> 0 <= d < 58.
Proof.
  intros H.
  assert (match b58digit c with Some d => (0 <=? d) && (d <? 58) | None => true end = true) as K
    by (destruct c; reflexivity).
  rewrite H in K. lia.
Qed.

Lemma b58char_digit c d : b58digit c = Some d -> b58char d = c.
Proof.
  intros H.
  assert (match b58digit c with Some d => byte_eqb (b58char d) c | None => true end = true) as K
    by (destruct c; reflexivity).
  rewrite H in K. apply byte_eqb_eq, K.
Qed.

Lemma b58char_inj a b : 0 <= a < 58 -> 0 <= b < 58 -> b58char a = b58char b -> a = b.
Proof. intros Ha Hb H. apply b58digit_char in Ha, Hb. rewrite H in Ha. congruence. Qed.

Lemma b58char_ascii d : 0 <= d < 58 -> 0 < b2z (b58char d) < 128.
Proof.
  intros H.
  assert ((0 <? b2z (b58char d)) && (b2z (b58char d) <? 128) = true) as K.
  { apply (Zsweep 58 (fun d => (0 <? b2z (b58char d)) && (b2z (b58char d) <? 128))); [reflexivity|lia]. }
  lia.
Qed.

Lemma scan_b58_map ds : digits_ok 58 ds -> scan b58digit (map b58char ds) = Some ds.
Proof.
  induction 1 as [|d ds Hd _ IH]; [reflexivity|]. cbn [map scan].
  rewrite b58digit_char, IH by assumption. reflexivity.
Qed.

Lemma scan_b58_ok s ds : scan b58digit s = Some ds -> digits_ok 58 ds /\ map b58char ds = s.
Proof.
  revert ds; induction s as [|c s IH]; cbn [scan]; intros ds H.
  - injection H as <-. split; [constructor|reflexivity].
  - destruct (b58digit c) eqn:E; [|discriminate]. destruct (scan b58digit s); [|discriminate].
    injection H as <-. destruct (IH _ eq_refl) as [H1 H2]. split.
    + constructor; [apply (b58digit_range _ _ E)|assumption].
    + cbn [map]. rewrite (b58char_digit _ _ E), H2. reflexivity.
Qed.

(** ** Change of base *)

Lemma strip_lead_spec z l n r : strip_lead z l = (n, r) ->
  l = repeat z n ++ r /\ (match r with d :: _ => d <> z | [] => True end).
Proof.
  revert n r; induction l as [|x l IH]; cbn [strip_lead]; intros n r H.
  - injection H as <- <-. split; [reflexivity|exact I].
  - destruct (Z.eqb_spec x z) as [->|Hne].
    + destruct (strip_lead z l) as [m q]. injection H as <- <-.
      destruct (IH _ _ eq_refl) as [-> H2]. split; [reflexivity|assumption].
    + injection H as <- <-. split; [reflexivity|assumption].
Qed.

Lemma strip_lead_repeat z n r : (match r with d :: _ => d <> z | [] => True end) ->
  strip_lead z (repeat z n ++ r) = (n, r).
Proof.
  intros H. induction n as [|n IH]; cbn [repeat app strip_lead].
  - destruct r as [|d r]; cbn [strip_lead]; [reflexivity|]. destruct (Z.eqb_spec d z); [contradiction|reflexivity].
  - rewrite Z.eqb_refl, IH. reflexivity.
Qed.

Lemma convert_repeat a b n r : no_lead0 r -> convert a b (repeat 0 n ++ r) = repeat 0 n ++ digits b (valb a r).
Proof. intros H. unfold convert. rewrite strip_lead_repeat by exact H. reflexivity. Qed.

Lemma convert_ok a b ds : 2 <= a -> 2 <= b -> digits_ok a ds -> digits_ok b (convert a b ds).
Proof.
  intros Ha Hb H. unfold convert. destruct (strip_lead 0 ds) as [n r] eqn:E.
  apply strip_lead_spec in E as [-> _]. apply digits_ok_app in H as [_ H].
  apply digits_ok_app. split; [apply digits_ok_repeat0; lia|].
  apply digits_digits_ok; [assumption|]. apply valb_nonneg; assumption.
Qed.

Lemma convert_convert a b ds : 2 <= a -> 2 <= b -> digits_ok a ds -> convert b a (convert a b ds) = ds.
Proof.
  intros Ha Hb H. unfold convert at 2. destruct (strip_lead 0 ds) as [n r] eqn:E.
  apply strip_lead_spec in E as [-> Hr]. apply digits_ok_app in H as [_ H].
  pose proof (valb_nonneg a r Ha H) as Hn.
  rewrite convert_repeat by (apply digits_no_lead0; assumption).
  rewrite valb_digits by assumption. rewrite digits_valb by assumption. reflexivity.
Qed.

Lemma convert_nil a b : convert a b [] = [].
Proof. reflexivity. Qed.
Lemma convert_eq_nil a b ds : 2 <= a -> 2 <= b -> digits_ok a ds -> convert a b ds = [] -> ds = [].
Proof.
  intros Ha Hb H E. rewrite <- (convert_convert a b ds), E by assumption. reflexivity.
Qed.

Lemma convert_valb a b ds : 2 <= a -> 2 <= b -> digits_ok a ds -> valb b (convert a b ds) = valb a ds.
Proof.
  intros Ha Hb H. unfold convert. destruct (strip_lead 0 ds) as [n r] eqn:E.
  apply strip_lead_spec in E as [-> Hr]. apply digits_ok_app in H as [_ H].
  rewrite !valb_lead0. apply valb_digits; [assumption|]. apply valb_nonneg; assumption.
Qed.

(** ** Encode / Decode *)

Lemma b58decode_encode bs : bs <> [] -> b58decode (b58encode bs) = Ok bs.
Proof.
  intros Hne. unfold b58encode, b58decode.
  assert (Hok : digits_ok 58 (convert 256 58 (map b2z bs)))
    by (apply convert_ok; try lia; apply digits_ok_bytes).
  destruct (map b58char (convert 256 58 (map b2z bs))) as [|c s] eqn:E.
  - apply map_eq_nil in E. apply convert_eq_nil in E; try lia; [|apply digits_ok_bytes].
    apply map_eq_nil in E. contradiction.
  - rewrite <- E. rewrite scan_b58_map by assumption.
    rewrite convert_convert by (try lia; apply digits_ok_bytes).
    rewrite map_z2b_b2z. reflexivity.
Qed.

Lemma b58decode_ok s bs : b58decode s = Ok bs -> b58encode bs = s /\ s <> [] /\ bs <> [].
Proof.
  unfold b58decode. destruct s as [|c s]; [discriminate|].
  destruct (scan b58digit (c :: s)) as [ds|] eqn:E; [|discriminate].
  intros [= <-]. apply scan_b58_ok in E as [Hok Hs].
  assert (Hok' : digits_ok 256 (convert 58 256 ds)) by (apply convert_ok; try lia; assumption).
  assert (ds <> []) as Hne by (intros ->; discriminate Hs).
  split; [|split].
  - unfold b58encode. rewrite map_b2z_z2b by assumption.
    rewrite convert_convert by (try lia; assumption). exact Hs.
  - discriminate.
  - intros H. apply map_eq_nil in H. apply Hne. apply convert_eq_nil in H; try lia; assumption.
Qed.

(** A string decodes to [bs] exactly when it is the encoding of [bs]. *)
Lemma b58decode_iff s bs : b58decode s = Ok bs <-> bs <> [] /\ s = b58encode bs.
Proof.
  split.
  - intros H. apply b58decode_ok in H as (H1 & H2 & H3). auto.
  - intros [Hne ->]. apply b58decode_encode, Hne.
Qed.

Lemma b58encode_inj a b : b58encode a = b58encode b -> a = b.
Proof.
  intros H. destruct a as [|x a].
  - destruct b as [|y b]; [reflexivity|].
    pose proof (b58decode_encode (y :: b) ltac:(discriminate)) as K. rewrite <- H in K. discriminate K.
  - destruct b as [|y b].
    + pose proof (b58decode_encode (x :: a) ltac:(discriminate)) as K. rewrite H in K. discriminate K.
    + pose proof (b58decode_encode (x :: a) ltac:(discriminate)) as K.
      rewrite H, b58decode_encode in K by discriminate. congruence.
Qed.

Lemma b58encode_nil bs : b58encode bs = [] -> bs = [].
Proof. intros H. apply (b58encode_inj bs []). rewrite H. reflexivity. Qed.

(** [is_b58 c]: a character of the alphabet. *)
Definition is_b58 (c : byte) : Prop := In c b58_alphabet.

Lemma find_pos_in c l i : (exists d, find_pos c l i = Some d) <-> In c l.
Proof.
  revert i; induction l as [|x l IH]; intros i; cbn [find_pos].
  - split; [intros [d H]; discriminate|intros []].
  - destruct (byte_eqb x c) eqn:E.
    + apply byte_eqb_eq in E. subst. split; [left; reflexivity|eauto].
    + rewrite IH. split; [right; assumption|]. intros [->|H]; [rewrite byte_eqb_refl in E; discriminate|assumption].
Qed.

Lemma scan_b58_iff s : Forall is_b58 s <-> exists ds, scan b58digit s = Some ds.
Proof.
  induction s as [|c s IH]; cbn [scan].
  - split; [eauto|constructor].
  - split.
    + intros H. inversion H as [|? ? Hc Hs]; subst. apply (find_pos_in _ _ 0) in Hc as [d Hd].
      apply IH in Hs as [ds Hds]. change (b58digit c = Some d) in Hd. rewrite Hd, Hds. eauto.
    + intros [ds H]. destruct (b58digit c) eqn:E; [|discriminate].
      destruct (scan b58digit s); [|discriminate]. constructor.
      * apply (find_pos_in _ _ 0). eauto.
      * apply IH. eauto.
Qed.

Lemma b58decode_success s : (exists bs, b58decode s = Ok bs) <-> s <> [] /\ Forall is_b58 s.
Proof.
  unfold b58decode. destruct s as [|c s].
  - split; [intros [bs H]; discriminate|intros [H _]; congruence].
  - rewrite scan_b58_iff. destruct (scan b58digit (c :: s)) as [ds|].
    + split; [|eauto]. intros _. split; [discriminate|eauto].
    + split; [intros [bs H]; discriminate|intros [_ [ds H]]; discriminate].
Qed.

Lemma b58encode_alphabet bs : Forall is_b58 (b58encode bs).
Proof.
  destruct bs as [|b bs]; [constructor|].
  apply (b58decode_success (b58encode (b :: bs))). exists (b :: bs). apply b58decode_encode. discriminate.
Qed.

Lemma b58enc_ascii bs : Forall (fun c => 0 < b2z c < 128) (b58encode bs).
Proof.
  unfold b58encode. apply Forall_map.
  assert (Hok : digits_ok 58 (convert 256 58 (map b2z bs)))
    by (apply convert_ok; try lia; apply digits_ok_bytes).
  eapply Forall_impl; [|exact Hok]. intros d Hd. apply b58char_ascii, Hd.
Qed.

(** ** Length and first character by interval *)

(** An encoding without leading zero bytes has [k+1] characters and starts with
    character [d] when the number lies in [d*58^k, (d+1)*58^k). *)
Lemma digits_lead b n d k : 2 <= b -> 0 < d < b -> d * b ^ Z.of_nat k <= n < (d + 1) * b ^ Z.of_nat k ->
  exists r, digits b n = d :: r /\ length r = k.
Proof.
  intros Hb Hd Hn.
  pose proof (Z.pow_pos_nonneg b (Z.of_nat k) ltac:(lia) ltac:(lia)) as Hp.
  assert (Hn0 : 0 < n) by nia.
  assert (length (digits b n) = S k) as Hl.
  { apply digits_length; [lia|lia|]. split; [lia|].
    rewrite Nat2Z.inj_succ. replace (Z.succ (Z.of_nat k) - 1) with (Z.of_nat k) by lia.
    rewrite Z.pow_succ_r by lia. nia. }
  destruct (digits b n) as [|d' r] eqn:E; [discriminate|].
  injection Hl as Hl. exists r. split; [|assumption]. f_equal.
  pose proof (digits_digits_ok b n Hb ltac:(lia)) as Hok. rewrite E in Hok.
  pose proof (valb_digits b n Hb ltac:(lia)) as Hv. rewrite E in Hv.
  pose proof (valb_first_digit b d' r Hb Hok) as Hf. rewrite Hv, Hl in Hf.
  destruct (Z.lt_trichotomy d d') as [Hlt|[->|Hlt]]; [|reflexivity|]; nia.
Qed.

Lemma b58encode_no_lead bs b r : bs = b :: r -> b <> x00 ->
  b58encode bs = map b58char (digits 58 (set_bytes bs)).
Proof.
  intros -> Hb. unfold b58encode, convert. cbn [map strip_lead].
  destruct (Z.eqb_spec (b2z b) 0) as [E|E].
  - exfalso. apply Hb. apply b2z_inj. exact E.
  - reflexivity.
Qed.

Lemma b58encode_lead1 bs : b58encode (x00 :: bs) = x31 :: b58encode bs.
Proof.
  unfold b58encode, convert. cbn [map strip_lead]. change (b2z x00 =? 0) with true. cbn iota beta.
  destruct (strip_lead 0 (map b2z bs)) as [n r]. reflexivity.
Qed.
