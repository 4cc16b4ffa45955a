(** * The hashes the API uses are the standards' (C92) *)

From Verif Require Import GoBase GoNum Sha256 Ripemd160 Base58 GoRand Model Spec SpecFacts SpecHash HashFacts RmdFacts.
From Verif Require Import PrivFacts PrivProps PubFacts MnemFacts MnemProps SeedFacts.
Local Open Scope Z_scope.
Local Opaque sha256 ripemd160.

Lemma sha256_exact m d : hashable m -> is_sha256 m d <-> d = sha256 m.
Proof. exact (sha256_standard m d). Qed.
Lemma ripemd160_exact m d : hashable m -> is_ripemd160 m d <-> d = ripemd160 m.
Proof. exact (ripemd160_standard m d). Qed.
Lemma short_hashable m : (length m <= 1000)%nat -> hashable m.
Proof. unfold hashable. lia. Qed.
Lemma sha_hashable m : hashable (sha256 m).
Proof. apply short_hashable. rewrite sha256_length. apply Nat.leb_le. reflexivity. Qed.

Lemma checksum_iff p c : hashable p -> is_checksum p c <-> c = checksum4 p.
Proof.
  intros H. unfold is_checksum, checksum4. split.
  - intros (d & e & Hd & He & ->). apply (sha256_exact _ _ H) in Hd. subst d. apply (sha256_exact _ _ (sha_hashable p)) in He. subst e. reflexivity.
  - intros ->. exists (sha256 p), (sha256 (sha256 p)). split; [apply sha256_exact; [exact H|reflexivity]|].
    split; [apply sha256_exact; [apply sha_hashable|reflexivity]|reflexivity].
Qed.
Lemma hash160_iff m h : hashable m -> is_hash160 m h <-> h = hash160 m.
Proof.
  intros H. unfold is_hash160, hash160. split.
  - intros (d & Hd & Hh). apply (sha256_exact _ _ H) in Hd. subst d. apply (ripemd160_exact _ _ (sha_hashable m)) in Hh. exact Hh.
  - intros ->. exists (sha256 m). split; [apply sha256_exact; [exact H|reflexivity]|].
    apply ripemd160_exact; [apply sha_hashable|reflexivity].
Qed.

(** ** Length of a Base58 text *)

Lemma number_58_bound ds : Forall (fun d => (d < 58)%nat) ds -> number 58 (map Z.of_nat ds) < 58 ^ Z.of_nat (length ds).
Proof.
  intros H. induction H as [|d ds Hd _ IH]; [reflexivity|].
  cbn [map number length]. rewrite map_length, Nat2Z.inj_succ, Z.pow_succ_r by lia.
  assert (0 < 58 ^ Z.of_nat (length ds)) by (apply Z.pow_pos_nonneg; lia). nia.
Qed.
Lemma base58_text_long bs s : base58_text bs s -> (length bs <= length s)%nat.
Proof.
  intros (z & body & ds & -> & Hb & -> & Hd & _ & HN). rewrite !app_length, !repeat_length, map_length.
  destruct body as [|b body]; [cbn [length]; lia|]. cbn [length].
  pose proof (number_58_bound ds Hd) as B. rewrite HN, bytes_number_cons in B.
  pose proof (bytes_number_bound body) as L. pose proof (byte_number_range b) as R.
  assert (NZ : byte_number b <> 0).
  { intros E. apply Hb. cbn [hd_error]. f_equal. destruct b; try reflexivity; vm_compute in E; discriminate. }
  destruct (Nat.le_gt_cases (S (length body)) (length ds)) as [G|G]; [lia|exfalso].
  assert (58 ^ Z.of_nat (length ds) <= 256 ^ Z.of_nat (length body)).
  { transitivity (256 ^ Z.of_nat (length ds)); [apply Z.pow_le_mono_l; lia|apply Z.pow_le_mono_r; lia]. }
  nia.
Qed.

(** ** The functions *)

Lemma wif_standard h n k bs : PrivateFromHex h (Some n) = Ret (Ok k) -> hex_text (PrivKeyPrefix n ++ h) bs -> hashable bs ->
  exists c, is_checksum bs c /\ base58_text (bs ++ c) (WIF k).
Proof.
  intros Hk Hb Hs. exists (checksum4 bs). split; [apply checksum_iff; [exact Hs|reflexivity]|].
  exact (wif_is_base58check _ _ _ _ Hk Hb).
Qed.

Lemma check_standard w : hashable w ->
  CheckWIF w = Ret true <-> exists p c, is_checksum p c /\ base58_text (p ++ c) w.
Proof.
  intros Hw.
  assert (S : forall p c, base58_text (p ++ c) w -> hashable p).
  { intros p c H. apply base58_text_long in H. rewrite app_length in H. unfold hashable in *. lia. }
  rewrite CheckWIF_true_iff. split.
  - intros [p Hp]. exists p, (checksum4 p). split; [apply checksum_iff; [exact (S _ _ Hp)|reflexivity]|exact Hp].
  - intros (p & c & Hc & Ht). exists p. apply (checksum_iff p c (S _ _ Ht)) in Hc. subst c. exact Ht.
Qed.

Lemma import_standard w net k : hashable w ->
  PrivateFromWIF w net = Ret (Ok k) <->
  exists v bs c, is_checksum (v :: bs) c /\ base58_text (v :: bs ++ c) w /\ WIF k = w /\ KNetwork k = net /\
    hex_text (Hex k) bs /\ lower_case_hex (Hex k) /\
    Key k = match bs with [] => None | _ => Some (bytes_number bs) end.
Proof.
  intros Hw.
  assert (S : forall p c, base58_text (p ++ c) w -> hashable p).
  { intros p c H. apply base58_text_long in H. rewrite app_length in H. unfold hashable in *. lia. }
  rewrite PrivateFromWIF_exact. split.
  - intros (v & bs & Hp & R). exists v, bs, (checksum4 (v :: bs)).
    split; [apply checksum_iff; [exact (S _ _ Hp)|reflexivity]|]. split; [exact Hp|exact R].
  - intros (v & bs & c & Hc & Ht & R). exists v, bs. split; [|exact R].
    change (v :: bs ++ c) with ((v :: bs) ++ c) in Ht.
    apply (checksum_iff _ c (S _ _ Ht)) in Hc. subst c. exact Ht.
Qed.

Lemma sec1_length c x y bs : sec1 c x y bs -> (length bs <= 65)%nat.
Proof.
  intros (X & [HX _] & H). destruct c; [subst; cbn [length]; lia|].
  destruct H as (Y & [HY _] & ->). cbn [length]. rewrite app_length. lia.
Qed.

Lemma address_standard x y n v c : 0 <= x < 2 ^ 256 -> 0 <= y < 2 ^ 256 -> hex_text (PubKeyHashPrefix n) v ->
  8 * (Z.of_nat (length v) + 20) < 2 ^ 64 ->
  exists a bs h k, Address (PublicKey (Some x) (Some y) (Some n)) c = Ret (Ok a) /\ sec1 c x y bs /\
    is_hash160 bs h /\ is_checksum (v ++ h) k /\ base58_text (v ++ h ++ k) a.
Proof.
  intros Hx Hy Hv Hl. destruct (Address_base58check x y n v c Hx Hy Hv) as (a & bs & Ha & Hs & Hb & _).
  exists a, bs, (hash160 bs), (checksum4 (v ++ hash160 bs)).
  split; [exact Ha|]. split; [exact Hs|]. split.
  { apply hash160_iff; [|reflexivity]. apply short_hashable. apply sec1_length in Hs. lia. }
  split; [|rewrite app_assoc; exact Hb].
  apply checksum_iff; [|reflexivity]. unfold hashable, hash160. rewrite app_length, ripemd160_length. lia.
Qed.

Lemma drop_zero_bytes_length e : (length (drop_zero_bytes e) <= length e)%nat.
Proof. induction e as [|b e IH]; [apply le_n|]. destruct b; cbn [drop_zero_bytes length]; try apply le_n. lia. Qed.

Lemma mnemonic_standard k l rd s ws : (4 <= k <= 8)%nat -> Forall (fun w => ~ In x20 w) (firstn 2048 l) ->
  NewMnemonic (Z.of_nat (3 * k)) (Some l) rd = Ret (Ok s) -> spaced ws s ->
  exists e d, e = firstn (4 * k) rd /\ length e = (4 * k)%nat /\ is_sha256 (drop_zero_bytes e) d /\
    phrase_bits l ws (rev (bits e ++ firstn k (drop_zero_bits (bits d)))).
Proof.
  intros Hk Hl Hn Hs. destruct (NewMnemonic_reversed k l rd s ws Hk Hl Hn Hs) as (e & chk & He & Le & _ & _ & HP & HC).
  exists e, (sha256 (drop_zero_bytes e)). split; [exact He|]. split; [exact Le|]. split; [|rewrite <- HC; exact HP].
  apply sha256_exact; [|reflexivity]. apply short_hashable. pose proof (drop_zero_bytes_length e). lia.
Qed.

Lemma seed_standard m p l ws : NoDup l -> (length l <= 2048)%nat -> spaced ws m -> 11 * Z.of_nat (length ws) < 2 ^ 64 ->
  (exists log r, NewSeedFromMnemonic m p (Some l) = (log, Ret (Ok r))) <->
  exists d c h, phrase_bits l ws (bits (d ++ [c])) /\ is_sha256 d h /\ hd_error h = Some c.
Proof.
  intros Hn Hl Hs Hw.
  assert (S : forall d c, phrase_bits l ws (bits (d ++ [c])) -> hashable d).
  { intros d c H. apply phrase_bits_length in H. rewrite bits_length, app_length in H. cbn [length] in H. unfold hashable. lia. }
  rewrite (NewSeed_accepts_iff m p l Hn Hl). split.
  - intros (ws' & d & c & Hs' & HP & Hc). rewrite <- (spaced_fun _ _ _ Hs Hs') in HP. exists d, c, (sha256 d).
    split; [exact HP|]. split; [apply sha256_exact; [exact (S _ _ HP)|reflexivity]|exact Hc].
  - intros (d & c & h & HP & Hh & Hc). apply (sha256_exact d h (S _ _ HP)) in Hh. subst h.
    exists ws, d, c. split; [exact Hs|]. split; [exact HP|exact Hc].
Qed.
