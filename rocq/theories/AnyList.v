(** * NewSeedFromMnemonic with any word list: repeated words, more than 2048 words *)

From Verif Require Import GoBase GoNum Sha256 Base58 GoRand Model.
From Verif Require Import NumFacts HexFacts Base58Facts Spec SpecMore SpecFacts GenFacts CombFacts MnemFacts MnemProps SeedFacts WordsEnglish MnemWitness.
Local Open Scope Z_scope.
Local Opaque sha256.

Lemma find_word_first w l k i : find_word w l k = Some i <->
  exists n, i = k + Z.of_nat n /\ nth_error l n = Some w /\ forall j, (j < n)%nat -> nth_error l j <> Some w.
Proof.
  revert k; induction l as [|x l IH]; intros k; cbn [find_word].
  - split; [discriminate|]. intros (n & _ & H & _). destruct n; discriminate.
  - destruct (str_eqb w x) eqn:E.
    + apply str_eqb_eq in E. subst x. split.
      * intros [= <-]. exists O. split; [lia|]. split; [reflexivity|]. intros j Hj. lia.
      * intros (n & -> & Hn & Hf). destruct n as [|n]; [f_equal; lia|]. exfalso. apply (Hf O); [lia|reflexivity].
    + apply str_eqb_neq in E. rewrite IH. split; intros (n & -> & Hn & Hf).
      * exists (S n). split; [lia|]. split; [exact Hn|]. intros [|j] Hj; cbn; [congruence|apply Hf; lia].
      * destruct n as [|n]; [cbn in Hn; congruence|]. exists n. split; [lia|]. split; [exact Hn|].
        intros j Hj. apply (Hf (S j)). lia.
Qed.

Lemma number2_bval B : number 2 (map Z.b2z B) = bval B.
Proof.
  unfold bval. induction B as [|b B IH]; [reflexivity|]. cbn [map number]. rewrite valb_cons, IH, map_length. reflexivity.
Qed.

Lemma sprintf_b_long B : hd_error B = Some true -> sprintf_b (bval B) = map bitchar B.
Proof. intros H. rewrite sprintf_b_bits. destruct B as [|[|] B]; try discriminate. reflexivity. Qed.

(** The text of one index. *)
Lemma index_text n B : number 2 (map Z.b2z B) = Z.of_nat n ->
  (length B = 11%nat \/ (11 < length B)%nat /\ hd_error B = Some true) ->
  pad_left 11 (sprintf_b (Z.of_nat n)) = map bitchar B.
Proof.
  rewrite number2_bval. intros <- [H|[H1 H2]].
  - apply pad_left_bits; [exact H|lia].
  - rewrite (sprintf_b_long B H2). unfold pad_left. rewrite map_length.
    replace (11 - length B)%nat with O by lia. reflexivity.
Qed.

Lemma drop_zero_bits_hd B : drop_zero_bits B = [] \/ hd_error (drop_zero_bits B) = Some true.
Proof. induction B as [|[|] B IH]; cbn; auto. Qed.

Lemma index_bits_any n : exists B, number 2 (map Z.b2z B) = Z.of_nat n /\
  (length B = 11%nat \/ (11 < length B)%nat /\ hd_error B = Some true).
Proof.
  assert (exists D, bval D = Z.of_nat n) as [D HD].
  { exists (map (fun i => Z.testbit (Z.of_nat n) (Z.of_nat i)) (rev (seq 0 (S n)))).
    apply Z.bits_inj'. intros i Hi. rewrite <- (Z2Nat.id i Hi), testbit_bval, map_rev, rev_involutive.
    destruct (Nat.lt_ge_cases (Z.to_nat i) (S n)) as [Hlt|Hge].
    - rewrite nth_indep with (d' := Z.testbit (Z.of_nat n) (Z.of_nat 0)) by (rewrite map_length, seq_length; lia).
      rewrite (map_nth (fun i => Z.testbit (Z.of_nat n) (Z.of_nat i))), seq_nth by lia. reflexivity.
    - rewrite nth_overflow by (rewrite map_length, seq_length; lia). symmetry. apply Z.bits_above_log2; [lia|].
      destruct (Nat.eq_dec n 0) as [->|Hn]; [cbn; lia|].
      pose proof (Z.log2_lt_lin (Z.of_nat n) ltac:(lia)). lia. }
  set (K := drop_zero_bits D). assert (bval K = Z.of_nat n) as HK by (unfold K; rewrite bval_drop; exact HD).
  destruct (Nat.le_gt_cases (length K) 11) as [Hl|Hl].
  - exists (repeat false (11 - length K) ++ K). rewrite number2_bval. split.
    + rewrite bval_app, HK.
      assert (forall m, bval (repeat false m) = 0) as ->; [|lia].
      intros m. unfold bval. rewrite map_repeat. cbn [Z.b2z]. rewrite <- (app_nil_r (repeat 0 m)), valb_lead0. reflexivity.
    + left. rewrite app_length, repeat_length. lia.
  - exists K. rewrite number2_bval. split; [exact HK|]. right. split; [exact Hl|].
    destruct (drop_zero_bits_hd D) as [E|E]; [|exact E]. exfalso. fold K in E. rewrite E in Hl. cbn in Hl. lia.
Qed.

Lemma words_binary_any l ws b : words_binary ws l = Some b <->
  exists Bs, Forall2 (word_bits l) ws Bs /\ b = map bitchar (concat Bs).
Proof.
  revert b; induction ws as [|w ws IH]; intros b; cbn [words_binary].
  - split.
    + intros [= <-]. exists []. split; [constructor|reflexivity].
    + intros (Bs & H & ->). inversion H; subst. reflexivity.
  - split.
    + destruct (find_word w l 0) as [i|] eqn:Ei; [|discriminate].
      destruct (words_binary ws l) as [rest|]; [|discriminate]. intros [= <-].
      destruct (proj1 (IH rest) eq_refl) as (Bs & HB & ->).
      apply find_word_first in Ei as (n & -> & Hn & Hf).
      destruct (index_bits_any n) as (B & H1 & H2). exists (B :: Bs). split.
      * constructor; [|exact HB]. exists n. auto.
      * cbn [concat]. rewrite map_app. f_equal. apply index_text; assumption.
    + intros (Bs & H & ->). inversion H as [|w' B ws' Bs' (n & Hn & Hf & H1 & H2) H' E1 E2]; subst.
      rewrite (proj2 (find_word_first w l 0 (0 + Z.of_nat n))) by eauto.
      rewrite (proj2 (IH (map bitchar (concat Bs')))) by eauto.
      cbn [concat]. rewrite map_app. f_equal. f_equal. apply index_text; assumption.
Qed.

(** The outcome from the bits alone. *)
Lemma NewSeed_bits_panic m p l B : words_binary (split_space m) (words_of l) = Some (map bitchar B) ->
  (length B mod 4 <> 0)%nat -> NewSeedFromMnemonic m p l = (map (map bitchar) (quads B), Panic PIndex).
Proof.
  intros H Hm. unfold NewSeedFromMnemonic. rewrite H, nibbles_bits.
  destruct (Nat.eqb_spec (length B mod 4) 0) as [E|E]; [contradiction|reflexivity].
Qed.

Lemma NewSeed_bits_odd m p l B q : words_binary (split_space m) (words_of l) = Some (map bitchar B) ->
  length B = (4 * (3 + 2 * q))%nat ->
  NewSeedFromMnemonic m p l = (map (map bitchar) (quads B), Ret (Err EHexLength)).
Proof.
  intros H LB. unfold NewSeedFromMnemonic. rewrite H, nibbles_bits.
  destruct (Nat.eqb_spec (length B mod 4) 0) as [E|E].
  2:{ exfalso. apply E. rewrite LB, Nat.mul_comm. apply Nat.mod_mul. lia. }
  set (hash := map (fun q => hexchar (bval q)) (quads B)).
  assert (Lh : length hash = (3 + 2 * q)%nat).
  { unfold hash. rewrite map_length, quads_length, LB, Nat.mul_comm. apply Nat.div_mul. lia. }
  rewrite !slice_ok by (unfold len; lia).
  rewrite hex_decode_odd; [reflexivity| |].
  - cbn [Z.to_nat skipn]. pose proof (quads_is_hex B) as Hx. fold hash in Hx.
    rewrite <- (firstn_skipn (Z.to_nat (len hash - 2 - 0)) hash) in Hx. apply Forall_app in Hx as [Hx _]. exact Hx.
  - cbn [Z.to_nat skipn]. rewrite firstn_length. unfold len. rewrite Lh.
    replace (Nat.min _ _) with (1 + 2 * q)%nat by lia. rewrite Nat.odd_add_mul_2. reflexivity.
Qed.

Lemma NewSeed_bits_bytes m p l d c :
  words_binary (split_space m) (words_of l) = Some (map bitchar (bits (d ++ [c]))) ->
  NewSeedFromMnemonic m p l =
  (map (map bitchar) (quads (bits (d ++ [c]))) ++
   (if str_eqb (firstn 2 (hex_encode (sha256 d))) (hex_encode [c]) then
      [hex_encode (sha256 d) ++ space :: str "64"; hex_encode (d ++ [c]) ++ space :: hex_encode [c]] else []),
   if str_eqb (firstn 2 (hex_encode (sha256 d))) (hex_encode [c]) then Ret (Ok None) else Ret (Err EInvalidChecksum)).
Proof.
  intros H. unfold NewSeedFromMnemonic. rewrite H, nibbles_bits, quads_bits_hex.
  destruct (Nat.eqb_spec (length (bits (d ++ [c])) mod 4) 0) as [E|E].
  2:{ exfalso. apply E. rewrite bits_length. replace (8 * length (d ++ [c]))%nat with (2 * length (d ++ [c]) * 4)%nat by lia.
      apply Nat.mod_mul. lia. }
  assert (Hlen : len (hex_encode (d ++ [c])) - 2 = len (hex_encode d)).
  { unfold len. rewrite !hex_encode_length, app_length. cbn [length]. lia. }
  rewrite Hlen, !hex_encode_app, slice_suffix, slice_prefix, hex_decode_encode.
  rewrite sha_hex.
  assert (Lh : length (hex_encode (sha256 d)) = 64%nat) by (rewrite hex_encode_length, sha256_length; reflexivity).
  rewrite slice_ok by (unfold len; rewrite ?Lh; lia). cbn [Z.to_nat skipn]. change (Z.to_nat (2 - 0)) with 2%nat.
  unfold len. rewrite Lh. change (sprintf_d (Z.of_nat 64)) with (str "64").
  destruct (str_eqb _ _); cbn [negb]; [reflexivity|]. rewrite app_nil_r. reflexivity.
Qed.

Lemma word_bits_length l ws Bs : Forall2 (word_bits l) ws Bs -> (11 * length ws <= length (concat Bs))%nat.
Proof.
  induction 1 as [|w B ws Bs (i & _ & _ & _ & HB) _ IH]; [cbn; lia|]. cbn [concat length]. rewrite app_length. lia.
Qed.

(** Every outcome, for every list and phrase. *)
Lemma NewSeed_any m p l ws : spaced ws m ->
  (exists w, In w ws /\ ~ In w (words_of l)) /\ NewSeedFromMnemonic m p l = ([], Ret (Err EInvalidMnemonic)) \/
  exists Bs, Forall2 (word_bits (words_of l)) ws Bs /\
    ((length (concat Bs) mod 4 <> 0)%nat /\ snd (NewSeedFromMnemonic m p l) = Panic PIndex \/
     (length (concat Bs) mod 8 = 4)%nat /\ snd (NewSeedFromMnemonic m p l) = Ret (Err EHexLength) \/
     exists d c, concat Bs = bits (d ++ [c]) /\
       (hd_error (sha256 d) = Some c /\ snd (NewSeedFromMnemonic m p l) = Ret (Ok None) \/
        hd_error (sha256 d) <> Some c /\ snd (NewSeedFromMnemonic m p l) = Ret (Err EInvalidChecksum))).
Proof.
  intros Hs. apply spaced_iff in Hs. subst ws.
  destruct (words_binary (split_space m) (words_of l)) as [b|] eqn:Eb.
  2:{ left. apply words_binary_none in Eb. split; [exact Eb|]. apply NewSeed_unknown, Eb. }
  right. pose proof Eb as Eb'. apply words_binary_any in Eb' as (Bs & HB & ->). exists Bs. split; [exact HB|].
  pose proof (word_bits_length _ _ _ HB) as LB.
  assert (1 <= length (split_space m))%nat as L1.
  { pose proof (split_space_nonempty m). destruct (split_space m); [congruence|cbn; lia]. }
  pose proof (Nat.div_mod (length (concat Bs)) 8 ltac:(lia)) as K8.
  pose proof (Nat.mod_upper_bound (length (concat Bs)) 8 ltac:(lia)) as U8.
  destruct (Nat.eq_dec (length (concat Bs) mod 4) 0) as [E4|E4].
  2:{ left. split; [exact E4|]. rewrite (NewSeed_bits_panic m p l _ Eb E4). reflexivity. }
  right. destruct (Nat.eq_dec (length (concat Bs) mod 8) 4) as [E8|E8].
  - left. split; [exact E8|].
    rewrite (NewSeed_bits_odd m p l (concat Bs) (length (concat Bs) / 8 - 1) Eb); [reflexivity|lia].
  - right. assert (length (concat Bs) mod 8 = 0)%nat as Z8.
    { pose proof (Nat.div_mod (length (concat Bs)) 4 ltac:(lia)). lia. }
    destruct (bits_surj (length (concat Bs) / 8) (concat Bs)) as (bs & E & Lb); [lia|].
    destruct bs as [|c d _] using rev_ind; [exfalso; cbn [length] in Lb; lia|].
    exists d, c. split; [exact E|]. rewrite E in Eb. rewrite (NewSeed_bits_bytes m p l d c Eb). cbn [snd].
    destruct (str_eqb (firstn 2 (hex_encode (sha256 d))) (hex_encode [c])) eqn:Ec.
    + left. split; [apply first_byte_check, Ec|reflexivity].
    + right. split; [|reflexivity]. intros K. apply first_byte_check in K. congruence.
Qed.

Lemma word_bits_fun l w B B' : word_bits l w B -> word_bits l w B' -> B = B'.
Proof.
  intros (i & Hi & Fi & Vi & Li) (j & Hj & Fj & Vj & Lj).
  assert (i = j) as <-.
  { destruct (Nat.lt_trichotomy i j) as [K|[K|K]]; [|exact K|]; exfalso; [apply (Fj i K Hi)|apply (Fi j K Hj)]. }
  pose proof (index_text i B Vi Li) as E1. pose proof (index_text i B' Vj Lj) as E2. rewrite E1 in E2.
  clear - E2. revert B' E2; induction B as [|b B IH]; intros [|b' B'] E; try discriminate; [reflexivity|].
  cbn [map] in E. injection E as E1 E2. f_equal; [|apply IH, E2]. destruct b, b'; try reflexivity; discriminate.
Qed.

Lemma NewSeed_accepts_any m p l :
  (exists log r, NewSeedFromMnemonic m p (Some l) = (log, Ret (Ok r))) <->
  exists ws Bs d c, spaced ws m /\ Forall2 (word_bits l) ws Bs /\ concat Bs = bits (d ++ [c]) /\
    hd_error (sha256 d) = Some c.
Proof.
  split.
  - intros (log & r & H).
    destruct (NewSeed_any m p (Some l) (split_space m) (split_spaced m)) as [[_ K]|(Bs & HB & [[_ K]|[[_ K]|(d & c & E & [[Hc K]|[_ K]])]])];
      rewrite H in K; try discriminate.
    exists (split_space m), Bs, d, c. split; [apply split_spaced|]. auto.
  - intros (ws & Bs & d & c & Hs & HB & E & Hc). apply spaced_iff in Hs. subst ws.
    rewrite (NewSeed_bits_bytes m p (Some l) d c).
    + apply first_byte_check in Hc. rewrite Hc. eauto.
    + cbn [words_of]. apply words_binary_any. exists Bs. rewrite E. auto.
Qed.

(** A list with only one word: every entropy gives the same phrase. *)
Lemma repeated_words : exists l s e1 e2, length l = 2048%nat /\
  Forall (fun w => ~ In x20 w) l /\ length e1 = 16%nat /\ length e2 = 16%nat /\ e1 <> e2 /\
  NewMnemonic 12 (Some l) e1 = Ret (Ok s) /\ NewMnemonic 12 (Some l) e2 = Ret (Ok s).
Proof.
  exists (repeat (str "a") 2048), (str "a a a a a a a a a a a a"), (repeat x01 16), (repeat x02 16).
  split; [apply repeat_length|]. split.
  { apply Forall_forall. intros w Hw. apply repeat_spec in Hw. subst w. cbn. intuition discriminate. }
  split; [reflexivity|]. split; [reflexivity|]. split; [discriminate|]. split; vm_compute; reflexivity.
Qed.

Lemma art_accepted : exists ws, length ws = 24%nat /\ Forall (fun w => In w EnglishWordlist) ws /\ spaced ws phrase_art /\
  snd (NewSeedFromMnemonic phrase_art [] (Some EnglishWordlist)) = Ret (Ok None).
Proof.
  exists (split_space phrase_art). split; [vm_compute; reflexivity|]. split.
  - assert (forallb (fun w => existsb (str_eqb w) EnglishWordlist) (split_space phrase_art) = true) as K by (vm_compute; reflexivity).
    rewrite forallb_forall in K. apply Forall_forall. intros w Hw. apply K, existsb_exists in Hw as (x & Hx & E).
    apply str_eqb_eq in E. subst x. exact Hx.
  - split; [apply split_spaced|vm_compute; reflexivity].
Qed.
