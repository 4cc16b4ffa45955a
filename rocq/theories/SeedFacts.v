(** * NewSeedFromMnemonic: lemmas behind C44-C48 *)

From Verif Require Import GoBase GoNum Sha256 Base58 GoRand Model.
From Verif Require Import NumFacts HexFacts Base58Facts Spec SpecFacts GenFacts CombFacts MnemFacts MnemProps.
From Coq Require Import ZifyBool ZifyNat ZifyN.
Local Open Scope Z_scope.
Local Opaque sha256.

(** ** Looking words up *)

Lemma find_word_some w l k i : find_word w l k = Some i -> exists n, i = k + Z.of_nat n /\ nth_error l n = Some w.
Proof.
  revert k; induction l as [|x l IH]; intros k H; [discriminate|]. cbn [find_word] in H.
  destruct (str_eqb w x) eqn:E.
  - injection H as <-. apply str_eqb_eq in E. subst. exists O. split; [lia|reflexivity].
  - apply IH in H as (n & -> & Hn). exists (S n). split; [lia|exact Hn].
Qed.
Lemma find_word_nodup w l k n : NoDup l -> nth_error l n = Some w -> find_word w l k = Some (k + Z.of_nat n).
Proof.
  intros Hnd. revert k n; induction Hnd as [|x l Hx Hnd IH]; intros k n Hn; [destruct n; discriminate|].
  cbn [find_word]. destruct n as [|n].
  - injection Hn as ->. rewrite str_eqb_refl. f_equal. lia.
  - cbn in Hn. destruct (str_eqb w x) eqn:E.
    + apply str_eqb_eq in E. subst. exfalso. apply Hx. apply nth_error_In in Hn. exact Hn.
    + rewrite (IH (k + 1) n Hn). f_equal. lia.
Qed.
Lemma find_word_none w l k : find_word w l k = None <-> ~ In w l.
Proof.
  revert k; induction l as [|x l IH]; intros k; cbn [find_word In]; [tauto|].
  destruct (str_eqb w x) eqn:E.
  - apply str_eqb_eq in E. subst. split; [discriminate|]. intros H. exfalso. apply H. left. reflexivity.
  - apply str_eqb_neq in E. rewrite IH. intuition congruence.
Qed.

Lemma pad11_index i : (i < 2048)%nat -> pad_left 11 (sprintf_b (Z.of_nat i)) = map bitchar (index_bits i).
Proof.
  intros H. rewrite <- (bval_index_bits i H). rewrite (bval_index_bits i H) at 1. 
  rewrite <- (bval_index_bits i H). apply pad_left_bits; [reflexivity|lia].
Qed.

Lemma words_binary_bits l ws b : NoDup l -> (length l <= 2048)%nat ->
  (words_binary ws l = Some b <-> exists B, phrase_bits l ws B /\ b = map bitchar B).
Proof.
  intros Hnd Hl. revert b; induction ws as [|w ws IH]; intros b; cbn [words_binary].
  - split.
    + intros [= <-]. exists []. split; [exists []; split; [constructor|reflexivity]|reflexivity].
    + intros (B & (is & HF & ->) & ->). inversion HF; subst. reflexivity.
  - split.
    + destruct (find_word w l 0) as [i|] eqn:Ei; [|discriminate].
      destruct (words_binary ws l) as [rest|]; [|discriminate]. intros [= <-].
      destruct (proj1 (IH rest) eq_refl) as (B & (is & HF & ->) & ->).
      apply find_word_some in Ei as (n & -> & Hn).
      assert (Hlt : (n < 2048)%nat).
      { eapply Nat.lt_le_trans; [|exact Hl]. apply nth_error_Some. congruence. }
      exists (index_bits n ++ flat_map index_bits is). split.
      * exists (n :: is). split; [constructor; auto|reflexivity].
      * rewrite map_app. f_equal. apply pad11_index, Hlt.
    + intros (B & (is & HF & ->) & ->). inversion HF as [|w' i ws' is' [Hi Hw] HF' E1 E2]; subst.
      rewrite (find_word_nodup w l 0 i Hnd Hw).
      rewrite (proj2 (IH (map bitchar (flat_map index_bits is')))).
      * cbn [flat_map]. rewrite map_app. f_equal. f_equal. apply pad11_index, Hi.
      * exists (flat_map index_bits is'). split; [exists is'; auto|reflexivity].
Qed.

Lemma words_binary_none l ws : words_binary ws l = None <-> exists w, In w ws /\ ~ In w l.
Proof.
  induction ws as [|w ws IH]; cbn [words_binary].
  - split; [discriminate|]. intros (w & [] & _).
  - destruct (find_word w l 0) as [i|] eqn:Ei.
    + destruct (words_binary ws l) as [r|].
      * split; [discriminate|]. intros (w' & [->|Hin] & Hn).
        -- apply (find_word_none w' l 0) in Hn. congruence.
        -- exfalso. destruct IH as [_ IH]. discriminate IH. eauto.
      * split; [intros _|reflexivity]. destruct (proj1 IH eq_refl) as (w' & Hin & Hn). exists w'. split; [right; exact Hin|exact Hn].
    + split; [intros _|reflexivity]. exists w. split; [left; reflexivity|]. apply find_word_none in Ei. exact Ei.
Qed.

Lemma in_list_phrase_bits l ws : (length l <= 2048)%nat -> Forall (fun w => In w l) ws -> exists B, phrase_bits l ws B.
Proof.
  intros Hl. induction 1 as [|w ws Hw _ (B & is & HF & ->)].
  - exists [], []. split; [constructor|reflexivity].
  - apply In_nth_error in Hw as [i Hi]. exists (index_bits i ++ flat_map index_bits is), (i :: is).
    split; [|reflexivity]. constructor; [|exact HF]. split; [|exact Hi].
    eapply Nat.lt_le_trans; [|exact Hl]. apply nth_error_Some. congruence.
Qed.

(** ** Four bits at a time *)

Fixpoint quads (B : list bool) : list (list bool) :=
  match B with
  | a :: b :: c :: d :: B' => [a; b; c; d] :: quads B'
  | _ => []
  end.

Lemma list_quad_ind {A} (P : list A -> Prop) :
  (forall l, (length l < 4)%nat -> P l) ->
  (forall a b c d l, P l -> P (a :: b :: c :: d :: l)) -> forall l, P l.
Proof.
  intros H0 H4 l. remember (length l) as n eqn:E. revert l E.
  induction n as [n IH] using lt_wf_ind. intros l ->.
  destruct l as [|a [|b [|c [|d l]]]]; try (apply H0; cbn; lia).
  apply H4. apply (IH (length l)); [cbn; lia|reflexivity].
Qed.

Lemma quads_concat B : concat (quads B) = firstn (4 * (length B / 4)) B.
Proof.
  induction B as [B H|a b c d B IH] using list_quad_ind.
  - rewrite Nat.div_small by exact H. destruct B as [|a [|b [|c [|d B]]]]; try reflexivity. cbn in H. lia.
  - cbn [quads concat length app]. replace (S (S (S (S (length B))))) with (length B + 1 * 4)%nat by lia.
    rewrite Nat.div_add by lia. replace (4 * (length B / 4 + 1))%nat with (4 + 4 * (length B / 4))%nat by lia.
    cbn [Nat.add firstn]. rewrite <- IH. reflexivity.
Qed.

Lemma nibble_hex q : length q = 4%nat -> bigIntToHex (set_string2 (map bitchar q)) = [hexchar (bval q)].
Proof.
  intros H. destruct q as [|a [|b [|c [|d [|? q]]]]]; try discriminate.
  destruct a, b, c, d; vm_compute; reflexivity.
Qed.

Lemma nibbles_bits B :
  nibbles (map bitchar B) =
  (map (map bitchar) (quads B),
   if (length B mod 4 =? 0)%nat then Ret (map (fun q => hexchar (bval q)) (quads B)) else Panic PIndex).
Proof.
  induction B as [B H|a b c d B IH] using list_quad_ind.
  - destruct B as [|a [|b [|c [|d B]]]]; try reflexivity. cbn in H. lia.
  - cbn [map nibbles]. rewrite IH.
    replace (length (a :: b :: c :: d :: B) mod 4)%nat with (length B mod 4)%nat.
    2:{ cbn [length]. replace (S (S (S (S (length B))))) with (length B + 1 * 4)%nat by lia.
        symmetry. apply Nat.mod_add. lia. }
    cbn [quads map]. destruct (_ =? 0)%nat; cbn [bind]; [|reflexivity].
    do 2 f_equal. change [bitchar a; bitchar b; bitchar c; bitchar d] with (map bitchar [a; b; c; d]).
    rewrite nibble_hex by reflexivity. reflexivity.
Qed.

Lemma quads_app A B : (length A mod 4 = 0)%nat -> quads (A ++ B) = quads A ++ quads B.
Proof.
  induction A as [A H|a b c d A IH] using list_quad_ind; intros Hm.
  - rewrite Nat.mod_small in Hm by exact H. destruct A; [reflexivity|discriminate].
  - cbn [app quads]. rewrite IH; [reflexivity|].
    cbn [length] in Hm. replace (S (S (S (S (length A))))) with (length A + 1 * 4)%nat in Hm by lia.
    rewrite Nat.mod_add in Hm by lia. exact Hm.
Qed.
Lemma quads_length B : length (quads B) = (length B / 4)%nat.
Proof.
  induction B as [B H|a b c d B IH] using list_quad_ind.
  - rewrite Nat.div_small by exact H. destruct B as [|a [|b [|c [|d B]]]]; try reflexivity. cbn in H. lia.
  - cbn [quads length]. rewrite IH. replace (S (S (S (S (length B))))) with (length B + 1 * 4)%nat by lia.
    rewrite Nat.div_add by lia. lia.
Qed.
Lemma quads_4 B : Forall (fun q => length q = 4%nat) (quads B).
Proof.
  induction B as [B H|a b c d B IH] using list_quad_ind.
  - destruct B as [|a [|b [|c [|d B]]]]; try apply Forall_nil. cbn in H. lia.
  - cbn [quads]. constructor; [reflexivity|exact IH].
Qed.

(** The hex string of whole bytes is their hex encoding. *)
Lemma quads_bits_hex bs : map (fun q => hexchar (bval q)) (quads (bits bs)) = hex_encode bs.
Proof.
  induction bs as [|b bs IH]; [reflexivity|]. cbn [bits flat_map]. fold (bits bs).
  rewrite quads_app by reflexivity. rewrite map_app, IH.
  change (hex_encode (b :: bs)) with (hex_encode [b] ++ hex_encode bs). f_equal. destruct b; vm_compute; reflexivity.
Qed.

Lemma quads_is_hex B : Forall is_hex (map (fun q => hexchar (bval q)) (quads B)).
Proof.
  pose proof (quads_4 B) as H. induction H as [|q Q Hq _ IH]; [constructor|]. cbn [map]. constructor; [|exact IH].
  apply is_hex_fromhex. exists (bval q). apply fromhex_hexchar. pose proof (bval_bound q) as K. rewrite Hq in K. exact K.
Qed.

(** Whole bytes from bits. *)
Lemma bits_surj n B : length B = (8 * n)%nat -> exists bs, B = bits bs /\ length bs = n.
Proof.
  revert B; induction n as [|n IH]; intros B H.
  - destruct B; [|cbn in H; lia]. exists []. auto.
  - destruct (IH (skipn 8 B)) as (bs & E & Hl); [rewrite skipn_length; lia|].
    assert (L8 : length (firstn 8 B) = 8%nat) by (rewrite firstn_length; lia).
    exists (z2b (bval (firstn 8 B)) :: bs). split; [|cbn; lia].
    cbn [bits flat_map]. fold (bits bs). rewrite <- E.
    rewrite <- (firstn_skipn 8 B) at 1. f_equal. apply bval_inj; [rewrite L8; reflexivity|].
    rewrite byte_bits_val. pose proof (bval_bound (firstn 8 B)) as Hb. rewrite L8 in Hb.
    change (byte_number (z2b (bval (firstn 8 B)))) with (b2z (z2b (bval (firstn 8 B)))).
    rewrite b2z_z2b; [reflexivity|exact Hb].
Qed.

(** ** The whole function, once the words are known *)

Lemma byte_number_b2z b : byte_number b = b2z b.
Proof. reflexivity. Qed.

Lemma sha_hex m : pad_left 64 (bigIntToHex (Some (set_bytes (sha256 m)))) = hex_encode (sha256 m).
Proof.
  cbn [bigIntToHex]. rewrite <- bytes_number_set_bytes.
  pose proof (bytes_number_bound (sha256 m)) as Hb. rewrite sha256_length in Hb.
  pose proof (pad_left_sprintf_x_hex 64 (bytes_number (sha256 m)) ltac:(lia)) as Hx.
  pose proof (sprintf_x_length_le (bytes_number (sha256 m)) 64 ltac:(exact Hb) ltac:(lia)) as Hl.
  assert (L : length (pad_left 64 (sprintf_x (bytes_number (sha256 m)))) = 64%nat) by (rewrite pad_left_length; lia).
  destruct (proj2 (hex_decode_ok_iff (pad_left 64 (sprintf_x (bytes_number (sha256 m)))))) as [X HX].
  { split; [rewrite L; reflexivity|exact Hx]. }
  assert (X = sha256 m).
  { apply bytes_number_inj.
    - apply hex_decode_length in HX. rewrite sha256_length. lia.
    - assert (pad_left 64 (sprintf_x (bytes_number (sha256 m))) <> []) as Hne by (intros E; rewrite E in L; discriminate).
      pose proof (set_string16_decode _ _ Hne HX) as K. rewrite pad_left_sprintf_x_value in K by lia.
      rewrite (bytes_number_set_bytes X). congruence. }
  subst X. rewrite (hex_encode_decode _ _ HX). unfold pad_left. rewrite to_lower_app, sprintf_x_lower by lia.
  f_equal. symmetry. clear. induction (64 - length (sprintf_x (bytes_number (sha256 m))))%nat; [reflexivity|].
  cbn [repeat to_lower map]. f_equal. exact IHn.
Qed.

Lemma NewSeed_unknown m p l : (exists w, In w (split_space m) /\ ~ In w (words_of l)) ->
  NewSeedFromMnemonic m p l = ([], Ret (Err EInvalidMnemonic)).
Proof. intros H. apply words_binary_none in H. unfold NewSeedFromMnemonic. rewrite H. reflexivity. Qed.

Lemma NewSeed_panic m p l B : NoDup l -> (length l <= 2048)%nat -> phrase_bits l (split_space m) B ->
  (length (split_space m) mod 4 <> 0)%nat ->
  NewSeedFromMnemonic m p (Some l) = (map (map bitchar) (quads B), Panic PIndex).
Proof.
  intros Hnd Hl Hp Hm. unfold NewSeedFromMnemonic. cbn [words_of].
  rewrite (proj2 (words_binary_bits l (split_space m) (map bitchar B) Hnd Hl)) by eauto.
  rewrite nibbles_bits. apply phrase_bits_length in Hp as HB.
  destruct (Nat.eqb_spec (length B mod 4) 0) as [E|E]; [|reflexivity].
  exfalso. apply Hm. rewrite HB in E. clear - E.
  pose proof (Nat.div_mod (11 * length (split_space m)) 4 ltac:(lia)) as K.
  pose proof (Nat.div_mod (length (split_space m)) 4 ltac:(lia)) as K'.
  pose proof (Nat.mod_upper_bound (length (split_space m)) 4 ltac:(lia)). lia.
Qed.

Lemma NewSeed_4mod8 m p l B : NoDup l -> (length l <= 2048)%nat -> phrase_bits l (split_space m) B ->
  (length (split_space m) mod 8 = 4)%nat ->
  NewSeedFromMnemonic m p (Some l) = (map (map bitchar) (quads B), Ret (Err EHexLength)).
Proof.
  intros Hnd Hl Hp Hm. unfold NewSeedFromMnemonic. cbn [words_of].
  rewrite (proj2 (words_binary_bits l (split_space m) (map bitchar B) Hnd Hl)) by eauto.
  rewrite nibbles_bits. apply phrase_bits_length in Hp as HB.
  set (n := length (split_space m)) in *.
  pose proof (Nat.div_mod n 8 ltac:(lia)) as Kn. rewrite Hm in Kn.
  assert (LB : length B = (4 * (11 * (2 * (n / 8) + 1)))%nat) by lia.
  destruct (Nat.eqb_spec (length B mod 4) 0) as [E|E].
  2:{ exfalso. apply E. rewrite LB, Nat.mul_comm. apply Nat.mod_mul. lia. }
  set (hash := map (fun q => hexchar (bval q)) (quads B)).
  assert (Lh : length hash = (11 * (2 * (n / 8) + 1))%nat).
  { unfold hash. rewrite map_length, quads_length, LB, Nat.mul_comm. apply Nat.div_mul. lia. }
  rewrite !slice_ok by (unfold len; lia).
  rewrite hex_decode_odd; [reflexivity| |].
  - cbn [Z.to_nat skipn]. pose proof (quads_is_hex B) as Hx. fold hash in Hx.
    rewrite <- (firstn_skipn (Z.to_nat (len hash - 2 - 0)) hash) in Hx. apply Forall_app in Hx as [Hx _]. exact Hx.
  - cbn [Z.to_nat skipn]. rewrite firstn_length. unfold len. rewrite Lh.
    replace (Nat.min _ _) with (1 + 2 * (11 * (n / 8) + 4))%nat by lia. rewrite Nat.odd_add_mul_2. reflexivity.
Qed.

Lemma NewSeed_0mod8 m p l d c : NoDup l -> (length l <= 2048)%nat ->
  phrase_bits l (split_space m) (bits (d ++ [c])) ->
  NewSeedFromMnemonic m p (Some l) =
  (map (map bitchar) (quads (bits (d ++ [c]))) ++
   (if str_eqb (firstn 2 (hex_encode (sha256 d))) (hex_encode [c]) then
      [hex_encode (sha256 d) ++ space :: str "64"; hex_encode (d ++ [c]) ++ space :: hex_encode [c]] else []),
   if str_eqb (firstn 2 (hex_encode (sha256 d))) (hex_encode [c]) then Ret (Ok None) else Ret (Err EInvalidChecksum)).
Proof.
  intros Hnd Hl Hp. unfold NewSeedFromMnemonic. cbn [words_of].
  rewrite (proj2 (words_binary_bits l (split_space m) (map bitchar (bits (d ++ [c]))) Hnd Hl)) by eauto.
  rewrite nibbles_bits, quads_bits_hex.
  destruct (Nat.eqb_spec (length (bits (d ++ [c])) mod 4) 0) as [E|E].
  2:{ exfalso. apply E. rewrite bits_length. replace (8 * length (d ++ [c]))%nat with (2 * length (d ++ [c]) * 4)%nat by lia.
      apply Nat.mod_mul. lia. }
  assert (Hlen : len (hex_encode (d ++ [c])) - 2 = len (hex_encode d)).
  { unfold len. rewrite !hex_encode_length, app_length. cbn [length]. lia. }
  rewrite Hlen, !hex_encode_app, slice_suffix, slice_prefix, hex_decode_encode.
  rewrite sha_hex.
  assert (Lh : length (hex_encode (sha256 d)) = 64%nat) by (rewrite hex_encode_length, sha256_length; reflexivity).
  rewrite slice_ok by (unfold len; rewrite ?Lh; lia). cbn [Z.to_nat skipn]. change (Z.to_nat (2 - 0)) with 2%nat.
  unfold len. rewrite Lh. change (sprintf_d (Z.of_nat 64)) with (str "64").
  destruct (str_eqb _ _); cbn [negb]; [reflexivity|]. rewrite app_nil_r. reflexivity.
Qed.

Lemma first_byte_check d c : str_eqb (firstn 2 (hex_encode (sha256 d))) (hex_encode [c]) = true <->
  hd_error (sha256 d) = Some c.
Proof.
  rewrite str_eqb_eq. pose proof (sha256_length d) as Hl. destruct (sha256 d) as [|b h]; [discriminate|].
  change (hex_encode (b :: h)) with (hex_encode [b] ++ hex_encode h).
  change (firstn 2 (hex_encode [b] ++ hex_encode h)) with (hex_encode [b]). cbn [hd_error]. split.
  - intros H. apply hex_encode_inj in H. congruence.
  - intros [= ->]. reflexivity.
Qed.

(** Case analysis on the number of words. *)
Lemma phrase_bytes l ws B : phrase_bits l ws B -> ws <> [] -> (length ws mod 8 = 0)%nat ->
  exists d c, B = bits (d ++ [c]).
Proof.
  intros Hp Hne Hm. apply phrase_bits_length in Hp.
  pose proof (Nat.div_mod (length ws) 8 ltac:(lia)) as Kn. rewrite Hm in Kn.
  destruct (bits_surj (11 * (length ws / 8)) B) as (bs & -> & Lb); [lia|].
  destruct bs as [|b bs] using rev_ind.
  - exfalso. apply Hne. cbn [length] in Lb. apply length_zero_iff_nil.
    clear - Lb Kn. generalize dependent (length ws). intros n Kn Lb. lia.
  - eauto.
Qed.

(** C44 *)
Lemma NewSeed_never_seed m p l log r : NewSeedFromMnemonic m p l = (log, Ret (Ok r)) -> r = None.
Proof.
  unfold NewSeedFromMnemonic. destruct (words_binary _ _); [|discriminate].
  destruct (nibbles _) as [log1 [hash|]]; [|discriminate].
  destruct (slice hash (len hash - 2) (len hash)); [|discriminate].
  destruct (slice hash 0 (len hash - 2)); [|discriminate].
  destruct (hex_decode _); [|discriminate]. destruct (slice _ 0 2); [|discriminate].
  destruct (negb _); [discriminate|]. congruence.
Qed.

Lemma NewSeed_passphrase m p q l : NewSeedFromMnemonic m p l = NewSeedFromMnemonic m q l.
Proof. reflexivity. Qed.

(** C45 *)
Lemma NewSeed_accepts_iff m p l : NoDup l -> (length l <= 2048)%nat ->
  ((exists log r, NewSeedFromMnemonic m p (Some l) = (log, Ret (Ok r))) <->
   exists ws d c, spaced ws m /\ phrase_bits l ws (bits (d ++ [c])) /\ hd_error (sha256 d) = Some c).
Proof.
  intros Hnd Hl. split.
  - intros (log & r & H). exists (split_space m).
    destruct (words_binary (split_space m) l) as [b|] eqn:Eb.
    2:{ apply (words_binary_none l) in Eb. rewrite (NewSeed_unknown m p (Some l)) in H by exact Eb. discriminate. }
    apply (words_binary_bits l _ _ Hnd Hl) in Eb as (B & HB & _).
    destruct (Nat.eq_dec (length (split_space m) mod 4) 0) as [H4|H4].
    2:{ rewrite (NewSeed_panic m p l B Hnd Hl HB H4) in H. discriminate. }
    assert (length (split_space m) mod 8 = 0 \/ length (split_space m) mod 8 = 4)%nat as [H8|H8].
    { pose proof (Nat.div_mod (length (split_space m)) 4 ltac:(lia)) as K4.
      pose proof (Nat.div_mod (length (split_space m)) 8 ltac:(lia)) as K8.
      pose proof (Nat.mod_upper_bound (length (split_space m)) 8 ltac:(lia)). lia. }
    + destruct (phrase_bytes l _ B HB (split_space_nonempty m) H8) as (d & c & ->).
      exists d, c. split; [apply split_spaced|]. split; [exact HB|].
      rewrite (NewSeed_0mod8 m p l d c Hnd Hl HB) in H. apply first_byte_check.
      destruct (str_eqb _ _); [reflexivity|discriminate].
    + rewrite (NewSeed_4mod8 m p l B Hnd Hl HB H8) in H. discriminate.
  - intros (ws & d & c & Hs & Hp & Hc). apply spaced_iff in Hs. subst ws.
    rewrite (NewSeed_0mod8 m p l d c Hnd Hl Hp). apply first_byte_check in Hc. rewrite Hc. eauto.
Qed.

Lemma bits_cons_firstn b h : firstn 8 (bits (b :: h)) = byte_bits b.
Proof. reflexivity. Qed.
Lemma byte_bits_inj a b : byte_bits a = byte_bits b -> a = b.
Proof.
  intros H. apply b2z_inj. change (byte_number a = byte_number b).
  rewrite <- !byte_bits_val, H. reflexivity.
Qed.

Lemma bip39_24 l ws : length ws = 24%nat ->
  ((exists d c, phrase_bits l ws (bits (d ++ [c])) /\ hd_error (sha256 d) = Some c) <-> exists e, bip39 l ws e).
Proof.
  intros Hw. split.
  - intros (d & c & Hp & Hc). exists d. pose proof (phrase_bits_length _ _ _ Hp) as L.
    rewrite bits_length, app_length, Hw in L. cbn [length] in L. assert (Ld : length d = 32%nat) by lia.
    split; [rewrite Ld; cbn; tauto|]. rewrite Ld. change (32 / 4)%nat with 8%nat.
    rewrite bits_app in Hp. destruct (sha256 d) as [|b h]; [discriminate|]. injection Hc as ->.
    rewrite bits_cons_firstn. cbn [bits flat_map] in Hp. rewrite app_nil_r in Hp. exact Hp.
  - intros (e & Hin & Hp). pose proof (phrase_bits_length _ _ _ Hp) as L.
    rewrite app_length, bits_length, firstn_length, bits_sha_length, Hw in L.
    assert (Le : length e = 32%nat).
    { cbn in Hin. destruct Hin as [E|[E|[E|[E|[E|[]]]]]]; rewrite <- E in *; cbn in L; lia. }
    rewrite Le in Hp. change (32 / 4)%nat with 8%nat in Hp.
    pose proof (sha256_length e) as Ls. destruct (sha256 e) as [|b h] eqn:Eh; [discriminate|].
    exists e, b. split.
    + rewrite bits_app. cbn [bits flat_map]. rewrite app_nil_r. rewrite bits_cons_firstn in Hp. exact Hp.
    + rewrite Eh. reflexivity.
Qed.

Lemma NewSeed_accepts_24 m p l ws : NoDup l -> (length l <= 2048)%nat -> spaced ws m -> length ws = 24%nat ->
  ((exists log r, NewSeedFromMnemonic m p (Some l) = (log, Ret (Ok r))) <-> exists e, bip39 l ws e).
Proof.
  intros Hnd Hl Hs Hw. rewrite (NewSeed_accepts_iff m p l Hnd Hl), <- (bip39_24 l ws Hw). split.
  - intros (ws' & d & c & Hs' & Hp & Hc). pose proof (spaced_fun _ _ _ Hs Hs') as <-. exists d, c. auto.
  - intros (d & c & Hp & Hc). exists ws, d, c. auto.
Qed.

(** The number of words of an accepted phrase. *)
Lemma NewSeed_accepts_count m p l ws log r : NoDup l -> (length l <= 2048)%nat -> spaced ws m ->
  NewSeedFromMnemonic m p (Some l) = (log, Ret (Ok r)) -> (length ws mod 8 = 0)%nat.
Proof.
  intros Hnd Hl Hs H. assert (K : exists log r, NewSeedFromMnemonic m p (Some l) = (log, Ret (Ok r))) by eauto.
  apply (NewSeed_accepts_iff m p l Hnd Hl) in K as (ws' & d & c & Hs' & Hp & _).
  pose proof (spaced_fun _ _ _ Hs Hs') as <-. apply phrase_bits_length in Hp. rewrite bits_length in Hp.
  pose proof (Nat.div_mod (length ws) 8 ltac:(lia)).
  pose proof (Nat.mod_upper_bound (length ws) 8 ltac:(lia)). lia.
Qed.

(** C46 *)
Lemma NewSeed_count_panics m p l ws : NoDup l -> (length l <= 2048)%nat -> spaced ws m ->
  Forall (fun w => In w l) ws -> (length ws mod 4 <> 0)%nat ->
  exists log, NewSeedFromMnemonic m p (Some l) = (log, Panic PIndex).
Proof.
  intros Hnd Hl Hs Hin Hm. apply spaced_iff in Hs. subst ws.
  destruct (in_list_phrase_bits l _ Hl Hin) as [B HB]. eexists. apply (NewSeed_panic m p l B Hnd Hl HB Hm).
Qed.
Lemma NewSeed_count_errors m p l ws : NoDup l -> (length l <= 2048)%nat -> spaced ws m ->
  Forall (fun w => In w l) ws -> (length ws mod 8 = 4)%nat ->
  exists log e, NewSeedFromMnemonic m p (Some l) = (log, Ret (Err e)).
Proof.
  intros Hnd Hl Hs Hin Hm. apply spaced_iff in Hs. subst ws.
  destruct (in_list_phrase_bits l _ Hl Hin) as [B HB]. do 2 eexists. apply (NewSeed_4mod8 m p l B Hnd Hl HB Hm).
Qed.

(** Hence every BIP-39 phrase of 12, 15, 18 or 21 words is refused or crashes. *)
Lemma bip39_words l ws e : bip39 l ws e -> (length ws = 3 * (length e / 4))%nat.
Proof.
  intros [Hin Hp]. apply phrase_bits_length in Hp.
  rewrite app_length, bits_length, firstn_length, bits_sha_length in Hp.
  cbn in Hin. destruct Hin as [E|[E|[E|[E|[E|[]]]]]]; rewrite <- E in *; cbn in Hp |- *; lia.
Qed.
Lemma bip39_short_refused m p l ws e : NoDup l -> (length l <= 2048)%nat -> spaced ws m -> bip39 l ws e ->
  length ws <> 24%nat ->
  exists log o, NewSeedFromMnemonic m p (Some l) = (log, o) /\
    (length ws = 12%nat /\ o = Ret (Err EHexLength) \/ length ws <> 12%nat /\ o = Panic PIndex).
Proof.
  intros Hnd Hl Hs Hb Hn. pose proof (bip39_words _ _ _ Hb) as Hw. destruct Hb as [Hin Hp].
  apply spaced_iff in Hs. subst ws.
  cbn in Hin. destruct Hin as [E|[E|[E|[E|[E|[]]]]]]; rewrite <- E in Hw; cbn in Hw; rewrite Hw in *.
  - rewrite (NewSeed_4mod8 m p l _ Hnd Hl Hp) by (rewrite Hw; reflexivity). eauto 6.
  - rewrite (NewSeed_panic m p l _ Hnd Hl Hp) by (rewrite Hw; discriminate). do 2 eexists. split; [reflexivity|]. right. split; [lia|reflexivity].
  - rewrite (NewSeed_panic m p l _ Hnd Hl Hp) by (rewrite Hw; discriminate). do 2 eexists. split; [reflexivity|]. right. split; [lia|reflexivity].
  - rewrite (NewSeed_panic m p l _ Hnd Hl Hp) by (rewrite Hw; discriminate). do 2 eexists. split; [reflexivity|]. right. split; [lia|reflexivity].
  - congruence.
Qed.

(** C47 *)
Lemma generated_refused k (l : list gostring) rd s p : (4 <= k <= 8)%nat -> k <> 8%nat -> NoDup l -> length l = 2048%nat ->
  Forall (fun w => ~ In x20 w) l ->
  NewMnemonic (Z.of_nat (3 * k)) (Some l) rd = Ret (Ok s) ->
  exists log, NewSeedFromMnemonic s p (Some l) =
    (log, if (k =? 4)%nat then Ret (Err EHexLength) else Panic PIndex).
Proof.
  intros Hk Hk8 Hnd Hl Hsp H.
  assert (Hf : firstn 2048 l = l) by (apply firstn_all2; rewrite Hl; apply Nat.le_refl).
  rewrite <- Hf in Hsp.
  destruct (NewMnemonic_words k l rd s Hk Hsp H) as (e & rest & ws & _ & _ & _ & Hs & Lw & Hp).
  apply spaced_iff in Hs. subst ws.
  assert (Hle : (length l <= 2048)%nat) by (rewrite Hl; apply Nat.le_refl).
  assert (k = 4 \/ k = 5 \/ k = 6 \/ k = 7)%nat as [->|[->|[->| ->]]] by lia.
  - rewrite (NewSeed_4mod8 s p l _ Hnd Hle Hp) by (rewrite Lw; reflexivity). eauto.
  - rewrite (NewSeed_panic s p l _ Hnd Hle Hp) by (rewrite Lw; discriminate). eauto.
  - rewrite (NewSeed_panic s p l _ Hnd Hle Hp) by (rewrite Lw; discriminate). eauto.
  - rewrite (NewSeed_panic s p l _ Hnd Hle Hp) by (rewrite Lw; discriminate). eauto.
Qed.

Lemma generated_24 (l : list gostring) rd s p : NoDup l -> length l = 2048%nat -> Forall (fun w => ~ In x20 w) l ->
  NewMnemonic 24 (Some l) rd = Ret (Ok s) ->
  exists e chk, e = firstn 32 rd /\
    chk = firstn 8 (drop_zero_bits (bits (sha256 (drop_zero_bytes e)))) /\
    ((exists log r, NewSeedFromMnemonic s p (Some l) = (log, Ret (Ok r))) <->
     exists d c, bits (d ++ [c]) = rev (bits e ++ chk) /\ hd_error (sha256 d) = Some c).
Proof.
  intros Hnd Hl Hsp H.
  assert (Hf : firstn 2048 l = l) by (apply firstn_all2; rewrite Hl; apply Nat.le_refl).
  pose proof Hsp as Hsp'. rewrite <- Hf in Hsp'.
  assert (Hle : (length l <= 2048)%nat) by (rewrite Hl; apply Nat.le_refl).
  destruct (NewMnemonic_reversed 8 l rd s (split_space s) ltac:(lia) Hsp' H (split_spaced s))
    as (e & chk & He & Le & Lc & Lw & Hp & Hc).
  exists e, chk. split; [exact He|]. split; [exact Hc|].
  rewrite (NewSeed_accepts_iff s p l Hnd Hle). split.
  - intros (ws & d & c & Hs & Hp' & Hd). apply spaced_iff in Hs. subst ws. exists d, c. split; [|exact Hd].
    apply (phrase_bits_fun l (split_space s)); [rewrite Hf; exact Hnd|exact Hp'|exact Hp].
  - intros (d & c & E & Hd). exists (split_space s), d, c. split; [apply split_spaced|]. rewrite E. auto.
Qed.

(** C48 *)
Lemma seed_log m p l log r ws : NoDup l -> (length l <= 2048)%nat -> spaced ws m ->
  NewSeedFromMnemonic m p (Some l) = (log, Ret (Ok r)) ->
  exists d c pre h hx, phrase_bits l ws (bits (d ++ [c])) /\
    log = pre ++ [h; hx ++ x20 :: skipn (2 * length d) hx] /\
    hex_text hx (d ++ [c]) /\
    concat pre = map (fun b : bool => if b then x31 else x30) (bits (d ++ [c])).
Proof.
  intros Hnd Hl Hs H. assert (K : exists log r, NewSeedFromMnemonic m p (Some l) = (log, Ret (Ok r))) by eauto.
  apply (NewSeed_accepts_iff m p l Hnd Hl) in K as (ws' & d & c & Hs' & Hp & Hc).
  pose proof (spaced_fun _ _ _ Hs Hs') as <-. apply spaced_iff in Hs. subst ws.
  rewrite (NewSeed_0mod8 m p l d c Hnd Hl Hp) in H. apply first_byte_check in Hc. rewrite Hc in H.
  injection H as <- _. exists d, c. do 3 eexists. split; [exact Hp|]. split; [|split].
  - f_equal. f_equal. f_equal. f_equal. symmetry. rewrite hex_encode_app. f_equal.
    rewrite skipn_app, <- hex_encode_length, skipn_all, Nat.sub_diag. reflexivity.
  - apply hex_text_encode.
  - rewrite <- concat_map, quads_concat. rewrite firstn_all2; [reflexivity|].
    rewrite bits_length. replace (8 * length (d ++ [c]))%nat with (2 * length (d ++ [c]) * 4)%nat by lia.
    rewrite Nat.div_mul by lia. lia.
Qed.

(** Even refused and crashing calls log the complete groups of four bits. *)
Lemma seed_log_always m p l ws B : NoDup l -> (length l <= 2048)%nat -> spaced ws m -> phrase_bits l ws B ->
  exists pre post, fst (NewSeedFromMnemonic m p (Some l)) = pre ++ post /\
    concat pre = map (fun b : bool => if b then x31 else x30) (firstn (4 * (length B / 4)) B).
Proof.
  intros Hnd Hl Hs Hp. apply spaced_iff in Hs. subst ws. exists (map (map bitchar) (quads B)).
  assert (Hcc : concat (map (map bitchar) (quads B)) = map (fun b : bool => if b then x31 else x30) (firstn (4 * (length B / 4)) B)).
  { rewrite <- concat_map, quads_concat. reflexivity. }
  destruct (Nat.eq_dec (length (split_space m) mod 4) 0) as [H4|H4].
  - assert (length (split_space m) mod 8 = 0 \/ length (split_space m) mod 8 = 4)%nat as [H8|H8].
    { pose proof (Nat.div_mod (length (split_space m)) 4 ltac:(lia)) as K4.
      pose proof (Nat.div_mod (length (split_space m)) 8 ltac:(lia)) as K8.
      pose proof (Nat.mod_upper_bound (length (split_space m)) 8 ltac:(lia)). lia. }
    + destruct (phrase_bytes l _ B Hp (split_space_nonempty m) H8) as (d & c & ->).
      rewrite (NewSeed_0mod8 m p l d c Hnd Hl Hp). eexists. split; [reflexivity|exact Hcc].
    + rewrite (NewSeed_4mod8 m p l B Hnd Hl Hp H8). exists []. split; [rewrite app_nil_r; reflexivity|exact Hcc].
  - rewrite (NewSeed_panic m p l B Hnd Hl Hp H4). exists []. split; [rewrite app_nil_r; reflexivity|exact Hcc].
Qed.
