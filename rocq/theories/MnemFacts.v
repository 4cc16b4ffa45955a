(** * Mnemonics: lemmas behind C39-C48 *)

From Verif Require Import GoBase GoNum Sha256 Base58 GoRand Model.
From Verif Require Import NumFacts HexFacts Base58Facts Spec SpecFacts GenFacts CombFacts.
From Coq Require Import ZifyBool ZifyNat ZifyN.
Local Open Scope Z_scope.
Local Opaque sha256.

(** ** Splitting and joining *)

Lemma split_space_nonempty s : split_space s <> [].
Proof.
  induction s as [|c s IH]; cbn; [discriminate|].
  destruct (byte_eqb c space); [discriminate|]. destruct (split_space s); discriminate.
Qed.

Lemma spaced_split ws s : spaced ws s -> split_space s = ws.
Proof.
  induction 1 as [w Hw|w ws s Hw Hs IH].
  - induction w as [|c w IH]; [reflexivity|]. cbn.
    destruct (byte_eqb c space) eqn:E.
    + apply byte_eqb_eq in E. exfalso. apply Hw. left. exact E.
    + rewrite IH; [reflexivity|]. intros Hi. apply Hw. right. exact Hi.
  - induction w as [|c w IHw]; cbn.
    + change (byte_eqb x20 space) with true. cbv iota. rewrite IH. reflexivity.
    + destruct (byte_eqb c space) eqn:E.
      * apply byte_eqb_eq in E. exfalso. apply Hw. left. exact E.
      * rewrite IHw; [reflexivity|]. intros Hi. apply Hw. right. exact Hi.
Qed.

Lemma split_spaced s : spaced (split_space s) s.
Proof.
  induction s as [|c s IH]; cbn.
  - constructor. intros [].
  - destruct (byte_eqb c space) eqn:E.
    + apply byte_eqb_eq in E. subst c. apply (spaced_more []); [intros []|exact IH].
    + apply byte_eqb_neq in E. inversion IH as [w Hw Ew|w ws t Hw Hs Ew Et]; subst.
      * constructor. intros [Hi|Hi]; [apply E; exact Hi|exact (Hw Hi)].
      * apply (spaced_more (c :: w)); [|exact Hs]. intros [Hi|Hi]; [apply E; exact Hi|exact (Hw Hi)].
Qed.

Lemma spaced_iff ws s : spaced ws s <-> split_space s = ws.
Proof. split; [apply spaced_split|]. intros <-. apply split_spaced. Qed.

Lemma spaced_join ws : ws <> [] -> Forall (fun w => ~ In x20 w) ws -> spaced ws (join_space ws).
Proof.
  induction ws as [|w ws IH]; [congruence|]. intros _ H. inversion H as [|? ? Hw Hr]; subst.
  destruct ws as [|w' ws]; [constructor; exact Hw|].
  apply (spaced_more w (w' :: ws) (join_space (w' :: ws))); [exact Hw|]. apply IH; [discriminate|exact Hr].
Qed.

(** ** Bits *)

Definition bval (B : list bool) : Z := valb 2 (map Z.b2z B).
Definition bitchar (b : bool) : byte := if b then char1 else char0.

Lemma bits_ok B : digits_ok 2 (map Z.b2z B).
Proof. induction B as [|[] B IH]; cbn; constructor; try assumption; cbn; lia. Qed.

Lemma bval_snoc B b : bval (B ++ [b]) = 2 * bval B + Z.b2z b.
Proof. unfold bval. rewrite map_app. cbn [map]. rewrite valb_snoc. ring. Qed.
Lemma bval_app A B : bval (A ++ B) = bval A * 2 ^ Z.of_nat (length B) + bval B.
Proof. unfold bval. rewrite map_app, valb_app, map_length. reflexivity. Qed.
Lemma bval_bound B : 0 <= bval B < 2 ^ Z.of_nat (length B).
Proof. unfold bval. rewrite <- (map_length Z.b2z B). apply valb_bound; [lia|apply bits_ok]. Qed.

Lemma b2z_map_inj A B : map Z.b2z A = map Z.b2z B -> A = B.
Proof.
  revert B; induction A as [|a A IH]; intros [|b B] H; try discriminate; [reflexivity|].
  injection H as Ha Hr. f_equal; [destruct a, b; (reflexivity || discriminate)|apply IH, Hr].
Qed.
Lemma bval_inj A B : length A = length B -> bval A = bval B -> A = B.
Proof.
  intros Hl H. apply b2z_map_inj. apply (valb_inj_len 2); try apply bits_ok; [lia| |exact H].
  rewrite !map_length. exact Hl.
Qed.

Lemma testbit_bval B j : Z.testbit (bval B) (Z.of_nat j) = nth j (rev B) false.
Proof.
  revert j. induction B as [|b B IH] using rev_ind; intros j.
  - rewrite Z.testbit_0_l. destruct j; reflexivity.
  - rewrite bval_snoc, rev_app_distr. cbn [rev app]. destruct j as [|j].
    + cbn [nth]. apply Z.testbit_0_r.
    + cbn [nth]. rewrite <- IH. rewrite Nat2Z.inj_succ. rewrite Z.testbit_succ_r by lia. reflexivity.
Qed.

Lemma scan_bitchars B : scan frombin (map bitchar B) = Some (map Z.b2z B).
Proof. induction B as [|b B IH]; [reflexivity|]. cbn [map scan]. rewrite IH. destruct b; reflexivity. Qed.
Lemma set_string2_bits B : B <> [] -> set_string2 (map bitchar B) = Some (bval B).
Proof.
  intros H. apply set_string2_scan; [|apply scan_bitchars]. intros E. apply map_eq_nil in E. contradiction.
Qed.
Lemma map_hexchar_bits B : map hexchar (map Z.b2z B) = map bitchar B.
Proof. rewrite map_map. apply map_ext. intros []; reflexivity. Qed.
Lemma bitchar_inj A B : map bitchar A = map bitchar B -> A = B.
Proof.
  revert B; induction A as [|a A IH]; intros [|b B] H; try discriminate; [reflexivity|].
  injection H as Ha Hr. f_equal; [destruct a, b; (reflexivity || discriminate)|apply IH, Hr].
Qed.

Lemma drop_zero_bits_spec B : exists k, B = repeat false k ++ drop_zero_bits B /\ hd true (drop_zero_bits B) = true.
Proof.
  induction B as [|[] B (k & E & H)].
  - exists O. auto.
  - exists O. auto.
  - exists (S k). split; [cbn; f_equal; exact E|exact H].
Qed.
Lemma drop_zero_bits_repeat k B : hd true B = true -> drop_zero_bits (repeat false k ++ B) = B.
Proof. intros H. induction k; cbn; [destruct B as [|[] B]; try reflexivity; discriminate H|assumption]. Qed.
Lemma bval_drop B : bval (drop_zero_bits B) = bval B.
Proof.
  destruct (drop_zero_bits_spec B) as (k & E & _). rewrite E at 2. unfold bval.
  rewrite map_app, map_repeat. symmetry. apply valb_lead0.
Qed.

Lemma digits2_bits B : hd true B = true -> digits 2 (bval B) = map Z.b2z B.
Proof.
  intros H. unfold bval. apply digits_valb; [lia|apply bits_ok|].
  destruct B as [|[] B]; cbn; [exact I|discriminate|discriminate].
Qed.

(** %b of a number given by bits. *)
Lemma sprintf_b_bits B :
  sprintf_b (bval B) = if drop_zero_bits B then [char0] else map bitchar (drop_zero_bits B).
Proof.
  destruct (drop_zero_bits_spec B) as (k & _ & Hh).
  rewrite <- bval_drop. set (D := drop_zero_bits B) in *.
  pose proof (bval_bound D) as Hb.
  unfold sprintf_b. rewrite sprint_base_nonneg by lia. unfold unsigned_digits.
  destruct D as [|d D'] eqn:ED; [reflexivity|].
  destruct (Z.eqb_spec (bval (d :: D')) 0) as [E0|E0].
  - exfalso. cbn in Hh. subst d. unfold bval in E0. cbn [map Z.b2z] in E0. rewrite valb_cons in E0.
    pose proof (valb_nonneg 2 (map Z.b2z D') ltac:(lia) (bits_ok D')).
    pose proof (Z.pow_pos_nonneg 2 (Z.of_nat (length (map Z.b2z D'))) ltac:(lia) ltac:(lia)). lia.
  - rewrite digits2_bits by exact Hh. apply map_hexchar_bits.
Qed.

Lemma pad_left_bits B L : length B = L -> (0 < L)%nat -> pad_left L (sprintf_b (bval B)) = map bitchar B.
Proof.
  intros HL Hpos. destruct (drop_zero_bits_spec B) as (k & E & Hh). rewrite sprintf_b_bits.
  unfold pad_left. rewrite E at 3. rewrite map_app, map_repeat. change (bitchar false) with char0.
  assert (Hk : (k + length (drop_zero_bits B) = L)%nat).
  { apply (f_equal (@length bool)) in E. rewrite app_length, repeat_length in E. lia. }
  destruct (drop_zero_bits B) as [|d D].
  - cbn [length map app] in *. rewrite app_nil_r. rewrite Nat.add_0_r in Hk. subst k.
    destruct L as [|L]; [lia|]. replace (S L - 1)%nat with L by lia.
    rewrite <- repeat_cons. reflexivity.
  - rewrite map_length. f_equal. f_equal. lia.
Qed.

Lemma byte_bits_length b : length (byte_bits b) = 8%nat.
Proof. reflexivity. Qed.
Lemma bits_length bs : length (bits bs) = (8 * length bs)%nat.
Proof. induction bs as [|b bs IH]; [reflexivity|]. cbn [bits flat_map]. rewrite app_length. fold (bits bs). rewrite IH, byte_bits_length. cbn [length]. lia. Qed.
Lemma byte_bits_val b : bval (byte_bits b) = byte_number b.
Proof. destruct b; vm_compute; reflexivity. Qed.
Lemma bits_val bs : bval (bits bs) = bytes_number bs.
Proof.
  induction bs as [|b bs IH]; [reflexivity|]. cbn [bits flat_map]. fold (bits bs).
  rewrite bval_app, IH, byte_bits_val, bits_length.
  change (b :: bs) with ([b] ++ bs). rewrite bytes_number_app.
  replace (bytes_number [b]) with (byte_number b) by (unfold bytes_number, number; cbn; lia).
  f_equal. f_equal. rewrite Nat2Z.inj_mul. rewrite Z.pow_mul_r by lia. reflexivity.
Qed.
Lemma bits_app a b : bits (a ++ b) = bits a ++ bits b.
Proof. apply flat_map_app. Qed.
Lemma bits_inj a b : bits a = bits b -> a = b.
Proof.
  intros H. apply bytes_number_inj.
  - apply (f_equal (@length bool)) in H. rewrite !bits_length in H. lia.
  - rewrite <- !bits_val, H. reflexivity.
Qed.

Lemma index_bits_length i : length (index_bits i) = 11%nat.
Proof. reflexivity. Qed.
Lemma flat_index_length is : length (flat_map index_bits is) = (11 * length is)%nat.
Proof. induction is as [|i is IH]; [reflexivity|]. cbn [flat_map]. rewrite app_length, IH, index_bits_length. cbn [length]. lia. Qed.

(** Every 11 bits are the bits of their value. *)
Lemma bval_low z n : 0 <= z -> bval (map (fun k => Z.testbit z (Z.of_nat k)) (rev (seq 0 n))) = z mod 2 ^ Z.of_nat n.
Proof.
  intros Hz. induction n as [|n IH]; [cbn; now rewrite Z.mod_1_r|].
  rewrite seq_S, rev_app_distr. cbn [rev app map plus].
  match goal with |- bval (?b :: ?B) = _ => change (bval (b :: B)) with (bval ([b] ++ B)) end.
  rewrite bval_app, IH, map_length, rev_length, seq_length.
  unfold bval. cbn [map]. rewrite valb_cons. cbn [length]. change (valb 2 []) with 0. rewrite Z.testbit_spec' by lia.
  rewrite Nat2Z.inj_succ, Z.pow_succ_r, (Z.mul_comm 2), Z.rem_mul_r by lia. cbn [Z.of_nat]. lia.
Qed.
Lemma nat_testbit i k : Nat.testbit i k = Z.testbit (Z.of_nat i) (Z.of_nat k).
Proof.
  rewrite Nat.testbit_eqb, Z.testbit_eqb by lia. change 2 with (Z.of_nat 2). rewrite <- Nat2Z.inj_pow, <- Nat2Z.inj_div, <- Nat2Z.inj_mod.
  change 1 with (Z.of_nat 1). destruct (Nat.eqb_spec ((i / 2 ^ k) mod 2) 1) as [->|N]; [reflexivity|].
  symmetry. apply Z.eqb_neq. lia.
Qed.
Lemma bval_index_bits i : (i < 2048)%nat -> bval (index_bits i) = Z.of_nat i.
Proof.
  intros H. rewrite <- (Z.mod_small (Z.of_nat i) (2 ^ Z.of_nat 11)) by (change (2 ^ Z.of_nat 11) with 2048; lia).
  rewrite <- bval_low by lia. f_equal. unfold index_bits. change (rev (seq 0 11)) with [10; 9; 8; 7; 6; 5; 4; 3; 2; 1; 0]%nat.
  apply map_ext. intros k. apply nat_testbit.
Qed.
Lemma index_bits_bval B : length B = 11%nat -> index_bits (Z.to_nat (bval B)) = B /\ (Z.to_nat (bval B) < 2048)%nat.
Proof.
  intros H. pose proof (bval_bound B) as Hb. rewrite H in Hb. change (2 ^ Z.of_nat 11) with 2048 in Hb.
  assert (Hi : (Z.to_nat (bval B) < 2048)%nat) by lia. split; [|exact Hi].
  apply bval_inj; [now rewrite index_bits_length|]. rewrite bval_index_bits by exact Hi. lia.
Qed.
Lemma index_bits_inj i j : (i < 2048)%nat -> (j < 2048)%nat -> index_bits i = index_bits j -> i = j.
Proof. intros Hi Hj H. apply Nat2Z.inj. rewrite <- !bval_index_bits by assumption. rewrite H. reflexivity. Qed.

(** ** drop_zero_bytes is n.Bytes() *)

Lemma drop_zero_bytes_eq bs : map z2b (snd (strip_lead 0 (map b2z bs))) = drop_zero_bytes bs.
Proof.
  induction bs as [|b bs IH]; [reflexivity|]. cbn [map strip_lead].
  destruct (Z.eqb_spec (b2z b) 0) as [E|E].
  - change 0 with (b2z x00) in E. apply b2z_inj in E. subst b.
    destruct (strip_lead 0 (map b2z bs)) as [n r]. exact IH.
  - cbn [snd map]. rewrite z2b_b2z, map_z2b_b2z. destruct b; try reflexivity. exfalso. apply E. reflexivity.
Qed.

Lemma big_bytes_octets e : big_bytes (bytes_number e) = drop_zero_bytes e.
Proof.
  rewrite <- drop_zero_bytes_eq. destruct (strip_lead 0 (map b2z e)) as [n r] eqn:E.
  apply strip_lead_spec in E as [E Hr]. cbn [snd]. unfold big_bytes.
  pose proof (bytes_number_bound e). rewrite Z.abs_eq by lia.
  rewrite bytes_number_set_bytes. unfold set_bytes. rewrite E, valb_lead0.
  rewrite digits_valb; [reflexivity|lia| |exact Hr].
  pose proof (digits_ok_bytes e) as K. rewrite E in K. apply digits_ok_app in K as [_ K]. exact K.
Qed.

(** ** The word loop of NewMnemonic *)

Fixpoint chunk_indices (g : nat) (R : list bool) : list nat :=
  match g with
  | O => []
  | S g' => Z.to_nat (bval (firstn 11 R)) :: chunk_indices g' (skipn 11 R)
  end.
Fixpoint lookup_all (l : list gostring) (is : list nat) : outcome (list gostring) :=
  match is with
  | [] => Ret []
  | i :: is' => let* w := index l (Z.of_nat i) in let* ws := lookup_all l is' in Ret (w :: ws)
  end.

Lemma chunk_indices_length g R : length (chunk_indices g R) = g.
Proof. revert R; induction g; intros R; cbn; [reflexivity|]. f_equal. apply IHg. Qed.

Lemma chunk_indices_bits g R : length R = (11 * g)%nat ->
  flat_map index_bits (chunk_indices g R) = R /\ Forall (fun i => (i < 2048)%nat) (chunk_indices g R).
Proof.
  revert R; induction g as [|g IH]; intros R H.
  - destruct R; [split; [reflexivity|constructor]|cbn in H; lia].
  - cbn [chunk_indices flat_map].
    assert (L1 : length (firstn 11 R) = 11%nat) by (rewrite firstn_length; lia).
    destruct (index_bits_bval _ L1) as [E1 E2].
    destruct (IH (skipn 11 R)) as [E3 E4]; [rewrite skipn_length; lia|].
    rewrite E1, E3. split; [apply firstn_skipn|constructor; assumption].
Qed.

Lemma chunk_indices_flat is : Forall (fun i => (i < 2048)%nat) is ->
  chunk_indices (length is) (flat_map index_bits is) = is.
Proof.
  induction 1 as [|i is Hi His IH]; [reflexivity|].
  cbn [length chunk_indices flat_map].
  rewrite firstn_app, skipn_app, index_bits_length, Nat.sub_diag, firstn_all2, skipn_all2 by (rewrite index_bits_length; lia).
  cbn [firstn skipn app]. rewrite app_nil_r, IH, bval_index_bits, Nat2Z.id by exact Hi. reflexivity.
Qed.

Lemma bit_chars_bits R binary i : (forall j, Z.testbit binary (Z.of_nat j) = nth j R false) ->
  (i + 11 <= length R)%nat -> bit_chars binary (Z.of_nat i) = map bitchar (firstn 11 (skipn i R)).
Proof.
  intros HR Hi. unfold bit_chars.
  rewrite <- (firstn_skipn i R) in HR.
  assert (Li : length (firstn i R) = i) by (rewrite firstn_length; lia).
  assert (Lr : (11 <= length (skipn i R))%nat) by (rewrite skipn_length; lia).
  set (T := skipn i R) in *.
  assert (HT : forall k, big_bit binary (Z.of_nat i + Z.of_nat k) = Z.b2z (nth k T false)).
  { intros k. unfold big_bit. rewrite <- Nat2Z.inj_add, HR, app_nth2 by lia.
    replace (i + k - length (firstn i R))%nat with k by lia. destruct (nth k T false); reflexivity. }
  assert (forall k, (if big_bit binary (Z.of_nat i + Z.of_nat k) =? 0 then char0 else char1) = bitchar (nth k T false)) as K.
  { intros k. rewrite HT. destruct (nth k T false); reflexivity. }
  rewrite (map_ext _ _ K). clearbody T. clear - Lr.
  do 11 (destruct T as [|? T]; [cbn in Lr; lia|]). reflexivity.
Qed.

Lemma skipn_add {A} b a (l : list A) : skipn a (skipn b l) = skipn (b + a) l.
Proof. revert l; induction b as [|b IH]; intros l; [reflexivity|]. destruct l; [apply skipn_nil|]. cbn. apply IH. Qed.

Lemma phrase_loop_lookup R binary l g i : (forall j, Z.testbit binary (Z.of_nat j) = nth j R false) ->
  (i + 11 * g = length R)%nat ->
  phrase_loop g (Z.of_nat i) binary l = lookup_all l (chunk_indices g (skipn i R)).
Proof.
  intros HR. revert i; induction g as [|g IH]; intros i Hi; [reflexivity|].
  cbn [phrase_loop chunk_indices lookup_all]. rewrite (bit_chars_bits R binary i HR) by lia.
  assert (L : length (firstn 11 (skipn i R)) = 11%nat) by (rewrite firstn_length, skipn_length; lia).
  rewrite set_string2_bits by (intros E; rewrite E in L; discriminate).
  pose proof (bval_bound (firstn 11 (skipn i R))) as Hb. rewrite Z2Nat.id by lia.
  replace (Z.of_nat i + 11) with (Z.of_nat (i + 11)) by lia. rewrite IH by lia.
  replace (skipn (i + 11) R) with (skipn 11 (skipn i R)) by apply skipn_add. reflexivity.
Qed.

Lemma lookup_all_ok l is ws : lookup_all l is = Ret ws <-> Forall2 (fun w i => nth_error l i = Some w) ws is.
Proof.
  revert ws; induction is as [|i is IH]; intros ws; cbn [lookup_all].
  - split; [intros [= <-]; constructor|]. intros H; inversion H; reflexivity.
  - unfold index. destruct (Z.leb_spec 0 (Z.of_nat i)); [|lia]. rewrite Nat2Z.id.
    destruct (nth_error l i) as [w|] eqn:E; cbn [bind].
    + destruct (lookup_all l is) as [r|p] eqn:El; cbn [bind].
      * split.
        -- intros [= <-]. constructor; [exact E|]. apply IH. reflexivity.
        -- intros K. inversion K as [|w' i' ws' is' Hw Hr]; subst. apply IH in Hr. congruence.
      * split; [discriminate|]. intros K. inversion K as [|w' i' ws' is' Hw Hr]; subst. apply IH in Hr. discriminate.
    + split; [discriminate|]. intros K. inversion K as [|w' i' ws' is' Hw Hr]; subst. congruence.
Qed.
Lemma lookup_all_panic l is p : lookup_all l is = Panic p -> p = PIndex.
Proof.
  revert p; induction is as [|i is IH]; intros p; cbn [lookup_all]; [discriminate|].
  unfold index. destruct (0 <=? Z.of_nat i); [|cbn; congruence].
  destruct (nth_error l (Z.to_nat (Z.of_nat i))); cbn [bind]; [|congruence].
  destruct (lookup_all l is); cbn [bind]; [discriminate|]. intros [= <-]. apply IH. reflexivity.
Qed.
Lemma lookup_all_total l is : Forall (fun i => (i < length l)%nat) is -> exists ws, lookup_all l is = Ret ws.
Proof.
  induction 1 as [|i is Hi His [ws IH]]; cbn [lookup_all]; [eauto|].
  unfold index. destruct (Z.leb_spec 0 (Z.of_nat i)); [|lia]. rewrite Nat2Z.id.
  apply nth_error_Some in Hi. destruct (nth_error l i); [|congruence]. cbn [bind]. rewrite IH. cbn. eauto.
Qed.

Lemma phrase_bits_chunks l ws R g : length R = (11 * g)%nat ->
  (phrase_bits l ws R <-> lookup_all l (chunk_indices g R) = Ret ws).
Proof.
  intros HR. rewrite lookup_all_ok. destruct (chunk_indices_bits g R HR) as [E Hlt]. split.
  - intros (is & HF & ->). rewrite flat_index_length in HR. assert (g = length is) as -> by lia.
    rewrite chunk_indices_flat.
    + clear - HF. induction HF as [|w i ws is [_ Hi] _ IH]; constructor; assumption.
    + clear - HF. induction HF as [|w i ws is [Hi _] _ IH]; constructor; assumption.
  - intros HF. exists (chunk_indices g R). split; [|symmetry; exact E]. clear E.
    induction HF as [|w i ws is Hw HF IH]; [constructor|]. inversion Hlt; subst.
    constructor; [split; assumption|]. apply IH. assumption.
Qed.

(** ** NewMnemonic after the entropy is drawn *)

Definition hash_bits (e : list byte) : list bool := drop_zero_bits (bits (sha256 (drop_zero_bytes e))).
Definition stream_bits (k : nat) (e : list byte) : list bool := rev (bits e ++ firstn k (hash_bits e)).

Lemma stream_bits_length k e : length e = (4 * k)%nat -> (k <= length (hash_bits e))%nat ->
  length (stream_bits k e) = (11 * (3 * k))%nat.
Proof. intros He Hk. unfold stream_bits. rewrite rev_length, app_length, bits_length, firstn_length. lia. Qed.

Lemma mnemonic_of_entropy_spec k e l : (2 <= k)%nat -> length e = (4 * k)%nat ->
  mnemonic_of_entropy (Z.of_nat (32 * k)) (bytes_number e) l =
  if (length (hash_bits e) <? k)%nat then Panic PSlice
  else let* ws := lookup_all l (chunk_indices (3 * k) (stream_bits k e)) in Ret (join_space ws).
Proof.
  intros Hk He. unfold mnemonic_of_entropy. rewrite big_bytes_octets.
  set (h := sha256 (drop_zero_bytes e)).
  rewrite <- bytes_number_set_bytes, <- (bits_val h).
  replace (Z.of_nat (32 * k) / 32) with (Z.of_nat k) by (apply Z.div_unique with 0; lia).
  destruct (Nat.ltb_spec (length (hash_bits e)) k) as [Hs|Hs].
  - rewrite sprintf_b_bits. change (drop_zero_bits (bits h)) with (hash_bits e).
    rewrite slice_bad; [reflexivity|]. unfold len. destruct (hash_bits e) as [|d D]; [cbn; lia|].
    rewrite map_length. lia.
  - assert (Hmatch : sprintf_b (bval (bits h)) = map bitchar (hash_bits e)).
    { rewrite sprintf_b_bits. change (drop_zero_bits (bits h)) with (hash_bits e).
      destruct (hash_bits e); [cbn in Hs; lia|reflexivity]. }
    rewrite Hmatch. rewrite slice_ok by (unfold len; rewrite ?map_length; lia). cbn [bind].
    rewrite Z.sub_0_r, Nat2Z.id. cbn [Z.to_nat skipn]. rewrite firstn_map.
    rewrite Nat2Z.id. rewrite <- (bits_val e).
    rewrite (pad_left_bits (bits e) (32 * k)) by (rewrite ?bits_length; lia).
    rewrite <- map_app. set (B := bits e ++ firstn k (hash_bits e)).
    assert (LB : length B = (33 * k)%nat).
    { unfold B. rewrite app_length, bits_length, firstn_length. lia. }
    rewrite set_string2_bits by (intros E; rewrite E in LB; cbn in LB; lia).
    replace (Z.to_nat ((len (map bitchar B) + 10) / 11)) with (3 * k)%nat.
    2:{ unfold len. rewrite map_length, LB. replace ((Z.of_nat (33 * k) + 10) / 11) with (Z.of_nat (3 * k)); [lia|].
        apply Z.div_unique with 10; lia. }
    pose proof (phrase_loop_lookup (rev B) (bval B) l (3 * k) 0 (testbit_bval B)) as K.
    rewrite rev_length, LB in K. specialize (K ltac:(lia)). cbn [Z.of_nat skipn] in K. rewrite K. reflexivity.
Qed.

(** ** NewMnemonic *)

Lemma bit_len_pow n : 0 < n -> bit_len (2 ^ n - 1) = n.
Proof.
  intros H. unfold bit_len. pose proof (Z.pow_gt_1 2 n ltac:(lia)) as [K _]. specialize (K H).
  destruct (Z.leb_spec (2 ^ n - 1) 0); [lia|].
  rewrite <- Z.pred_succ at 1. rewrite (Z.log2_unique (2 ^ n - 1) (n - 1)); [unfold Z.pred, Z.succ; lia|lia|].
  replace (Z.succ (n - 1)) with n by lia.
  replace n with (1 + (n - 1)) at 2 by lia. rewrite Z.pow_add_r by lia.
  pose proof (Z.pow_pos_nonneg 2 (n - 1) ltac:(lia) ltac:(lia)).
  replace (2 ^ n) with (2 * 2 ^ (n - 1)) by (rewrite <- Z.pow_succ_r by lia; f_equal; lia). lia.
Qed.

Lemma rand_int_pow k rd : (0 < k)%nat ->
  rand_int (2 ^ Z.of_nat (32 * k)) rd =
  if (length rd <? 4 * k)%nat then None else Some (bytes_number (firstn (4 * k) rd), skipn (4 * k) rd).
Proof.
  intros Hk. unfold rand_int. rewrite bit_len_pow by lia.
  destruct (Z.eqb_spec (Z.of_nat (32 * k)) 0); [lia|].
  replace (Z.to_nat ((Z.of_nat (32 * k) + 7) / 8)) with (4 * k)%nat.
  2:{ replace ((Z.of_nat (32 * k) + 7) / 8) with (Z.of_nat (4 * k)); [lia|]. apply Z.div_unique with 7; lia. }
  cbn [rand_loop]. destruct (Nat.ltb_spec (length rd) (4 * k)) as [Hl|Hl]; [reflexivity|].
  assert (L : length (firstn (4 * k) rd) = (4 * k)%nat) by (rewrite firstn_length; lia).
  replace (Z.of_nat (32 * k)) with (8 * Z.of_nat (4 * k)) by lia.
  rewrite (rand_candidate_full (4 * k)) by exact L. cbv zeta.
  pose proof (bytes_number_bound (firstn (4 * k) rd)) as Hb. rewrite L in Hb.
  change 256 with (2 ^ 8) in Hb. rewrite <- Z.pow_mul_r in Hb by lia.
  destruct (Z.ltb_spec (bytes_number (firstn (4 * k) rd)) (2 ^ (8 * Z.of_nat (4 * k)))); [reflexivity|lia].
Qed.

Lemma entropy_length_words k : (4 <= k <= 8)%nat -> entropy_length (Z.of_nat (3 * k)) = Some (Z.of_nat (32 * k)).
Proof. intros H. assert (k = 4 \/ k = 5 \/ k = 6 \/ k = 7 \/ k = 8)%nat as [->|[->|[->|[->| ->]]]] by lia; reflexivity. Qed.
Lemma entropy_length_none n : ~ In n [12; 15; 18; 21; 24] -> entropy_length n = None.
Proof.
  intros H. unfold entropy_length.
  destruct (Z.eqb_spec n 12); [exfalso; apply H; subst; cbn; tauto|].
  destruct (Z.eqb_spec n 15); [exfalso; apply H; subst; cbn; tauto|].
  destruct (Z.eqb_spec n 18); [exfalso; apply H; subst; cbn; tauto|].
  destruct (Z.eqb_spec n 21); [exfalso; apply H; subst; cbn; tauto|].
  destruct (Z.eqb_spec n 24); [exfalso; apply H; subst; cbn; tauto|]. reflexivity.
Qed.

Lemma NewMnemonic_eq k l rd : (4 <= k <= 8)%nat ->
  NewMnemonic (Z.of_nat (3 * k)) (Some l) rd =
  if (length rd <? 4 * k)%nat then Ret (Err ERandRead)
  else let e := firstn (4 * k) rd in
       if (length (hash_bits e) <? k)%nat then Panic PSlice
       else let* ws := lookup_all l (chunk_indices (3 * k) (stream_bits k e)) in Ret (Ok (join_space ws)).
Proof.
  intros Hk. unfold NewMnemonic. rewrite (entropy_length_words k Hk), rand_int_pow by lia.
  destruct (Nat.ltb_spec (length rd) (4 * k)) as [Hl|Hl]; [reflexivity|].
  rewrite mnemonic_of_entropy_spec by (rewrite ?firstn_length; lia). cbv zeta.
  destruct (_ <? k)%nat; [reflexivity|]. destruct (lookup_all _ _); reflexivity.
Qed.

(** C41: the phrase carries the reversed bit string. *)
Lemma NewMnemonic_success k l rd s : (4 <= k <= 8)%nat ->
  (NewMnemonic (Z.of_nat (3 * k)) (Some l) rd = Ret (Ok s) <->
   exists e rest ws, rd = e ++ rest /\ length e = (4 * k)%nat /\ (k <= length (hash_bits e))%nat /\
     phrase_bits l ws (stream_bits k e) /\ s = join_space ws).
Proof.
  intros Hk. rewrite (NewMnemonic_eq k l rd Hk). cbv zeta. split.
  - destruct (Nat.ltb_spec (length rd) (4 * k)) as [Hl|Hl]; [discriminate|].
    set (e := firstn (4 * k) rd). assert (Le : length e = (4 * k)%nat) by (unfold e; rewrite firstn_length; lia).
    destruct (Nat.ltb_spec (length (hash_bits e)) k) as [Hs|Hs]; [discriminate|].
    destruct (lookup_all l (chunk_indices (3 * k) (stream_bits k e))) as [ws|] eqn:El; [|discriminate].
    cbn [bind]. intros [= <-]. exists e, (skipn (4 * k) rd), ws.
    split; [symmetry; apply firstn_skipn|]. split; [exact Le|]. split; [exact Hs|]. split; [|reflexivity].
    apply (phrase_bits_chunks l ws _ (3 * k)); [apply stream_bits_length; assumption|exact El].
  - intros (e & rest & ws & -> & Le & Hs & Hp & ->).
    destruct (Nat.ltb_spec (length (e ++ rest)) (4 * k)) as [Hl|Hl]; [rewrite app_length in Hl; lia|].
    rewrite firstn_app, firstn_all2, Le, Nat.sub_diag by lia. cbn [firstn]. rewrite app_nil_r.
    destruct (Nat.ltb_spec (length (hash_bits e)) k); [lia|].
    apply (phrase_bits_chunks l ws _ (3 * k)) in Hp; [|apply stream_bits_length; assumption].
    rewrite Hp. reflexivity.
Qed.
