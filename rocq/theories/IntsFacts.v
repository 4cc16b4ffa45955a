(** * The source computes the same with ints of a machine *)

From Coq Require Import String.
From Verif Require Import GoBase GoNum GoRand NumFacts HexFacts Model ModelPtr GoSyntax GoSource GoSem SpecSource SpecInts.
From Verif Require Import SourceBase SourcePriv SourceSeed SourceMnem SourceAll.
Local Open Scope Z_scope.

Lemma wrap_int_fits bits z : 1 <= bits -> int_fits bits (wrap_int bits z).
Proof.
  intros Hb. unfold int_fits, wrap_int.
  assert (2 ^ bits = 2 * 2 ^ (bits - 1)) as H by (rewrite <- Z.pow_succ_r by lia; f_equal; lia).
  assert (0 < 2 ^ (bits - 1)) by (apply Z.pow_pos_nonneg; lia).
  pose proof (Z.mod_pos_bound (z + 2 ^ (bits - 1)) (2 ^ bits) ltac:(lia)). lia.
Qed.

Lemma wrap_int_small bits z : 1 <= bits -> int_fits bits z -> wrap_int bits z = z.
Proof.
  intros Hb. unfold int_fits, wrap_int. intros Hz.
  assert (2 ^ bits = 2 * 2 ^ (bits - 1)) as H by (rewrite <- Z.pow_succ_r by lia; f_equal; lia).
  rewrite Z.mod_small by lia. lia.
Qed.

Lemma wrap_int_mod bits z : 1 <= bits -> exists k, wrap_int bits z = z + k * 2 ^ bits.
Proof.
  intros Hb. unfold wrap_int. exists (- ((z + 2 ^ (bits - 1)) / 2 ^ bits)).
  assert (0 < 2 ^ bits) by (apply Z.pow_pos_nonneg; lia).
  pose proof (Z.div_mod (z + 2 ^ (bits - 1)) (2 ^ bits) ltac:(lia)). lia.
Qed.

Lemma wrap_int_only bits z : 1 <= bits ->
  int_fits bits (wrap_int bits z) /\ (exists k, wrap_int bits z = z + k * 2 ^ bits) /\
  forall y k, int_fits bits y -> y = z + k * 2 ^ bits -> y = wrap_int bits z.
Proof.
  intros Hb. split; [now apply wrap_int_fits|]. split; [now apply wrap_int_mod|].
  intros y k Hy ->. rewrite <- (wrap_int_small bits (z + k * 2 ^ bits)) by assumption.
  unfold wrap_int. f_equal.
  replace (z + k * 2 ^ bits + 2 ^ (bits - 1)) with (z + 2 ^ (bits - 1) + k * 2 ^ bits) by lia.
  apply Z.mod_add. assert (0 < 2 ^ bits) by (apply Z.pow_pos_nonneg; lia). lia.
Qed.

Lemma with_ints_of bits : 1 <= bits -> ints_of bits (with_ints bits).
Proof. intros Hb. split; [reflexivity|]. intros z Hz. now apply wrap_int_small. Qed.

Lemma roomy_machine bits L B : ints_of bits L -> 32 <= bits -> B < 2 ^ (bits - 1) -> roomy L B.
Proof.
  intros [_ HL] Hb HB z Hz. apply HL. unfold int_fits.
  pose proof (Z.pow_le_mono_r 2 31 (bits - 1) ltac:(lia) ltac:(lia)). lia.
Qed.

Lemma find_word_bound w l i j : find_word w l i = Some j -> i <= j < i + len l.
Proof.
  unfold len. revert i. induction l as [|x l IH]; intros i; cbn [find_word length]; [discriminate|].
  destruct (str_eqb w x); [intros [= ->]; lia|]. intros H%IH. lia.
Qed.

(** a word of the phrase stands for at most [bits] binary digits *)
Lemma words_binary_len bits l ws b : 11 <= bits -> len l <= 2 ^ bits -> words_binary ws l = Some b ->
  len b <= bits * len ws.
Proof.
  intros Hb Hl. revert b. induction ws as [|w ws IH]; intros b; cbn [words_binary].
  - intros [= <-]. unfold len. cbn [length]. lia.
  - destruct (find_word w l 0) as [j|] eqn:Hj; [|discriminate].
    destruct (words_binary ws l) as [rest|]; [|discriminate]. intros [= <-].
    specialize (IH _ eq_refl). apply find_word_bound in Hj.
    assert (length (sprintf_b j) <= Z.to_nat bits)%nat as H.
    { apply sprintf_b_len; [rewrite Z2Nat.id by lia|]; lia. }
    unfold len in *. rewrite app_length, pad_left_length. cbn [length]. lia.
Qed.

Lemma split_space_len m : len (split_space m) <= len m + 1.
Proof.
  unfold len. induction m as [|c m IH]; cbn [split_space length]; [lia|].
  destruct (byte_eqb c space); cbn [length]; [lia|].
  destruct (split_space m); cbn [length] in *; lia.
Qed.

Section WithE.
Context (E : curve_params -> ecdsa_lib) (bits : Z) (M : limits).
Hypothesis HM : ints_of bits M.

Lemma low h : (lowest M <= length (A := value) h)%nat.
Proof. rewrite (proj1 HM). apply Nat.le_0_l. Qed.

Lemma ints_CheckWIF w s : 32 <= bits -> len w < 2 ^ (bits - 2) ->
  answers_above E M "CheckWIF" [VStr w] s (CheckWIF w) truth.
Proof.
  intros Hb Hw. apply wide_CheckWIF; [|apply low]. apply (roomy_machine bits); [exact HM|exact Hb|].
  replace (bits - 1) with (Z.succ (bits - 2)) by lia. rewrite Z.pow_succ_r by lia. lia.
Qed.

Lemma ints_PrivateFromWIF w v net s : 32 <= bits -> len w < 2 ^ (bits - 2) -> is_net (heap s) v net ->
  answers_above E M "PrivateFromWIF" [VStr w; v] s (PrivateFromWIF w net) (new_priv s).
Proof.
  intros Hb Hw Hn. apply wide_PrivateFromWIF; [|exact Hn|apply low]. apply (roomy_machine bits); [exact HM|exact Hb|].
  replace (bits - 1) with (Z.succ (bits - 2)) by lia. rewrite Z.pow_succ_r by lia. lia.
Qed.

Lemma ints_Mnemonic words v wl s : 32 <= bits -> is_words v wl ->
  answers_reading_above E M "NewMnemonic" [VInt words; v] s (NewMnemonic words wl (source s))
    (fun _ => left_by_mnemonic words wl (source s)) text_or_err.
Proof.
  intros Hb Hw. apply wide_Mnemonic; [|exact Hw|apply low]. apply (roomy_machine bits); [exact HM|exact Hb|].
  pose proof (Z.pow_le_mono_r 2 31 (bits - 1) ltac:(lia) ltac:(lia)). lia.
Qed.

Lemma ints_Seed m p v wl s : 32 <= bits -> is_words v wl ->
  len (words_of wl) < 2 ^ (bits - 1) -> bits * (len m + 2) <= 2 ^ (bits - 1) ->
  answers_logging_above E M "NewSeedFromMnemonic" [VStr m; VStr p; v] s
    (fst (NewSeedFromMnemonic m p wl)) (snd (NewSeedFromMnemonic m p wl)) bytes_or_err.
Proof.
  intros Hb Hw Hl Hm. apply wide_Seed; [| |exact Hw|apply low].
  - now apply (roomy_machine bits).
  - intros b Hbin. apply (roomy_machine bits); [exact HM|exact Hb|].
    apply (words_binary_len bits) in Hbin; [|lia|].
    + pose proof (split_space_len m). nia.
    + pose proof (Z.pow_le_mono_r 2 (bits - 1) bits ltac:(lia) ltac:(lia)). lia.
Qed.

Lemma ints_init rd lg : exists h,
  ends_above E M "init" [] (State start_heap rd lg) (Done [] (State h rd lg)) /\
  curve_ready h /\
  (exists v, var_is h "MainNetwork" v /\ is_net h v (Some MainNetwork)) /\
  (exists v, var_is h "TestNetwork" v /\ is_net h v (Some TestNetwork)).
Proof.
  destruct (answers_init E rd lg) as (h & (N & HN) & H). exists h. split; [|exact H].
  exists (max N 40). intros n Hn. rewrite <- (HN n) by lia.
  destruct HM as [H0 _]. destruct M as [low0 wrap]. cbn [lowest] in H0. subst low0.
  replace n with (40 + (n - 40))%nat by lia. generalize (n - 40)%nat. intros m.
  vm_compute. reflexivity.
Qed.

Lemma ints_PrivateFromHex x v net s : is_net (heap s) v net ->
  answers_above E M "PrivateFromHex" [VStr x; v] s (PrivateFromHex x net) (new_priv s).
Proof. intros H. exact (above_PrivateFromHex E M x v net s H (low _)). Qed.
Lemma ints_Generate v net s : is_net (heap s) v net ->
  answers_reading_above E M "GeneratePrivateKey" [v] s (GeneratePrivateKey net (source s)) snd (new_random_priv s).
Proof. intros H. exact (above_Generate E M v net s H (low _)). Qed.
Lemma ints_AddPrivateKeys v1 p1 v2 p2 s : curve_ready (heap s) ->
  is_priv_ptr (heap s) v1 p1 -> is_priv_ptr (heap s) v2 p2 ->
  answers_above E M "AddPrivateKeys" [v1; v2] s (AddPrivateKeys_ptr p1 p2) (new_priv s).
Proof. intros H0 H1 H2. exact (above_AddPrivateKeys E M v1 p1 v2 p2 s H0 H1 H2 (low _)). Qed.
Lemma ints_MultiplyPrivateKeys v1 p1 v2 p2 s : curve_ready (heap s) ->
  is_priv_ptr (heap s) v1 p1 -> is_priv_ptr (heap s) v2 p2 ->
  answers_above E M "MultiplyPrivateKeys" [v1; v2] s (MultiplyPrivateKeys_ptr p1 p2) (new_priv s).
Proof. intros H0 H1 H2. exact (above_MultiplyPrivateKeys E M v1 p1 v2 p2 s H0 H1 H2 (low _)). Qed.
Lemma ints_GetPublicKey v k s : curve_ready (heap s) -> is_priv_ptr (heap s) v k ->
  answers_above E M "PrivateKey.GetPublicKey" [v] s (GetPublicKey_ptr (E secp256k1_params) k) (new_pub_ok s).
Proof. intros H0 H1. exact (above_GetPublicKey E M v k s H0 H1 (low _)). Qed.
Lemma ints_PublicFromHex x v net s : curve_ready (heap s) -> is_net (heap s) v net ->
  answers_above E M "PublicFromHex" [VStr x; v] s (PublicFromHex (E secp256k1_params) x net) (new_pub s).
Proof. intros H0 H1. exact (above_PublicFromHex E M x v net s H0 H1 (low _)). Qed.
Lemma ints_AddPublicKeys v1 p1 v2 p2 c s : curve_ready (heap s) ->
  is_pub_ptr (heap s) v1 p1 -> is_pub_ptr (heap s) v2 p2 ->
  answers_above E M "AddPublicKeys" [v1; v2; VBool c] s (AddPublicKeys_ptr (E secp256k1_params) p1 p2 c) (new_pub s).
Proof. intros H0 H1 H2. exact (above_AddPublicKeys E M v1 p1 v2 p2 c s H0 H1 H2 (low _)). Qed.
Lemma ints_Format v p c s : is_pub_ptr (heap s) v p ->
  answers_above E M "PublicKey.Format" [v; VBool c] s (Format_ptr p c) text.
Proof. intros H0. exact (above_Format E M v p c s H0 (low _)). Qed.
Lemma ints_Address v p c s : is_pub_ptr (heap s) v p ->
  answers_above E M "PublicKey.Address" [v; VBool c] s (Address_ptr p c) text_or_err.
Proof. intros H0. exact (above_Address E M v p c s H0 (low _)). Qed.
End WithE.
