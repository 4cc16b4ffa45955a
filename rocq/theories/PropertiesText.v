(** * Properties about texts, mistyped input and the built-in word lists (C74-C79)

    Theorems only; each is closed by an existing lemma. Specifications: [Spec.v],
    [SpecMore.v], [SpecText.v]. Models: [Model.v], [ModelLower.v]. *)

From Verif Require Import GoBase GoNum Sha256 Ripemd160 Base58 GoRand Model SpecApi ModelLower Spec SpecMore SpecText.
From Verif Require Import SpecFacts PrivProps TextFacts ListFacts Witness MnemWitness WordFacts.
From Verif Require Import WordsEnglish WordsFrench WordsJapanese WordsItalian WordsSpanish WordsKorean
  WordsCzech WordsChineseTraditional WordsChineseSimplified.
Local Open Scope Z_scope.

(** ** C74 *)

Theorem C74_wif_text : forall k, produced k -> WIF k <> [] /\ Forall (fun c => In c alphabet58) (WIF k).
Proof. exact produced_wif_chars. Qed.
Print Assumptions C74_wif_text.

Theorem C74_address_text : forall p c a, Address p c = Ret (Ok a) ->
  a <> [] /\ Forall (fun c => In c alphabet58) a.
Proof. exact address_chars. Qed.
Print Assumptions C74_address_text.

Theorem C74_any_lower_casing : forall lower a b, lowers_ascii lower -> produced a -> produced b ->
  AddPrivateKeys_lower lower a b = AddPrivateKeys a b /\
  MultiplyPrivateKeys_lower lower a b = MultiplyPrivateKeys a b.
Proof. exact any_lower. Qed.
Print Assumptions C74_any_lower_casing.

Example C74_example : lowers_ascii to_lower /\ produced (key_main hex1) /\ produced (key_main hex2) /\
  AddPrivateKeys_lower to_lower (key_main hex1) (key_main hex2) = Ret (Err EIdentical).
Proof.
  split; [exact to_lower_lowers_ascii|]. split; [|split].
  - apply (produced_hex hex1 (Some MainNetwork)). vm_compute. reflexivity.
  - apply (produced_hex hex2 (Some MainNetwork)). vm_compute. reflexivity.
  - vm_compute. reflexivity.
Qed.

(** ** C75 *)

Theorem C75_foreign_character : forall w, ~ Forall (fun c => In c alphabet58) w -> CheckWIF w = Ret false.
Proof. exact foreign_character. Qed.
Print Assumptions C75_foreign_character.

(** Of the texts with the same bytes before the checksum, at most one is valid. *)
Theorem C75_one_checksum : forall p c d v w, length c = 4%nat -> length d = 4%nat ->
  base58_text (p ++ c) v -> base58_text (p ++ d) w ->
  CheckWIF v = Ret true -> CheckWIF w = Ret true -> v = w.
Proof. exact one_checksum. Qed.
Print Assumptions C75_one_checksum.

(** Of the 256^(n+4) byte strings of length n + 4, the texts of 256^n are valid. *)
Theorem C75_valid_count : forall n S c, all_streams (n + 4) S ->
  holds_for (fun bs => exists w, base58_text bs w /\ CheckWIF w = Ret true) S c -> Z.of_nat c = 256 ^ Z.of_nat n.
Proof. exact check_count. Qed.
Print Assumptions C75_valid_count.

(** Valid texts that differ in their last five characters only. *)
Theorem C75_last_five_characters : forall a t u, CheckWIF (a ++ t) = Ret true -> CheckWIF (a ++ u) = Ret true ->
  length t = length u -> (length t <= 5)%nat ->
  exists p q, base58check p (a ++ t) /\ base58check q (a ++ u) /\ Z.abs (bytes_number p - bytes_number q) <= 1.
Proof. exact last_five_texts. Qed.
Print Assumptions C75_last_five_characters.

(** So the keys differ by one at most. *)
Theorem C75_last_five_characters_keys : forall g h n x y i j a t u,
  PrivateFromHex g (Some n) = Ret (Ok x) -> PrivateFromHex h (Some n) = Ret (Ok y) -> length g = length h ->
  Key x = Some i -> Key y = Some j ->
  WIF x = a ++ t -> WIF y = a ++ u -> length t = length u -> (length t <= 5)%nat -> Z.abs (i - j) <= 1.
Proof. exact last_five_keys. Qed.
Print Assumptions C75_last_five_characters_keys.

Example C75_example : exists x y a t u,
  PrivateFromHex (str "111111111111111111111111111111111111111111111111111111111111010c") (Some MainNetwork) = Ret (Ok x) /\
  PrivateFromHex (str "111111111111111111111111111111111111111111111111111111111111010d") (Some MainNetwork) = Ret (Ok y) /\
  WIF x = a ++ t /\ WIF y = a ++ u /\ t <> u /\ length t = 5%nat /\ length u = 5%nat /\
  CheckWIF (a ++ str "LH14RS") = Ret false.
Proof.
  exists (key_main (str "111111111111111111111111111111111111111111111111111111111111010c")).
  exists (key_main (str "111111111111111111111111111111111111111111111111111111111111010d")).
  exists (str "5HwoXVkHoRM8sL2KmNRS217n1g8mPPBomrY7yehCuXBs2L"), (str "5FMrj"), (str "H14RR").
  split; [vm_compute; reflexivity|]. split; [vm_compute; reflexivity|]. split; [vm_compute; reflexivity|].
  split; [vm_compute; reflexivity|]. split; [discriminate|]. split; [reflexivity|]. split; [reflexivity|].
  vm_compute. reflexivity.
Qed.
Example C75_example_foreign : ~ Forall (fun c => In c alphabet58) (str "5HwoXVkHoRM8sL2KmNRS217n1g8mPPBomrY7yehCuXBs2L5FMr0").
Proof.
  intros H. rewrite Forall_forall in H. specialize (H x30 ltac:(cbn; tauto)). cbn in H.
  repeat (destruct H as [H|H]; [discriminate H|]). exact H.
Qed.

(** ** C76 *)

(** No phrase with a capital, digit, tab, newline or other ASCII sign besides a-z
    and space passes, with any of the nine lists. *)
Theorem C76_ascii_sign_refused : forall l m p c, In l builtin_lists -> In c m -> byte_number c < 128 ->
  ~ In c (x20 :: str "abcdefghijklmnopqrstuvwxyz") ->
  NewSeedFromMnemonic m p (Some l) = ([], Ret (Err EInvalidMnemonic)).
Proof. exact ascii_refused. Qed.
Print Assumptions C76_ascii_sign_refused.

(** With these three, nothing besides a-z and space passes. *)
Theorem C76_other_byte_refused : forall l m p c, In l [EnglishWordlist; ItalianWordlist; CzechWordlist] -> In c m ->
  ~ In c (x20 :: str "abcdefghijklmnopqrstuvwxyz") ->
  NewSeedFromMnemonic m p (Some l) = ([], Ret (Err EInvalidMnemonic)).
Proof. exact foreign_refused. Qed.
Print Assumptions C76_other_byte_refused.

Example C76_example : snd (NewSeedFromMnemonic phrase_art [] english) = Ret (Ok None) /\
  NewSeedFromMnemonic (x41 :: tl phrase_art) [] english = ([], Ret (Err EInvalidMnemonic)) /\
  NewSeedFromMnemonic (phrase_art ++ [x0a]) [] english = ([], Ret (Err EInvalidMnemonic)).
Proof.
  split; [vm_compute; reflexivity|].
  split; [apply (C76_ascii_sign_refused _ _ _ x41)|apply (C76_ascii_sign_refused _ _ _ x0a)];
    try (left; reflexivity); try reflexivity; try (cbn; intuition discriminate).
Qed.

(** ** C77 *)

(** A phrase with a composed letter (é as one code point, a Hangul syllable, a
    voiced kana) is refused with every built-in list: they contain decomposed
    letters only. *)
Theorem C77_composed_letter_refused : forall l cp a b p, In l builtin_lists -> composed cp ->
  NewSeedFromMnemonic (a ++ utf8 cp ++ b) p (Some l) = ([], Ret (Err EInvalidMnemonic)).
Proof. exact composed_refused. Qed.
Print Assumptions C77_composed_letter_refused.

(** "académie" is in the French list
    with the accent apart, and refused with é in one piece. *)
Example C77_example : composed 0xe9 /\ utf8 0xe9 = [xc3; xa9] /\
  In (str "acade" ++ [xcc; x81] ++ str "mie") FrenchWordlist /\
  NewSeedFromMnemonic (str "acad" ++ utf8 0xe9 ++ str "mie") [] (Some FrenchWordlist) = ([], Ret (Err EInvalidMnemonic)).
Proof.
  split; [left; lia|]. split; [reflexivity|]. split.
  - apply nth_error_In with (n := 18%nat). vm_compute. reflexivity.
  - apply C77_composed_letter_refused; [right; left; reflexivity|left; lia].
Qed.

(** ** C78 *)

(** A phrase with one word of another language group is refused. *)
Theorem C78_other_language_refused : forall i j g g' l l' ws m w p,
  nth_error language_groups i = Some g -> nth_error language_groups j = Some g' -> i <> j -> In l g -> In l' g' ->
  spaced ws m -> In w ws -> In w l ->
  NewSeedFromMnemonic m p (Some l') = ([], Ret (Err EInvalidMnemonic)).
Proof. exact language_refused. Qed.
Print Assumptions C78_other_language_refused.

(** In particular every phrase NewMnemonic makes. *)
Theorem C78_generated_other_language_refused : forall i j g g' l l' n rd s p,
  nth_error language_groups i = Some g -> nth_error language_groups j = Some g' -> i <> j -> In l g -> In l' g' ->
  NewMnemonic n (Some l) rd = Ret (Ok s) ->
  NewSeedFromMnemonic s p (Some l') = ([], Ret (Err EInvalidMnemonic)).
Proof. exact generated_language. Qed.
Print Assumptions C78_generated_other_language_refused.

(** Where the two Chinese lists share words they agree on their places, so phrases
    of shared words give the same result with both. *)
Theorem C78_chinese_lists_agree : forall ws m p, spaced ws m ->
  Forall (fun w => In w ChineseTraditionalWordlist) ws -> Forall (fun w => In w ChineseSimplifiedWordlist) ws ->
  NewSeedFromMnemonic m p (Some ChineseTraditionalWordlist) = NewSeedFromMnemonic m p (Some ChineseSimplifiedWordlist).
Proof. exact chinese_agree. Qed.
Print Assumptions C78_chinese_lists_agree.

(** Not so English and French: one phrase of 24 words is valid in both, with
    different entropies. *)
Theorem C78_english_french_refuted : forall p, exists ws m e f log log', spaced ws m /\ length ws = 24%nat /\
  bip39 EnglishWordlist ws e /\ bip39 FrenchWordlist ws f /\ e <> f /\
  NewSeedFromMnemonic m p (Some EnglishWordlist) = (log, Ret (Ok None)) /\
  NewSeedFromMnemonic m p (Some FrenchWordlist) = (log', Ret (Ok None)).
Proof. exact two_languages. Qed.
Print Assumptions C78_english_french_refuted.

Example C78_example : exists s, NewMnemonic 24 (Some EnglishWordlist) ent32 = Ret (Ok s) /\
  NewSeedFromMnemonic s [] (Some SpanishWordlist) = ([], Ret (Err EInvalidMnemonic)).
Proof.
  exists (made 24 ent32). split; [exact made_24|].
  apply (C78_generated_other_language_refused 0 3 [EnglishWordlist; FrenchWordlist] [SpanishWordlist]
           EnglishWordlist SpanishWordlist 24 ent32);
    [reflexivity|reflexivity|discriminate|left; reflexivity|left; reflexivity|exact made_24].
Qed.
Example C78_example_chinese : exists w, In w ChineseTraditionalWordlist /\ In w ChineseSimplifiedWordlist.
Proof. exists [xe7; x9a; x84]. split; left; reflexivity. Qed.

(** ** C79 *)

Theorem C79_four_letters : forall l v w, In l latin_lists -> In v l -> In w l -> same_four_letters v w -> v = w.
Proof. exact four_letters. Qed.
Print Assumptions C79_four_letters.

(** A phrase can be told from the first four letters of its words. *)
Theorem C79_four_letters_phrase : forall l vs ws, In l latin_lists ->
  Forall (fun v => In v l) vs -> Forall (fun w => In w l) ws -> Forall2 same_four_letters vs ws -> vs = ws.
Proof. exact four_letters_phrase. Qed.
Print Assumptions C79_four_letters_phrase.

(** Three letters are not enough. *)
Example C79_example : exists v w, In v EnglishWordlist /\ In w EnglishWordlist /\ v <> w /\ firstn 3 v = firstn 3 w /\
  same_four_letters (str "acade" ++ [xcc; x81] ++ str "mie") (str "acad").
Proof.
  exists (str "abstract"), (str "absurd"). split; [|split; [|split; [discriminate|split; reflexivity]]].
  - apply nth_error_In with (n := 7%nat). vm_compute. reflexivity.
  - apply nth_error_In with (n := 8%nat). vm_compute. reflexivity.
Qed.
