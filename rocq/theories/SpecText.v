(** * Specifications about texts and word lists, independent of the model: C74-C79 *)

From Verif Require Import GoBase Spec.
From Verif Require Import WordsEnglish WordsFrench WordsJapanese WordsItalian WordsSpanish WordsKorean
  WordsCzech WordsChineseTraditional WordsChineseSimplified.
Local Open Scope Z_scope.

(** ** Letter case *)

(** [d] is the ASCII character [c] in lower case. *)
Definition lowered (c d : byte) : Prop :=
  (exists i, nth_error (str "ABCDEFGHIJKLMNOPQRSTUVWXYZ") i = Some c /\
             nth_error (str "abcdefghijklmnopqrstuvwxyz") i = Some d) \/
  (~ In c (str "ABCDEFGHIJKLMNOPQRSTUVWXYZ") /\ d = c).

(** The function lower-cases ASCII texts, and may do anything with others. *)
Definition lowers_ascii (lower : gostring -> gostring) : Prop :=
  forall s, Forall (fun c => byte_number c < 128) s -> Forall2 lowered s (lower s).

(** ** Unicode *)

(** The UTF-8 bytes of a code point from U+0080 to U+FFFF. *)
Definition utf8 (cp : Z) : list byte :=
  if cp <? 0x800 then [z2b (0xC0 + cp / 64); z2b (0x80 + cp mod 64)]
  else [z2b (0xE0 + cp / 4096); z2b (0x80 + cp / 64 mod 64); z2b (0x80 + cp mod 64)].

(** Hiragana with a voicing mark, as one character (U+304C is "ga"). *)
Definition voiced_kana : list Z :=
  [0x304c; 0x304e; 0x3050; 0x3052; 0x3054; 0x3056; 0x3058; 0x305a; 0x305c; 0x305e; 0x3060; 0x3062; 0x3065; 0x3067;
   0x3069; 0x3070; 0x3071; 0x3073; 0x3074; 0x3076; 0x3077; 0x3079; 0x307a; 0x307c; 0x307d; 0x3094; 0x309e].

(** Characters that keyboards produce as one code point and that Unicode can
    also write as a base letter and marks: Latin letters with accents
    (U+00C0-U+00FF), Hangul syllables (U+AC00-U+D7A3), voiced kana. *)
Definition composed (cp : Z) : Prop :=
  0xC0 <= cp <= 0xFF \/ 0xAC00 <= cp <= 0xD7A3 \/ In cp voiced_kana.

(** The word without its accents: U+0300-U+033F, in UTF-8 the byte CC and one more. *)
Fixpoint without_accents (w : gostring) : gostring :=
  match w with
  | xcc :: _ :: w' => without_accents w'
  | c :: w' => c :: without_accents w'
  | [] => []
  end.

(** ** Languages *)

(** The nine built-in lists. *)
Definition builtin_lists : list (list gostring) :=
  [EnglishWordlist; FrenchWordlist; JapaneseWordlist; ItalianWordlist; SpanishWordlist; KoreanWordlist;
   CzechWordlist; ChineseTraditionalWordlist; ChineseSimplifiedWordlist].

(** The same, by language; lists in the same group have words in common. *)
Definition language_groups : list (list (list gostring)) :=
  [[EnglishWordlist; FrenchWordlist]; [JapaneseWordlist]; [ItalianWordlist]; [SpanishWordlist]; [KoreanWordlist];
   [CzechWordlist]; [ChineseTraditionalWordlist; ChineseSimplifiedWordlist]].

(** The lists of languages written with the letters a-z and accents. *)
Definition latin_lists : list (list gostring) :=
  [EnglishWordlist; FrenchWordlist; ItalianWordlist; SpanishWordlist; CzechWordlist].

(** [v] and [w] begin with the same four letters (all letters, if fewer),
    accents ignored. *)
Definition same_four_letters (v w : gostring) : Prop :=
  firstn 4 (without_accents v) = firstn 4 (without_accents w).
