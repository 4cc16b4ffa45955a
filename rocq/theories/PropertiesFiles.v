(** * The trees and word lists are those of the files in the repository (C102)

    Theorems only; each is closed by an existing lemma. [GoText.v] and [WordsText.v] are
    the seven Go files of the package, character for character. [GoPrint.v] says how a
    text is cut into words and how trees are written as words; [is_text_of text f] says
    that both give the same words. [GoFiles.v] is the files as trees; [source_types],
    [source_vars] and [source_funcs] are the trees C94-C101 are about. *)

From Coq Require Import String Ascii List Bool ZArith.
Import ListNotations.
From Verif Require Import GoBase GoSyntax GoSource GoText WordsText GoPrint GoFiles ReadFacts WrittenFacts CommentFacts FilesFacts.
From Verif Require Import WordsEnglish WordsFrench WordsJapanese WordsItalian WordsSpanish WordsKorean
  WordsCzech WordsChineseTraditional WordsChineseSimplified.
Local Open Scope string_scope.

(** Every file of the package is the text of its trees, and the trees are proper. *)
Theorem C102_files_are_texts :
  Forall2 is_text_of
    [text_struct_go; text_btc_go; text_util_go; text_private_key_go; text_public_key_go;
     text_mnemonic_go; text_wordlists_go] source_files /\
  forallb proper source_files = true.
Proof. exact (conj files_are_texts files_are_proper). Qed.
Print Assumptions C102_files_are_texts.

(** A text is the text of one file only: whatever proper trees have these words are the
    same trees, with the same functions, statements, operators, names and types. *)
Theorem C102_text_determines_file : forall text f g,
  proper f = true -> proper g = true -> is_text_of text f -> is_text_of text g -> f = g.
Proof. exact text_unique. Qed.
Print Assumptions C102_text_determines_file.

(** So whatever files one reads from these texts, the types, variables, functions and
    word lists they declare are the ones the other theorems are about. *)
Theorem C102_no_other_source : forall fs,
  Forall2 is_text_of
    [text_struct_go; text_btc_go; text_util_go; text_private_key_go; text_public_key_go;
     text_mnemonic_go; text_wordlists_go] fs ->
  forallb proper fs = true ->
  package_of fs = (source_types, source_vars, source_funcs) /\
  map (fun p => (fst p, map str (snd p))) (lists_of fs) =
  [("EnglishWordlist", EnglishWordlist); ("FrenchWordlist", FrenchWordlist);
   ("JapaneseWordlist", JapaneseWordlist); ("ItalianWordlist", ItalianWordlist);
   ("SpanishWordlist", SpanishWordlist); ("KoreanWordlist", KoreanWordlist);
   ("CzechWordlist", CzechWordlist); ("ChineseTraditionalWordlist", ChineseTraditionalWordlist);
   ("ChineseSimplifiedWordlist", ChineseSimplifiedWordlist)].
Proof. exact no_other_source. Qed.
Print Assumptions C102_no_other_source.

(** Words written down with blanks between them are read back as they were; the end of
    the text counts as the end of a line. *)
Theorem C102_written_words_are_read : forall ts, forallb writable ts = true ->
  tokens_of (written ts) = Some (ts ++ semicolon (last (map ends_line ts) false))%list.
Proof. exact (fun ts => read_written ts false). Qed.
Print Assumptions C102_written_words_are_read.

(** So every file whose words can be written has a text. *)
Theorem C102_file_has_text : forall f,
  forallb writable (file_tokens f) = true -> is_text_of (written (file_tokens f)) f.
Proof. exact file_written. Qed.
Print Assumptions C102_file_has_text.

(** Layout: after a text [a] that does not end inside a string or a comment, a comment to
    the end of the line, a comment within a line, more blanks or an empty line change
    nothing. *)
Theorem C102_comment_to_line_end : forall a c b,
  tokens_of a <> None -> every (fun x => negb (newline x)) c = true ->
  tokens_of (a ++ " //" ++ c ++ one "010" ++ b) = tokens_of (a ++ one "010" ++ b).
Proof. exact line_comment_text. Qed.
Print Assumptions C102_comment_to_line_end.

Theorem C102_comment_in_line : forall a c b,
  tokens_of a <> None -> every (fun x => negb (newline x)) c = true -> (forall u v, c <> u ++ "*/" ++ v) ->
  tokens_of (a ++ " /*" ++ c ++ "*/" ++ b) = tokens_of (a ++ " " ++ b).
Proof. exact block_comment_text. Qed.
Print Assumptions C102_comment_in_line.

Theorem C102_blanks : forall a x y b,
  tokens_of a <> None -> blank x = true -> blank y = true ->
  tokens_of (a ++ String x b) = tokens_of (a ++ " " ++ b) /\
  tokens_of (a ++ String x (String y b)) = tokens_of (a ++ " " ++ b).
Proof. exact blanks_text. Qed.
Print Assumptions C102_blanks.

Theorem C102_empty_line : forall a b, tokens_of a <> None ->
  tokens_of (a ++ one "010" ++ one "010" ++ b) = tokens_of (a ++ one "010" ++ b).
Proof. exact empty_line_text. Qed.
Print Assumptions C102_empty_line.

(** The words of the files can be written. *)
Example C102_example_writable :
  forallb (fun f => forallb writable (file_tokens f))
    [file_struct_go; file_btc_go; file_util_go; file_private_key_go; file_public_key_go; file_mnemonic_go] = true.
Proof. vm_compute. reflexivity. Qed.
(** A few lines, and their words. *)
Example C102_example_words :
  tokens_of "// comment
func f(x *big.Int) { /* more */ y, _ := x.Mod(x, 12)
	return }" =
  Some [TName "func"; TName "f"; TOp "("; TName "x"; TOp "*"; TName "big"; TOp "."; TName "Int"; TOp ")";
        TOp "{"; TName "y"; TOp ","; TName "_"; TOp ":="; TName "x"; TOp "."; TName "Mod"; TOp "(";
        TName "x"; TOp ","; TInt 12; TOp ")"; TOp ";"; TName "return"; TOp "}"; TOp ";"].
Proof. vm_compute. reflexivity. Qed.
(** Precedence: the words of a - b - c and of a - (b - c) differ. *)
Example C102_example_parentheses :
  expr_tokens (Bin OpSub (Bin OpSub (Var "a") (Var "b")) (Var "c")) =
    [TName "a"; TOp "-"; TName "b"; TOp "-"; TName "c"] /\
  expr_tokens (Bin OpSub (Var "a") (Bin OpSub (Var "b") (Var "c"))) =
    [TName "a"; TOp "-"; TOp "("; TName "b"; TOp "-"; TName "c"; TOp ")"].
Proof. split; reflexivity. Qed.
(** [proper] is needed: a variable named like an imported package is written like the
    package. The first tree is proper in a file that imports rand, the second is not. *)
Example C102_example_shadow :
  expr_tokens (Var "rand.Reader") = expr_tokens (Field (Var "rand") "Reader") /\
  proper_expr ["rand"] true (Var "rand.Reader") = true /\
  proper_expr ["rand"] true (Field (Var "rand") "Reader") = false.
Proof. repeat split. Qed.
(** A text the theorems on layout apply to, and one they do not: it ends in a string. *)
Example C102_example_layout :
  tokens_of "x := f(y" <> None /\ tokens_of "x := f(""y" = None.
Proof. split; [discriminate|reflexivity]. Qed.
