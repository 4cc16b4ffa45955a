(** * Proofs that the trees of [GoSource.v] and the word lists are those of the files *)

From Coq Require Import String List Bool ZArith.
Import ListNotations.
From Verif Require Import GoBase GoSyntax GoSource GoText WordsText GoPrint GoFiles ReadFacts WrittenFacts.
From Verif Require Import WordsEnglish WordsFrench WordsJapanese WordsItalian WordsSpanish WordsKorean
  WordsCzech WordsChineseTraditional WordsChineseSimplified.
Local Open Scope string_scope.

(** The word lists as the file has them. *)
Definition source_lists : list (string * list string) :=
  Eval cbv [lists_of flat_map gf_decls source_files decl_lists file_wordlists_go app
    file_struct_go file_btc_go file_util_go file_private_key_go file_public_key_go file_mnemonic_go] in
  lists_of source_files.

Lemma lists_heads : Forall (fun p => head_ok (fst p)) source_lists.
Proof. unfold source_lists. repeat (apply Forall_cons; [vm_compute; reflexivity|]). apply Forall_nil. Qed.

Lemma lists_plain : forallb (fun p => forallb plain (snd p)) source_lists = true.
Proof. vm_compute. reflexivity. Qed.

Lemma lists_layout : String.eqb text_wordlists_go (lists_head ++ lists_text source_lists) = true.
Proof. vm_compute. reflexivity. Qed.

Lemma wordlists_text : is_text_of text_wordlists_go file_wordlists_go.
Proof. exact (lists_are_text source_lists text_wordlists_go lists_heads lists_plain lists_layout). Qed.

Lemma files_are_texts : Forall2 is_text_of source_texts source_files.
Proof.
  unfold source_texts, source_files.
  do 6 (apply Forall2_cons; [unfold is_text_of; vm_compute; reflexivity|]).
  apply Forall2_cons; [exact wordlists_text|apply Forall2_nil].
Qed.

Lemma files_are_proper : forallb proper source_files = true.
Proof. vm_compute. reflexivity. Qed.

Lemma files_are_source : package_of source_files = (source_types, source_vars, source_funcs).
Proof. reflexivity. Qed.

Lemma str_of_bytes l : map str (map string_of_list_byte l) = l.
Proof.
  induction l as [|w l IH]; [reflexivity|]. cbn [map]. rewrite IH. unfold str.
  rewrite list_byte_of_string_of_list_byte. reflexivity.
Qed.

Lemma files_lists :
  map (fun p => (fst p, map str (snd p))) (lists_of source_files) =
  [("EnglishWordlist", EnglishWordlist); ("FrenchWordlist", FrenchWordlist);
   ("JapaneseWordlist", JapaneseWordlist); ("ItalianWordlist", ItalianWordlist);
   ("SpanishWordlist", SpanishWordlist); ("KoreanWordlist", KoreanWordlist);
   ("CzechWordlist", CzechWordlist); ("ChineseTraditionalWordlist", ChineseTraditionalWordlist);
   ("ChineseSimplifiedWordlist", ChineseSimplifiedWordlist)].
Proof.
  change (lists_of source_files) with source_lists. unfold source_lists. cbn [map fst snd].
  rewrite !str_of_bytes. reflexivity.
Qed.

Lemma texts_determine texts fs gs :
  Forall2 is_text_of texts fs -> Forall2 is_text_of texts gs ->
  forallb proper fs = true -> forallb proper gs = true -> fs = gs.
Proof.
  intros Hf. revert gs. induction Hf as [|t f texts fs Ht Hf IH]; intros gs Hg Pf Pg;
    inversion Hg as [|? g ? gs' Ht' Hg']; subst; [reflexivity|].
  cbn [forallb] in Pf, Pg. apply andb_prop in Pf, Pg. destruct Pf as [P1 P2], Pg as [Q1 Q2].
  rewrite (text_unique t f g P1 Q1 Ht Ht'), (IH gs' Hg' P2 Q2). reflexivity.
Qed.

Lemma no_other_source fs :
  Forall2 is_text_of source_texts fs -> forallb proper fs = true ->
  package_of fs = (source_types, source_vars, source_funcs) /\
  map (fun p => (fst p, map str (snd p))) (lists_of fs) =
  [("EnglishWordlist", EnglishWordlist); ("FrenchWordlist", FrenchWordlist);
   ("JapaneseWordlist", JapaneseWordlist); ("ItalianWordlist", ItalianWordlist);
   ("SpanishWordlist", SpanishWordlist); ("KoreanWordlist", KoreanWordlist);
   ("CzechWordlist", CzechWordlist); ("ChineseTraditionalWordlist", ChineseTraditionalWordlist);
   ("ChineseSimplifiedWordlist", ChineseSimplifiedWordlist)].
Proof.
  intros H P. rewrite (texts_determine _ fs source_files H files_are_texts P files_are_proper).
  split; [exact files_are_source|exact files_lists].
Qed.
