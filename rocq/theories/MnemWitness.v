(** * Concrete mnemonics used by examples and refutations *)

From Verif Require Import GoBase GoNum Sha256 GoRand Model SpecText NumFacts Spec MnemFacts MnemProps SeedFacts WordFacts.
From Verif Require Import WordsEnglish.
Local Open Scope Z_scope.

Definition english : wordlist := Some EnglishWordlist.

Lemma english_proper : proper_list EnglishWordlist.
Proof. pose proof builtin_proper as H. inversion H as [|? ? H1 H2]. exact H1. Qed.

(** BIP-39's phrase for 32 zero bytes. *)
Definition phrase_art : gostring :=
  str "abandon abandon abandon abandon abandon abandon abandon abandon abandon abandon abandon abandon abandon abandon abandon abandon abandon abandon abandon abandon abandon abandon abandon art".
(** BIP-39's phrase for 16 zero bytes. *)
Definition phrase_about : gostring :=
  str "abandon abandon abandon abandon abandon abandon abandon abandon abandon abandon abandon about".

(** Entropies. *)
Definition ent32 : list byte := repeat x7f 32.
Definition ent16 : list byte := repeat x80 16.

Definition made (n : Z) (rd : list byte) : gostring :=
  match NewMnemonic n english rd with Ret (Ok s) => s | _ => [] end.

Lemma made_24 : NewMnemonic 24 english ent32 = Ret (Ok (made 24 ent32)).
Proof. vm_compute. reflexivity. Qed.

Lemma made_24_refused : snd (NewSeedFromMnemonic (made 24 ent32) [] english) = Ret (Err EInvalidChecksum).
Proof. vm_compute. reflexivity. Qed.

(** A generated 24-word phrase that is not BIP-39 for any entropy. *)
Lemma generated_not_bip39 :
  exists rd s ws, NewMnemonic 24 (Some EnglishWordlist) rd = Ret (Ok s) /\ spaced ws s /\
    length ws = 24%nat /\ (~ exists e, bip39 EnglishWordlist ws e) /\
    exists log, NewSeedFromMnemonic s [] (Some EnglishWordlist) = (log, Ret (Err EInvalidChecksum)).
Proof.
  exists ent32, (made 24 ent32), (split_space (made 24 ent32)).
  assert (Hs : spaced (split_space (made 24 ent32)) (made 24 ent32)) by apply split_spaced.
  assert (Hl : length (split_space (made 24 ent32)) = 24%nat) by (vm_compute; reflexivity).
  pose proof made_24_refused as R. unfold english in R.
  split; [exact made_24|]. split; [exact Hs|]. split; [exact Hl|]. split.
  - intros He. pose proof english_proper as P.
    apply (NewSeed_accepts_24 (made 24 ent32) [] EnglishWordlist _ (proper_nodup _ P) (proper_le _ P) Hs Hl) in He.
    destruct He as (log & r & He). rewrite He in R. discriminate R.
  - exists (fst (NewSeedFromMnemonic (made 24 ent32) [] (Some EnglishWordlist))).
    rewrite <- R. apply surjective_pairing.
Qed.

(** Lists of the properties in one go. *)
Lemma builtin_in l : In l builtin_lists -> proper_list l.
Proof. pose proof builtin_proper as H. rewrite Forall_forall in H. apply H. Qed.
