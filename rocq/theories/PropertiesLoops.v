(** * Properties of the loops as they are written (C80)

    Theorems only; each is closed by an existing lemma. [Model.v] gives each loop
    as a recursion, which Coq accepts only because it ends. [ImpModel.v] has the
    same functions statement by statement, in the language of [Imp.v], where a
    loop may run forever. These theorems say that none does, how many iterations
    all loops of one call run together, and that the result is [Model.v]'s. *)

From Verif Require Import GoBase GoNum Sha256 GoRand Model Imp ImpModel ImpFacts Spec MnemWitness WordsEnglish.
Local Open Scope Z_scope.

(** ** C80 *)

Theorem C80_format_ends : forall p c,
  (exists e n, exec (Format_body p c) format_start e n) /\
  forall e n, exec (Format_body p c) format_start e n ->
    observed (fun _ => []) e = Some ([], Format p c) /\ (n <= 128)%nat.
Proof. exact Format_every_run. Qed.
Print Assumptions C80_format_ends.

Theorem C80_seed_ends : forall m p l ws, spaced ws m ->
  (exists e n, exec (NewSeedFromMnemonic_body m p (Some l)) seed_start e n) /\
  forall e n, exec (NewSeedFromMnemonic_body m p (Some l)) seed_start e n ->
    observed s_log e = Some (NewSeedFromMnemonic m p (Some l)) /\
    ((length l <= 2048)%nat -> (n <= length ws * (length l + 26) + 69)%nat).
Proof. exact NewSeed_every_run_words. Qed.
Print Assumptions C80_seed_ends.

Theorem C80_seed_ends_nil_list : forall m p,
  (exists e n, exec (NewSeedFromMnemonic_body m p None) seed_start e n) /\
  forall e n, exec (NewSeedFromMnemonic_body m p None) seed_start e n ->
    observed s_log e = Some (NewSeedFromMnemonic m p None).
Proof. exact NewSeed_every_run_nil. Qed.
Print Assumptions C80_seed_ends_nil_list.

Theorem C80_mnemonic_ends : forall words wl rd,
  (exists e n, exec (NewMnemonic_body words wl rd) mnemonic_start e n) /\
  forall e n, exec (NewMnemonic_body words wl rd) mnemonic_start e n ->
    observed (fun _ => []) e = Some ([], NewMnemonic words wl rd) /\ (n <= 544)%nat.
Proof. exact NewMnemonic_every_run. Qed.
Print Assumptions C80_mnemonic_ends.

(** Calls that go through the loops: a point with short coordinates, a phrase of
    24 words on a list of 2048. *)
Example C80_example :
  Format (PublicKey (Some 5) (Some 6) None) true = Ret (str "02" ++ repeat x30 63 ++ str "5") /\
  length (words_of english) = 2048%nat /\ length (split_space phrase_art) = 24%nat /\
  snd (NewSeedFromMnemonic phrase_art [] english) = Ret (Ok None) /\
  NewMnemonic 24 english ent32 = Ret (Ok (made 24 ent32)).
Proof.
  split; [vm_compute; reflexivity|]. split; [vm_compute; reflexivity|]. split; [vm_compute; reflexivity|].
  split; [vm_compute; reflexivity|exact made_24].
Qed.
