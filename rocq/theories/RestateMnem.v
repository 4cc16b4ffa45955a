(** * Phrases as lists of words separated by spaces (C45, C49, C72) *)

From Verif Require Import GoBase GoNum Sha256 Model Spec MnemFacts MnemProps SeedFacts.
Local Open Scope Z_scope.

Lemma NewSeed_unknown_word m p l ws : spaced ws m -> (exists w, In w ws /\ ~ In w l) ->
  NewSeedFromMnemonic m p (Some l) = ([], Ret (Err EInvalidMnemonic)).
Proof. intros Hs H. apply spaced_split in Hs. subst ws. apply NewSeed_unknown, H. Qed.

Lemma NewSeed_nil_list m p : NewSeedFromMnemonic m p None = ([], Ret (Err EInvalidMnemonic)).
Proof.
  apply NewSeed_unknown. pose proof (split_spaced m) as H. inversion H as [w Hw E|w ws s Hw Hs E].
  - exists m. split; [left; reflexivity|]. intros [].
  - exists w. split; [left; reflexivity|]. intros [].
Qed.

(** Every text is one sequence of words, and only one. *)
Lemma spaced_unique s : exists ws, spaced ws s /\ forall ws', spaced ws' s -> ws' = ws.
Proof. exists (split_space s). split; [apply split_spaced|]. intros ws' H. symmetry. apply spaced_split, H. Qed.

(** The words of a proper list can be put into a phrase and come back. *)
Lemma proper_phrase l ws : proper_list l -> Forall (fun w => In w l) ws -> ws <> [] ->
  exists s, spaced ws s /\ forall ws', spaced ws' s -> ws' = ws.
Proof.
  intros (_ & _ & Hl) Hw Hn. exists (join_space ws).
  assert (spaced ws (join_space ws)) as H.
  { apply spaced_join; [exact Hn|]. rewrite Forall_forall in *. intros w Iw. apply Hl, Hw, Iw. }
  split; [exact H|]. intros ws' H'. symmetry. apply (spaced_fun _ _ _ H H').
Qed.
