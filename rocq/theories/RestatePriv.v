(** * Combining private keys on a network with any prefix (C21) *)

From Verif Require Import GoBase GoNum Sha256 Base58 Model NumFacts Spec SpecFacts PrivFacts CombFacts PrivProps.
Local Open Scope Z_scope.

Lemma combine_any_prefix op a b n x y s :
  KNetwork a = Some n -> KNetwork b = Some n -> Key a = Some x -> Key b = Some y ->
  ~ equal_up_to_case (WIF a) (WIF b) -> shortest_hex s ((op x y) mod secp_N) ->
  ((exists bs, hex_text (PrivKeyPrefix n ++ s) bs) -> exists c, combine op a b = Ret (Ok c)) /\
  ((~ exists bs, hex_text (PrivKeyPrefix n ++ s) bs) -> exists e, combine op a b = Ret (Err e)).
Proof.
  intros Hn1 Hn2 Hx Hy Hc Hs. unfold combine. rewrite Hn1, Hn2, Hx, Hy, net_eqb_refl. cbn [negb].
  assert (str_eqb (to_lower (WIF a)) (to_lower (WIF b)) = false) as ->.
  { apply str_eqb_neq. intros E. apply Hc, equal_up_to_case_lower, E. }
  apply shortest_hex_sprintf in Hs as [_ ->].
  destruct (PrivateFromHex_exact (sprintf_x (op x y mod secp_N)) n) as (H1 & H2 & _).
  split; [|exact H2]. intros H. destruct (H1 H) as (k & E & _). exists k. exact E.
Qed.
