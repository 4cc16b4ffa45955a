(** * Every function of the source answers as the model says *)

From Coq Require Import String.
From Verif Require Import GoBase GoNum Sha256 Ripemd160 Base58 GoRand Model ModelPtr GenFacts GoSyntax GoSource GoSem SpecSource SpecShare.
From Verif Require Import SourceBase SourcePriv SourcePub SourceSeed SourceMnem.
Local Open Scope Z_scope.
Local Opaque sha256 ripemd160 secp_A secp_B secp_P secp_Gx secp_Gy secp_N secp_H set_string16.

Section WithE.
Context (E : curve_params -> ecdsa_lib) (L : limits).

Ltac unstate s := destruct s as [h rd lg]; cbn [heap source logged] in *.

Lemma wide_CheckWIF w s : roomy L (2 * len w) -> (lowest L <= length (heap s))%nat ->
  answers_above E L "CheckWIF" [VStr w] s (CheckWIF w) truth.
Proof. unstate s. intros Hroom Hl. now apply gives_answers, run_CheckWIF. Qed.

Lemma answers_less {A} f args s (o : outcome A) (rep rep' : repr A) : (forall h a vs, rep h a vs -> rep' h a vs) ->
  answers_above E L f args s o rep -> answers_above E L f args s o rep'.
Proof.
  intros W (new & H). exists new. destruct o as [a|p]; [|exact H]. destruct H as (vs & He & Hr). exists vs. auto.
Qed.
Lemma made_priv_is s net h v k : made_priv (heap s) net h v k -> is_priv h v k /\ is_new s v.
Proof.
  intros (a & key & -> & Ha & Hc & Hb & _ & Hn). split; [exists a, key, net; auto|]. exists a. auto.
Qed.
Lemma made_pub_is s net h v k : made_pub (heap s) net h v k -> is_pub h v k /\ is_new s v.
Proof.
  intros (a & x & y & -> & Ha & Hc & Hx & _ & Hy & _ & _ & Hn). split; [exists a, x, y, net; auto|]. exists a. auto.
Qed.
Lemma own_priv_new s net h o vs : own_priv s net h o vs -> new_priv s h o vs.
Proof. destruct o; [|auto]. intros (v & -> & H). exists v. split; [reflexivity|]. eapply made_priv_is, H. Qed.
Lemma own_pub_new s net h o vs : own_pub s net h o vs -> new_pub s h o vs.
Proof. destruct o; [|auto]. intros (v & -> & H). exists v. split; [reflexivity|]. eapply made_pub_is, H. Qed.
Lemma own_pub_ok_new s net h o vs : own_pub_ok s net h o vs -> new_pub_ok s h o vs.
Proof. destruct o; [|auto]. intros (v & -> & H). exists v. split; [reflexivity|]. eapply made_pub_is, H. Qed.
Lemma priv_field h v k : is_priv h v k -> exists net, field_is h v "Network" net.
Proof. intros (a & key & net & -> & H & _). exists net, a. do 2 eexists. split; [reflexivity|]. split; [exact H|]. cbn [In]. auto. Qed.
Lemma pub_field h v k : is_pub h v k -> exists net, field_is h v "Network" net.
Proof. intros (a & x & y & net & -> & H & _). exists net, a. do 2 eexists. split; [reflexivity|]. split; [exact H|]. cbn [In]. auto. Qed.

Lemma own_PrivateFromHex x v net s : is_net (heap s) v net ->
  (lowest L <= length (heap s))%nat ->
  answers_above E L "PrivateFromHex" [VStr x; v] s (PrivateFromHex x net) (own_priv s v).
Proof. unstate s. intros H Hl. apply gives_answers, (run_PrivateFromHex E L x v net h rd lg H Hl). Qed.
Lemma above_PrivateFromHex x v net s : is_net (heap s) v net ->
  (lowest L <= length (heap s))%nat ->
  answers_above E L "PrivateFromHex" [VStr x; v] s (PrivateFromHex x net) (new_priv s).
Proof. intros H Hl. eapply answers_less; [apply own_priv_new|now apply own_PrivateFromHex]. Qed.

Lemma own_PrivateFromWIF w v net s : roomy L (2 * len w) -> is_net (heap s) v net ->
  (lowest L <= length (heap s))%nat ->
  answers_above E L "PrivateFromWIF" [VStr w; v] s (PrivateFromWIF w net) (own_priv s v).
Proof. unstate s. intros Hroom H Hl. apply gives_answers, (run_PrivateFromWIF E L w v net h rd lg Hroom H Hl). Qed.
Lemma wide_PrivateFromWIF w v net s : roomy L (2 * len w) -> is_net (heap s) v net ->
  (lowest L <= length (heap s))%nat ->
  answers_above E L "PrivateFromWIF" [VStr w; v] s (PrivateFromWIF w net) (new_priv s).
Proof. intros Hroom H Hl. eapply answers_less; [apply own_priv_new|now apply own_PrivateFromWIF]. Qed.

Lemma own_Generate v net s : is_net (heap s) v net ->
  (lowest L <= length (heap s))%nat ->
  answers_reading_above E L "GeneratePrivateKey" [v] s (GeneratePrivateKey net (source s)) snd (own_random_priv s v).
Proof.
  unstate s. intros H Hl.
  destruct (GeneratePrivateKey_fuel net rd (S (length rd))) as [Hf Hp]; [lia|].
  rewrite <- Hf in Hp.
  assert (R := run_generate E L _ v net h rd lg H Hp Hl). rewrite Hf in R.
  apply evt_ends in R as (r & (new & R) & He). exists new. cbn [heap source logged].
  destruct (GeneratePrivateKey net rd) as [a|p].
  - destruct R as (vs & -> & Hr). exists vs. auto.
  - destruct R as (left & ->). now exists left.
Qed.

Lemma above_Generate v net s : is_net (heap s) v net ->
  (lowest L <= length (heap s))%nat ->
  answers_reading_above E L "GeneratePrivateKey" [v] s (GeneratePrivateKey net (source s)) snd (new_random_priv s).
Proof.
  intros H Hl. destruct (own_Generate v net s H Hl) as (new & R). exists new.
  destruct (GeneratePrivateKey net (source s)) as [a|p]; [|exact R].
  destruct R as (vs & He & w & -> & Hw). exists [w]. split; [exact He|]. exists w. split; [reflexivity|].
  eapply made_priv_is, Hw.
Qed.

Lemma nil_priv_binary f v2 s : (f = "AddPrivateKeys" \/ f = "MultiplyPrivateKeys")%string ->
  forall rep : repr (result private_key),
  (v2 = VNil \/ exists a, v2 = VPtr a) ->
  answers_above E L f [VNil; v2] s (Panic PNil) rep.
Proof.
  unstate s. intros Hf rep Hv. apply gives_answers. cbn [heap source logged].
  destruct Hf as [-> | ->]; destruct Hv as [-> | (a & ->)]; enter; close.
Qed.

Lemma priv_nil_binary f v k s : (f = "AddPrivateKeys" \/ f = "MultiplyPrivateKeys")%string ->
  forall rep : repr (result private_key),
  is_priv (heap s) v k ->
  answers_above E L f [v; VNil] s (Panic PNil) rep.
Proof.
  unstate s. intros Hf rep (a & key & net & -> & Ha & Hk & Hn). apply gives_answers. cbn [heap source logged].
  destruct Hf as [-> | ->]; destruct (net_cases _ _ _ Hn) as [-> | (b & ->)]; enter; close.
Qed.

Lemma priv_ptr_cases h v k : is_priv_ptr h v k -> v = VNil \/ exists a, v = VPtr a.
Proof.
  destruct k as [k|]; cbn; [|now left].
  intros (a & key & net & -> & _). right. now exists a.
Qed.
Lemma pub_ptr_cases h v k : is_pub_ptr h v k -> v = VNil \/ exists a, v = VPtr a.
Proof.
  destruct k as [k|]; cbn; [|now left].
  intros (a & x & y & net & -> & _). right. now exists a.
Qed.

Lemma own_AddPrivateKeys v1 p1 v2 p2 net s : curve_ready (heap s) ->
  is_priv (heap s) v1 p1 -> is_priv (heap s) v2 p2 -> field_is (heap s) v1 "Network" net ->
  (lowest L <= length (heap s))%nat ->
  answers_above E L "AddPrivateKeys" [v1; v2] s (AddPrivateKeys p1 p2) (own_priv s net).
Proof. unstate s. intros HC H1 H2 Hf Hl. apply gives_answers, (run_AddPrivateKeys E L v1 p1 v2 p2 net h rd lg Hf HC H1 H2 Hl). Qed.
Lemma above_AddPrivateKeys v1 p1 v2 p2 s : curve_ready (heap s) ->
  is_priv_ptr (heap s) v1 p1 -> is_priv_ptr (heap s) v2 p2 ->
  (lowest L <= length (heap s))%nat ->
  answers_above E L "AddPrivateKeys" [v1; v2] s (AddPrivateKeys_ptr p1 p2) (new_priv s).
Proof.
  intros HC H1 H2 Hl. assert (C2 := priv_ptr_cases _ _ _ H2). destruct p1 as [p1|].
  2: { cbn in H1. subst v1. cbn. apply nil_priv_binary; auto. }
  destruct p2 as [p2|].
  2: { cbn in H2. subst v2. cbn. eapply priv_nil_binary; eauto. }
  destruct (priv_field _ _ _ H1) as (net & Hf). eapply answers_less; [apply own_priv_new|now apply (own_AddPrivateKeys v1 p1 v2 p2 net)].
Qed.

Lemma own_MultiplyPrivateKeys v1 p1 v2 p2 net s : curve_ready (heap s) ->
  is_priv (heap s) v1 p1 -> is_priv (heap s) v2 p2 -> field_is (heap s) v1 "Network" net ->
  (lowest L <= length (heap s))%nat ->
  answers_above E L "MultiplyPrivateKeys" [v1; v2] s (MultiplyPrivateKeys p1 p2) (own_priv s net).
Proof. unstate s. intros HC H1 H2 Hf Hl. apply gives_answers, (run_MultiplyPrivateKeys E L v1 p1 v2 p2 net h rd lg Hf HC H1 H2 Hl). Qed.
Lemma above_MultiplyPrivateKeys v1 p1 v2 p2 s : curve_ready (heap s) ->
  is_priv_ptr (heap s) v1 p1 -> is_priv_ptr (heap s) v2 p2 ->
  (lowest L <= length (heap s))%nat ->
  answers_above E L "MultiplyPrivateKeys" [v1; v2] s (MultiplyPrivateKeys_ptr p1 p2) (new_priv s).
Proof.
  intros HC H1 H2 Hl. assert (C2 := priv_ptr_cases _ _ _ H2). destruct p1 as [p1|].
  2: { cbn in H1. subst v1. cbn. apply nil_priv_binary; auto. }
  destruct p2 as [p2|].
  2: { cbn in H2. subst v2. cbn. eapply priv_nil_binary; eauto. }
  destruct (priv_field _ _ _ H1) as (net & Hf). eapply answers_less; [apply own_priv_new|now apply (own_MultiplyPrivateKeys v1 p1 v2 p2 net)].
Qed.

Lemma own_GetPublicKey v k net s : curve_ready (heap s) -> is_priv (heap s) v k -> field_is (heap s) v "Network" net ->
  (lowest L <= length (heap s))%nat ->
  answers_above E L "PrivateKey.GetPublicKey" [v] s (GetPublicKey (E secp256k1_params) k) (own_pub_ok s net).
Proof. unstate s. intros HC H Hf Hl. apply gives_answers, (run_GetPublicKey E L v k net h rd lg Hf HC H Hl). Qed.
Lemma above_GetPublicKey v k s : curve_ready (heap s) -> is_priv_ptr (heap s) v k ->
  (lowest L <= length (heap s))%nat ->
  answers_above E L "PrivateKey.GetPublicKey" [v] s (GetPublicKey_ptr (E secp256k1_params) k) (new_pub_ok s).
Proof.
  intros HC H Hl. destruct k as [k|].
  - destruct (priv_field _ _ _ H) as (net & Hf). eapply answers_less; [apply own_pub_ok_new|now apply (own_GetPublicKey v k net)].
  - unstate s. apply gives_answers. cbn in H. subst v. destruct HC as (a & b & p & gx & gy & n & c & (z & Hz & Hc) & _).
    injection Hz as <-. cbn [heap source logged]. enter. close.
Qed.

Lemma own_PublicFromHex x v net s : curve_ready (heap s) -> is_net (heap s) v net ->
  (lowest L <= length (heap s))%nat ->
  answers_above E L "PublicFromHex" [VStr x; v] s (PublicFromHex (E secp256k1_params) x net) (own_pub s v).
Proof. unstate s. intros HC H Hl. apply gives_answers, (run_PublicFromHex E L x v net h rd lg HC H Hl). Qed.
Lemma above_PublicFromHex x v net s : curve_ready (heap s) -> is_net (heap s) v net ->
  (lowest L <= length (heap s))%nat ->
  answers_above E L "PublicFromHex" [VStr x; v] s (PublicFromHex (E secp256k1_params) x net) (new_pub s).
Proof. intros HC H Hl. eapply answers_less; [apply own_pub_new|now apply own_PublicFromHex]. Qed.

Lemma own_AddPublicKeys v1 p1 v2 p2 c net s : curve_ready (heap s) ->
  is_pub (heap s) v1 p1 -> is_pub (heap s) v2 p2 -> field_is (heap s) v1 "Network" net ->
  (lowest L <= length (heap s))%nat ->
  answers_above E L "AddPublicKeys" [v1; v2; VBool c] s (AddPublicKeys (E secp256k1_params) p1 p2 c) (own_pub s net).
Proof. unstate s. intros HC H1 H2 Hf Hl. apply gives_answers, (run_AddPublicKeys E L v1 p1 v2 p2 c net h rd lg Hf HC H1 H2 Hl). Qed.
Lemma above_AddPublicKeys v1 p1 v2 p2 c s : curve_ready (heap s) ->
  is_pub_ptr (heap s) v1 p1 -> is_pub_ptr (heap s) v2 p2 ->
  (lowest L <= length (heap s))%nat ->
  answers_above E L "AddPublicKeys" [v1; v2; VBool c] s (AddPublicKeys_ptr (E secp256k1_params) p1 p2 c) (new_pub s).
Proof.
  intros HC H1 H2 Hl. assert (C2 := pub_ptr_cases _ _ _ H2).
  destruct p1 as [p1|].
  2: { unstate s. apply gives_answers. cbn [heap source logged]. cbn in H1. subst v1. destruct C2 as [-> | (a & ->)]; enter; close. }
  destruct p2 as [p2|].
  2: { unstate s. apply gives_answers. cbn [heap source logged]. cbn in H2. subst v2. destruct H1 as (a & x & y & net & -> & Ha & Hx & Hy & Hn).
       destruct (net_cases _ _ _ Hn) as [-> | (b & ->)]; enter; close. }
  destruct (pub_field _ _ _ H1) as (net & Hf). eapply answers_less; [apply own_pub_new|now apply (own_AddPublicKeys v1 p1 v2 p2 c net)].
Qed.

Lemma above_Format v p c s : is_pub_ptr (heap s) v p ->
  (lowest L <= length (heap s))%nat ->
  answers_above E L "PublicKey.Format" [v; VBool c] s (Format_ptr p c) text.
Proof.
  unstate s. intros H Hl. apply gives_answers. destruct p as [p|]; cbn [heap source logged].
  - eapply evt_weaken; [apply (run_Format E L v p c h rd lg H Hl)|]. cbv beta. intros r Hr.
    exists []. rewrite app_nil_r. cbn [Format_ptr on_ptr]. destruct (Format p c) as [t|q]; [|exact Hr].
    eexists. split; [exact Hr|reflexivity].
  - cbn in H. subst v. enter; close.
Qed.

Lemma above_Address v p c s : is_pub_ptr (heap s) v p ->
  (lowest L <= length (heap s))%nat ->
  answers_above E L "PublicKey.Address" [v; VBool c] s (Address_ptr p c) text_or_err.
Proof.
  unstate s. intros H Hl. apply gives_answers. destruct p as [p|]; cbn [heap source logged].
  - apply (run_Address E L v p c h rd lg H Hl).
  - cbn in H. subst v. enter; close.
Qed.

Lemma wide_Mnemonic words v wl s : roomy L 300 -> is_words v wl ->
  (lowest L <= length (heap s))%nat ->
  answers_reading_above E L "NewMnemonic" [VInt words; v] s (NewMnemonic words wl (source s))
    (fun _ => left_by_mnemonic words wl (source s)) text_or_err.
Proof.
  unstate s. intros Hroom H Hl. assert (R := run_NewMnemonic E L words v wl h rd lg Hroom H Hl).
  apply evt_ends in R as (r & (new & R) & He). exists new. cbn [heap source logged].
  destruct (NewMnemonic words wl rd) as [a|p].
  - destruct R as (vs & -> & Hr). exists vs. auto.
  - destruct R as (left & ->). now exists left.
Qed.

Lemma wide_Seed m p v wl s : roomy L (len (words_of wl)) ->
  (forall b, words_binary (split_space m) (words_of wl) = Some b -> roomy L (len b + 4)) -> is_words v wl ->
  (lowest L <= length (heap s))%nat ->
  answers_logging_above E L "NewSeedFromMnemonic" [VStr m; VStr p; v] s
    (fst (NewSeedFromMnemonic m p wl)) (snd (NewSeedFromMnemonic m p wl)) bytes_or_err.
Proof.
  unstate s. intros Hr1 Hr2 H Hl. assert (R := run_NewSeedFromMnemonic E L m p v wl h rd lg Hr1 Hr2 H Hl).
  apply evt_ends in R as (r & (new & R) & He). exists new. cbn [heap source logged].
  destruct (NewSeedFromMnemonic m p wl) as [log [a|q]]; cbn [fst snd] in *.
  - destruct R as (vs & -> & Hr). exists vs. auto.
  - now subst r.
Qed.

End WithE.

(** the same with ints of no particular width *)
Section Unbounded.
Context (E : curve_params -> ecdsa_lib) (floor : nat).

Lemma above_CheckWIF w s : (floor <= length (heap s))%nat ->
  answers_above E floor "CheckWIF" [VStr w] s (CheckWIF w) truth.
Proof. intros Hl. exact (wide_CheckWIF E floor w s (roomy_unbounded _ _) Hl). Qed.
Lemma above_PrivateFromWIF w v net s : is_net (heap s) v net ->
  (floor <= length (heap s))%nat ->
  answers_above E floor "PrivateFromWIF" [VStr w; v] s (PrivateFromWIF w net) (new_priv s).
Proof. intros H Hl. exact (wide_PrivateFromWIF E floor w v net s (roomy_unbounded _ _) H Hl). Qed.
Lemma above_Mnemonic words v wl s : is_words v wl ->
  (floor <= length (heap s))%nat ->
  answers_reading_above E floor "NewMnemonic" [VInt words; v] s (NewMnemonic words wl (source s))
    (fun _ => left_by_mnemonic words wl (source s)) text_or_err.
Proof. intros H Hl. exact (wide_Mnemonic E floor words v wl s (roomy_unbounded _ _) H Hl). Qed.
Lemma above_Seed m p v wl s : is_words v wl ->
  (floor <= length (heap s))%nat ->
  answers_logging_above E floor "NewSeedFromMnemonic" [VStr m; VStr p; v] s
    (fst (NewSeedFromMnemonic m p wl)) (snd (NewSeedFromMnemonic m p wl)) bytes_or_err.
Proof.
  intros H Hl.
  exact (wide_Seed E floor m p v wl s (roomy_unbounded _ _) (fun _ _ => roomy_unbounded _ _) H Hl).
Qed.
End Unbounded.

(** the same without a floor *)
Section Plain.
Context (E : curve_params -> ecdsa_lib).

Lemma answers_CheckWIF w s : answers E "CheckWIF" [VStr w] s (CheckWIF w) truth.
Proof. exact (above_CheckWIF E O w s (Nat.le_0_l _)). Qed.
Lemma answers_PrivateFromHex x v net s : is_net (heap s) v net ->
  answers E "PrivateFromHex" [VStr x; v] s (PrivateFromHex x net) (new_priv s).
Proof. intros H0. exact (above_PrivateFromHex E O x v net s H0 (Nat.le_0_l _)). Qed.
Lemma answers_PrivateFromWIF w v net s : is_net (heap s) v net ->
  answers E "PrivateFromWIF" [VStr w; v] s (PrivateFromWIF w net) (new_priv s).
Proof. intros H0. exact (above_PrivateFromWIF E O w v net s H0 (Nat.le_0_l _)). Qed.
Lemma answers_Generate v net s : is_net (heap s) v net ->
  answers_reading E "GeneratePrivateKey" [v] s (GeneratePrivateKey net (source s)) snd (new_random_priv s).
Proof. intros H0. exact (above_Generate E O v net s H0 (Nat.le_0_l _)). Qed.
Lemma answers_AddPrivateKeys v1 p1 v2 p2 s : curve_ready (heap s) ->
  is_priv_ptr (heap s) v1 p1 -> is_priv_ptr (heap s) v2 p2 ->
  answers E "AddPrivateKeys" [v1; v2] s (AddPrivateKeys_ptr p1 p2) (new_priv s).
Proof. intros H0 H1 H2. exact (above_AddPrivateKeys E O v1 p1 v2 p2 s H0 H1 H2 (Nat.le_0_l _)). Qed.
Lemma answers_MultiplyPrivateKeys v1 p1 v2 p2 s : curve_ready (heap s) ->
  is_priv_ptr (heap s) v1 p1 -> is_priv_ptr (heap s) v2 p2 ->
  answers E "MultiplyPrivateKeys" [v1; v2] s (MultiplyPrivateKeys_ptr p1 p2) (new_priv s).
Proof. intros H0 H1 H2. exact (above_MultiplyPrivateKeys E O v1 p1 v2 p2 s H0 H1 H2 (Nat.le_0_l _)). Qed.
Lemma answers_GetPublicKey v k s : curve_ready (heap s) -> is_priv_ptr (heap s) v k ->
  answers E "PrivateKey.GetPublicKey" [v] s (GetPublicKey_ptr (E secp256k1_params) k) (new_pub_ok s).
Proof. intros H0 H1. exact (above_GetPublicKey E O v k s H0 H1 (Nat.le_0_l _)). Qed.
Lemma answers_PublicFromHex x v net s : curve_ready (heap s) -> is_net (heap s) v net ->
  answers E "PublicFromHex" [VStr x; v] s (PublicFromHex (E secp256k1_params) x net) (new_pub s).
Proof. intros H0 H1. exact (above_PublicFromHex E O x v net s H0 H1 (Nat.le_0_l _)). Qed.
Lemma answers_AddPublicKeys v1 p1 v2 p2 c s : curve_ready (heap s) ->
  is_pub_ptr (heap s) v1 p1 -> is_pub_ptr (heap s) v2 p2 ->
  answers E "AddPublicKeys" [v1; v2; VBool c] s (AddPublicKeys_ptr (E secp256k1_params) p1 p2 c) (new_pub s).
Proof. intros H0 H1 H2. exact (above_AddPublicKeys E O v1 p1 v2 p2 c s H0 H1 H2 (Nat.le_0_l _)). Qed.
Lemma answers_Format v p c s : is_pub_ptr (heap s) v p ->
  answers E "PublicKey.Format" [v; VBool c] s (Format_ptr p c) text.
Proof. intros H0. exact (above_Format E O v p c s H0 (Nat.le_0_l _)). Qed.
Lemma answers_Address v p c s : is_pub_ptr (heap s) v p ->
  answers E "PublicKey.Address" [v; VBool c] s (Address_ptr p c) text_or_err.
Proof. intros H0. exact (above_Address E O v p c s H0 (Nat.le_0_l _)). Qed.
Lemma answers_Mnemonic words v wl s : is_words v wl ->
  answers_reading E "NewMnemonic" [VInt words; v] s (NewMnemonic words wl (source s))
    (fun _ => left_by_mnemonic words wl (source s)) text_or_err.
Proof. intros H0. exact (above_Mnemonic E O words v wl s H0 (Nat.le_0_l _)). Qed.
Lemma answers_Seed m p v wl s : is_words v wl ->
  answers_logging E "NewSeedFromMnemonic" [VStr m; VStr p; v] s
    (fst (NewSeedFromMnemonic m p wl)) (snd (NewSeedFromMnemonic m p wl)) bytes_or_err.
Proof. intros H0. exact (above_Seed E O m p v wl s H0 (Nat.le_0_l _)). Qed.

(** the start of the program *)
Definition init_heap : list value :=
  match run E O 40 "init" [] (State start_heap [] []) with Done _ s => heap s | _ => [] end.

Lemma answers_init rd lg : exists h,
  ends E "init" [] (State start_heap rd lg) (Done [] (State h rd lg)) /\
  curve_ready h /\
  (exists v, var_is h "MainNetwork" v /\ is_net h v (Some MainNetwork)) /\
  (exists v, var_is h "TestNetwork" v /\ is_net h v (Some TestNetwork)).
Proof.
  exists init_heap. split; [exists 40%nat; intros n Hn|].
  - replace n with (40 + (n - 40))%nat by lia. generalize (n - 40)%nat. intros m.
    vm_compute. reflexivity.
  - split.
    + exists (VPtr 3), (VPtr 4), (VPtr 7), (VPtr 5), (VPtr 6), (VPtr 8), (VPtr 9).
      split; [exists 0%nat; split; vm_compute; reflexivity|].
      repeat split; eexists; (split; [reflexivity|]); vm_compute; reflexivity.
    + split; [exists (VPtr 10)|exists (VPtr 11)]; split;
        eexists; (split; [reflexivity|]); vm_compute; reflexivity.
Qed.

Lemma var_is_grow h new x v : var_is h x v -> var_is (h ++ new) x v.
Proof. intros (a & Ha & Hh). exists a. split; [exact Ha|]. now apply get_old. Qed.

Lemma curve_ready_grow h new : curve_ready h -> curve_ready (h ++ new).
Proof.
  intros (a & b & p & gx & gy & n & c & Hv & H). exists a, b, p, gx, gy, n, c.
  split; [now apply var_is_grow|].
  repeat split; try (apply is_big_grow; tauto).
Qed.

End Plain.
