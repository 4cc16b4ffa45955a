(** * Facts about nil keys, and about telling addresses from WIFs *)

From Verif Require Import GoBase GoNum Sha256 Ripemd160 Base58 GoRand Model ModelPtr Spec SpecMore.
From Verif Require Import HexFacts SpecFacts PrivFacts GenFacts CombFacts PrivProps PubFacts CallFacts Witness.
Local Open Scope Z_scope.
Local Opaque sha256 ripemd160 secp_P secp_N.

Lemma on_ptr_panic {A B} (p : option A) (f : A -> outcome B) :
  (exists e, on_ptr p f = Panic e) <-> p = None \/ exists a, p = Some a /\ exists e, f a = Panic e.
Proof.
  destruct p as [a|]; cbn [on_ptr].
  - split.
    + intros H. right. eauto.
    + intros [H|(b & E & H)]; [discriminate|]. injection E as <-. exact H.
  - split; [auto|]. eauto.
Qed.

Lemma combine_ptr_panic op a b :
  (exists e, on_ptr a (fun x => on_ptr b (fun y => combine op x y)) = Panic e) <->
  a = None \/ b = None \/ exists x y, a = Some x /\ b = Some y /\
    KNetwork x = KNetwork y /\ ~ equal_up_to_case (WIF x) (WIF y) /\
    (Key x = None \/ Key y = None \/ KNetwork x = None).
Proof.
  destruct a as [x|]; [destruct b as [y|]|]; cbn [on_ptr].
  - rewrite combine_panic_iff. split; [intros H; right; right; eauto 6|].
    intros [H|[H|(x' & y' & E1 & E2 & H)]]; try discriminate. injection E1 as <-. injection E2 as <-. exact H.
  - split; eauto.
  - split; eauto.
Qed.

Lemma get_public_ptr_panic E p : (exists e, GetPublicKey_ptr E p = Panic e) <->
  p = None \/ exists k, p = Some k /\ Key k = None.
Proof.
  unfold GetPublicKey_ptr. rewrite on_ptr_panic. split; (intros [H|(k & E1 & H)]; [auto|right; exists k; split; [exact E1|]]);
    apply (GetPublicKey_panic_iff E); exact H.
Qed.

Lemma format_ptr_panic p c : (exists e, Format_ptr p c = Panic e) <->
  p = None \/ exists k, p = Some k /\ c = true /\ PY k = None.
Proof.
  unfold Format_ptr. rewrite on_ptr_panic. split; (intros [H|(k & E1 & H)]; [auto|right; exists k; split; [exact E1|]]);
    apply (Format_panic_iff k c); exact H.
Qed.

Lemma address_ptr_panic p c : (exists e, Address_ptr p c = Panic e) <->
  p = None \/ exists k, p = Some k /\
    (c = true /\ PY k = None \/ PNetwork k = None /\ exists s bs, Format k c = Ret s /\ hex_text s bs).
Proof.
  unfold Address_ptr. rewrite on_ptr_panic. split; (intros [H|(k & E1 & H)]; [auto|right; exists k; split; [exact E1|]]);
    apply (Address_panic_iff k c); exact H.
Qed.

Lemma add_public_ptr_panic E a b c : (exists e, AddPublicKeys_ptr E a b c = Panic e) <->
  a = None \/ b = None \/ exists p q, a = Some p /\ b = Some q /\
    PNetwork p = PNetwork q /\ (PX p = None \/ PY p = None \/ PX q = None \/ PY q = None).
Proof.
  unfold AddPublicKeys_ptr. destruct a as [x|]; [destruct b as [y|]|]; cbn [on_ptr].
  - rewrite AddPublicKeys_panic_iff. split; [intros H; right; right; eauto 6|].
    intros [H|[H|(x' & y' & E1 & E2 & H)]]; try discriminate. injection E1 as <-. injection E2 as <-. exact H.
  - split; eauto.
  - split; eauto.
Qed.

(** ** Addresses and WIFs *)

Lemma wif_not_address h n k p c a m v vs w ws :
  hex_text (PrivKeyPrefix n) (v :: vs) -> hex_text (PubKeyHashPrefix m) (w :: ws) -> v <> w ->
  PrivateFromHex h (Some n) = Ret (Ok k) -> PNetwork p = Some m -> Address p c = Ret (Ok a) -> WIF k <> a.
Proof.
  intros Hn Hm Hd Hk Hp Ha E. apply (Address_success p c a m Hp) in Ha as (w' & s & bs & Hw' & _ & _ & HB).
  assert (w' = w :: ws) as -> by (apply hex_text_decode in Hm, Hw'; congruence).
  destruct (hex_decode (PrivKeyPrefix n ++ h)) as [b|e] eqn:Ed.
  - pose proof (wif_is_base58check h n k b Hk (proj2 (hex_text_decode _ _) Ed)) as HW. rewrite E in HW.
    pose proof (base58check_inj _ _ _ HW HB) as Eb. apply hex_text_decode in Hn.
    rewrite (hex_decode_app _ h _ Hn) in Ed. destruct (hex_decode h) as [hb|e]; [|discriminate].
    injection Ed as <-. injection Eb as E1 _. contradiction.
  - rewrite (PrivateFromHex_err _ _ _ Ed) in Hk. discriminate.
Qed.

Lemma wif_not_address_standard h n k p c a m :
  In n [MainNetwork; TestNetwork] -> In m [MainNetwork; TestNetwork] ->
  PrivateFromHex h (Some n) = Ret (Ok k) -> PNetwork p = Some m -> Address p c = Ret (Ok a) -> WIF k <> a.
Proof.
  intros Hn Hm.
  assert (exists v, hex_text (PrivKeyPrefix n) [v] /\ (v = x80 \/ v = xef)) as (v & Hv & Dv).
  { destruct Hn as [<-|[<-|[]]]; eexists; (split; [apply hex_text_decode; vm_compute; reflexivity|]); auto. }
  assert (exists w, hex_text (PubKeyHashPrefix m) [w] /\ (w = x00 \/ w = x6f)) as (w & Hw & Dw).
  { destruct Hm as [<-|[<-|[]]]; eexists; (split; [apply hex_text_decode; vm_compute; reflexivity|]); auto. }
  apply (wif_not_address h n k p c a m v [] w [] Hv Hw).
  destruct Dv as [->| ->], Dw as [->| ->]; discriminate.
Qed.

(** The key generated, added or multiplied gets its WIF from PrivateFromHex. *)
Lemma generated_wif_not_address rd n k rest p c a m :
  In n [MainNetwork; TestNetwork] -> In m [MainNetwork; TestNetwork] ->
  GeneratePrivateKey (Some n) rd = Ret (k, rest) -> PNetwork p = Some m -> Address p c = Ret (Ok a) -> WIF k <> a.
Proof.
  intros Hn Hm H. apply GeneratePrivateKey_success in H as (n' & v & E & _ & _ & _ & H). injection E as <-.
  apply (wif_not_address_standard _ _ _ _ _ _ _ Hn Hm H).
Qed.

Lemma combined_wif_not_address op x y n k p c a m :
  In n [MainNetwork; TestNetwork] -> In m [MainNetwork; TestNetwork] -> KNetwork x = Some n ->
  combine op x y = Ret (Ok k) -> PNetwork p = Some m -> Address p c = Ret (Ok a) -> WIF k <> a.
Proof.
  intros Hn Hm Hx H. unfold combine in H. destruct (negb _); [discriminate|]. destruct (str_eqb _ _); [discriminate|].
  destruct (Key x), (Key y); try discriminate. rewrite Hx in H. apply (wif_not_address_standard _ _ _ _ _ _ _ Hn Hm H).
Qed.

(** One prefix for both kinds. *)
Lemma equal_prefixes : exists n h k p a, PrivKeyPrefix n = PubKeyHashPrefix n /\
  PrivateFromHex h (Some n) = Ret (Ok k) /\ PNetwork p = Some n /\ Address p true = Ret (Ok a) /\ WIF k = a.
Proof.
  set (n := Network (str "80") (str "80")). set (h := str "751e76e8199196d454941c45d1b3a323f1433bd6").
  exists n, h, (get no_key (PrivateFromHex h (Some n))), (PublicKey (Some secp_Gx) (Some secp_Gy) (Some n)),
    (WIF (get no_key (PrivateFromHex h (Some n)))).
  split; [reflexivity|]. split; [vm_compute; reflexivity|]. split; [reflexivity|]. split; [vm_compute; reflexivity|reflexivity].
Qed.
