(** * Every session computes what the arithmetic says (C93): proofs *)

From Verif Require Import GoBase GoNum Sha256 Ripemd160 Base58 GoRand Model HexFacts NumFacts Spec SpecFacts PrivFacts CombFacts GenFacts PrivProps.
From Verif Require Import EcRef PubFacts Base58Facts CurveSpec EcdsaContract EcFacts PubCurve Depend SpecSession.
Local Open Scope Z_scope.

Local Opaque sha256 ripemd160 secp_P secp_N.

(** The networks of all meanings have whole-byte prefixes. *)
Definition fine (m : meaning) : Prop :=
  match m with
  | MPrivate n _ _ | MPublic n _ | MAddress n _ _ => whole_bytes n
  | _ => True
  end.

Lemma stands_at h H i m : Forall2 stands_for h H -> nth_error h i = Some m ->
  exists a, nth_error H i = Some a /\ stands_for m a.
Proof.
  intros F. revert i. induction F as [|m' a h H S F IH]; intros [|i] Hi; cbn in *; try discriminate; eauto.
  injection Hi as ->. eauto.
Qed.

Lemma stands_none h H i : Forall2 stands_for h H -> nth_error h i = None -> nth_error H i = None.
Proof. intros F. intros Hi. apply nth_error_None. apply nth_error_None in Hi. assert (length h = length H) by (clear Hi; induction F; cbn; congruence). lia. Qed.

Lemma fine_at h i m : Forall fine h -> nth_error h i = Some m -> fine m.
Proof. intros F Hi. apply nth_error_In in Hi. rewrite Forall_forall in F. auto. Qed.

Lemma private_of_hex t n v bs : hex_text (PrivKeyPrefix n) [v] -> hex_text t bs -> 1 <= bytes_number bs < n256k1 ->
  exists k, PrivateFromHex t (Some n) = Ret (Ok k) /\ stands_for (MPrivate n v bs) (APrivate k).
Proof.
  intros Hv Ht R. pose proof (hex_text_app _ _ _ _ Hv Ht) as A. cbn [app] in A.
  pose proof (proj1 (hex_text_decode _ _) A) as D. pose proof (PrivateFromHex_ok _ _ _ D) as K.
  eexists. split; [exact K|]. exists (PrivateKey (set_string16 t) t (b58encode ((v :: bs) ++ checksum4 (v :: bs))) (Some n)).
  cbn [Key Hex WIF KNetwork]. split; [reflexivity|]. split.
  - rewrite (set_string16_decode t bs).
    + rewrite bytes_number_set_bytes. reflexivity.
    + intros ->. inversion Ht. subst. cbn in R. lia.
    + apply hex_text_decode. exact Ht.
  - split; [exact R|]. split; [exact Ht|]. split; [apply base58check_encode; reflexivity|reflexivity].
Qed.

Lemma private_of_wif t n v bs : base58check (v :: bs) t -> 1 <= bytes_number bs < n256k1 ->
  exists k, PrivateFromWIF t (Some n) = Ret (Ok k) /\ stands_for (MPrivate n v bs) (APrivate k).
Proof.
  intros Ht R.
  exists (PrivateKey (Some (bytes_number bs)) (hex_encode bs) t (Some n)). split.
  - apply PrivateFromWIF_exact. exists v, bs. cbn [Key Hex WIF KNetwork].
    split; [exact Ht|]. split; [reflexivity|]. split; [reflexivity|]. split; [apply hex_text_encode|].
    split; [apply lower_case_hex_encode|]. destruct bs; [cbn in R; lia|reflexivity].
  - eexists. split; [reflexivity|]. cbn [Key Hex WIF KNetwork]. repeat (split; [first [reflexivity|exact R|apply hex_text_encode|exact Ht]|]). reflexivity.
Qed.

Lemma even_bytes_range z bs : even_bytes (z mod n256k1) bs -> bytes_number bs = z mod n256k1 /\ 1 <= bytes_number bs < n256k1.
Proof.
  intros (s & S & T). assert (Hr : 0 <= z mod n256k1 < n256k1) by (apply Z.mod_pos_bound; reflexivity).
  pose proof (proj1 (shortest_hex_sprintf _ _) S) as [_ Es].
  assert (B : bytes_number bs = z mod n256k1).
  { destruct S as (L & Hn & _). assert (Ns : s <> []) by (destruct Hn; assumption).
    apply hex_text_decode in T. pose proof (set_string16_decode _ _ Ns T) as A.
    rewrite bytes_number_set_bytes. apply hex_number_set_string in Hn as (_ & _ & Hn). congruence. }
  split; [exact B|]. assert (z mod n256k1 <> 0); [|lia]. intros Z0. rewrite Z0 in Es. 
  subst s. change (sprintf_x 0) with (str "0") in T. inversion T.
Qed.

Lemma look_alike_iff v1 b1 v2 b2 s t : base58check (v1 :: b1) s -> base58check (v2 :: b2) t ->
  (look_alike v1 b1 v2 b2 <-> equal_up_to_case s t).
Proof.
  intros Hs Ht. split.
  - intros (s' & t' & Hs' & Ht' & Q). rewrite (base58check_fun _ _ _ Hs Hs'), (base58check_fun _ _ _ Ht Ht'). exact Q.
  - intros Q. exists s, t. auto.
Qed.

Lemma even_bytes_iff z : 0 <= z -> forall s, shortest_hex s z ->
  ((exists bs, even_bytes z bs) <-> Nat.odd (length s) = false).
Proof.
  intros Hz s S. split.
  - intros (bs & s' & S' & T). apply shortest_hex_sprintf in S, S'. destruct S as [_ ->], S' as [_ ->].
    destruct (proj1 (hex_text_iff _) (ex_intro _ bs T)) as [H _]. rewrite <- Nat.negb_even, H. reflexivity.
  - intros O. assert (X : exists bs, hex_text s bs).
    { apply hex_text_iff. split; [rewrite <- Nat.negb_odd, O; reflexivity|].
      destruct S as (_ & (_ & ds & F & _) & _). clear -F. induction F; constructor; eauto. }
    destruct X as [bs T]. exists bs, s. auto.
Qed.

Lemma shortest_exists z : 0 <= z -> shortest_hex (sprintf_x z) z.
Proof. intros H. apply shortest_hex_sprintf. auto. Qed.

(** ** Sums and products of private keys *)

Lemma combined_forward f n1 v1 b1 n2 v2 b2 a b m :
  whole_bytes n1 -> stands_for (MPrivate n1 v1 b1) (APrivate a) -> stands_for (MPrivate n2 v2 b2) (APrivate b) ->
  combined f n1 v1 b1 n2 v2 b2 m ->
  exists c, private_answer (combine f a b) = Ret c /\ stands_for m c /\ fine m.
Proof.
  intros ((v & Hv) & Hp) (a' & Ea & Ka & Ra & Ha & Wa & Na) (b' & Eb & Kb & Rb & Hb & Wb & Nb).
  injection Ea as <-. injection Eb as <-.
  destruct (combine_outcome f a b n1 n2 [v] _ _ Na Nb Hv Ka Kb) as (C1 & C2 & C3).
  pose proof (look_alike_iff _ _ _ _ _ _ Wa Wb) as L.
  set (z := f (bytes_number b1) (bytes_number b2)) in *. 
  assert (Hz : 0 <= z mod n256k1) by (apply Z.mod_pos_bound; reflexivity).
  rewrite <- n256k1_N in C3. unfold combined. cbv zeta. fold z.
  intros [(Hn & ->)|[(Hn & A & ->)|[(Hn & A & X & ->)|(Hn & A & v' & bs & Hv' & X & ->)]]].
  - rewrite (C1 Hn). eexists. split; [reflexivity|split; [reflexivity|exact I]].
  - rewrite (C2 Hn (proj1 L A)). eexists. split; [reflexivity|split; [reflexivity|exact I]].
  - pose proof (shortest_exists _ Hz) as S. rewrite (even_bytes_iff _ Hz _ S) in X.
    destruct (C3 Hn (fun Q => A (proj2 L Q)) _ S) as [C4 _]. rewrite C4.
    + eexists. split; [reflexivity|split; [reflexivity|exact I]].
    + destruct (Nat.odd _); congruence.
  - pose proof X as (s & S & T). pose proof (even_bytes_range _ _ X) as (B & R).
    pose proof (proj1 (even_bytes_iff _ Hz _ S) (ex_intro _ bs X)) as O.
    destruct (C3 Hn (fun Q => A (proj2 L Q)) _ S) as [_ C4]. destruct (C4 O) as [c Hc].
    destruct (combine_success _ _ _ _ Hc) as (x & y & Kx & Ky & _ & Kc & Nc & Sc & Pc).
    assert (x = bytes_number b1) by congruence. assert (y = bytes_number b2) by congruence. subst x y.
    rewrite <- n256k1_N in Sc. fold z in Sc.
    assert (Hex c = s) by (apply shortest_hex_sprintf in S, Sc; destruct S, Sc; congruence). subst s.
    destruct (private_of_hex _ _ _ _ Hv' T R) as (c' & Pc' & St). rewrite Na, Pc' in Pc. injection Pc as ->.
    rewrite Hc. eexists. split; [reflexivity|]. split; [exact St|]. split; [exists v; exact Hv|exact Hp].
Qed.

Lemma combined_total f n1 v1 b1 n2 v2 b2 a b :
  whole_bytes n1 -> stands_for (MPrivate n1 v1 b1) a -> stands_for (MPrivate n2 v2 b2) b ->
  exists m, combined f n1 v1 b1 n2 v2 b2 m.
Proof.
  intros ((v & Hv) & _) (a' & _ & _ & _ & _ & Wa & _) (b' & _ & _ & _ & _ & Wb & _).
  pose proof (look_alike_iff _ _ _ _ _ _ Wa Wb) as L. unfold combined. cbv zeta.
  set (z := f (bytes_number b1) (bytes_number b2)).
  assert (Hz : 0 <= z mod n256k1) by (apply Z.mod_pos_bound; reflexivity).
  destruct (net_eqb (Some n1) (Some n2)) eqn:En.
  2:{ eexists. left. split; [|reflexivity]. intros ->. rewrite (proj2 (net_eqb_eq (Some n2) (Some n2)) eq_refl) in En. discriminate. }
  apply net_eqb_eq in En. injection En as <-. rewrite equal_up_to_case_lower in L.
  destruct (list_eq_dec Byte.byte_eq_dec (to_lower (WIF a')) (to_lower (WIF b'))) as [Q|Q].
  { eexists. right. left. split; [reflexivity|]. split; [apply L, Q|reflexivity]. }
  pose proof (even_bytes_iff _ Hz _ (shortest_exists _ Hz)) as X.
  destruct (Nat.odd (length (sprintf_x (z mod n256k1)))).
  - eexists. right. right. left. split; [reflexivity|]. split; [rewrite L; exact Q|].
    split; [|reflexivity]. rewrite X. discriminate.
  - destruct (proj2 X eq_refl) as [bs Hbs]. eexists. right. right. right. split; [reflexivity|].
    split; [rewrite L; exact Q|]. exists v, bs. auto.
Qed.

(** ** Public keys *)

Section WithLib.
Context (E : ecdsa_lib) (HE : ecdsa_contract E).

Definition stand_in (z : Z) (n : network) : private_key := PrivateKey (Some z) [] [] (Some n).

Lemma point_curve z q : point_of z q -> curve_point q.
Proof.
  intros (R & M). destruct (GetPublicKey_range E HE (stand_in z MainNetwork) z eq_refl R) as (x & y & _ & C & M').
  assert (Q : Some q = Some (x, y)); [|injection Q as ->; exact C].
  apply (multiple_fun (Some G256k1) z); [exact G_point|lia|exact M|exact M'].
Qed.

Lemma stand_in_public z n x y : point_of z (x, y) -> GetPublicKey E (stand_in z n) = Ret (Some (PublicKey (Some x) (Some y) (Some n))).
Proof.
  intros (R & M). destruct (GetPublicKey_range E HE (stand_in z n) z eq_refl R) as (x' & y' & K & C & M').
  assert (Q : Some (x, y) = Some (x', y')); [|injection Q as -> ->; exact K].
  apply (multiple_fun (Some G256k1) z); [exact G_point|lia|exact M|exact M'].
Qed.

Lemma point_exists z : 1 <= z < n256k1 -> exists x y, point_of z (x, y).
Proof.
  intros R. destruct (GetPublicKey_range E HE (stand_in z MainNetwork) z eq_refl R) as (x & y & _ & _ & M).
  exists x, y. split; assumption.
Qed.

Lemma point_bounds x y : curve_point (x, y) -> 0 <= x < 2 ^ 256 /\ 0 <= y < 2 ^ 256.
Proof.
  intros (X & Y & _). cbn [fst snd] in *. assert (p256k1 < 2 ^ 256) by reflexivity. lia.
Qed.

Lemma import_text t bs c x y n : hex_text t bs -> sec1 c x y bs -> curve_point (x, y) ->
  PublicFromHex E t (Some n) = Ret (Ok (PublicKey (Some x) (Some y) (Some n))).
Proof.
  intros T S C. destruct (point_bounds _ _ C) as [X Y].
  destruct (Format_sec1 x y (Some n) c X Y) as (s & bs' & F & S' & T' & _).
  rewrite (sec1_fun _ _ _ _ _ S' S) in T'.
  rewrite (public_case E t s).
  - apply (export_import E HE (PublicKey (Some x) (Some y) (Some n)) c); [|exact F]. exists x, y. auto.
  - apply equal_up_to_case_lower. apply hex_text_decode in T, T'.
    rewrite <- (hex_encode_decode _ _ T), <- (hex_encode_decode _ _ T'). reflexivity.
Qed.

Lemma add_forward n x y x1 y1 x2 y2 c : point_of x (x1, y1) -> point_of y (x2, y2) ->
  let p := PublicKey (Some x1) (Some y1) (Some n) in let q := PublicKey (Some x2) (Some y2) (Some n) in
  ((x + y) mod n256k1 = 0 -> AddPublicKeys E p q c = Ret (Err ENotOnCurve)) /\
  ((x + y) mod n256k1 <> 0 -> exists x3 y3, AddPublicKeys E p q c = Ret (Ok (PublicKey (Some x3) (Some y3) (Some n))) /\
     point_of ((x + y) mod n256k1) (x3, y3)).
Proof.
  intros P Q p q. pose proof P as (RP & _). pose proof Q as (RQ & _).
  pose proof (add_homomorphic E HE (stand_in x n) (stand_in y n) (stand_in ((x + y) mod n256k1) n) x y p q c
    eq_refl eq_refl ltac:(lia) ltac:(lia) eq_refl eq_refl eq_refl (stand_in_public _ _ _ _ P) (stand_in_public _ _ _ _ Q)) as A.
  assert (R : 0 <= (x + y) mod n256k1 < n256k1) by (apply Z.mod_pos_bound; reflexivity).
  split; intros Hz; rewrite A.
  - rewrite (GetPublicKey_infinity E HE (stand_in ((x + y) mod n256k1) n) ((x + y) mod n256k1)); [reflexivity|reflexivity|lia|].
    rewrite Hz. apply Z.divide_0_r.
  - destruct (point_exists ((x + y) mod n256k1)) as (x3 & y3 & H3); [lia|]. exists x3, y3.
    rewrite (stand_in_public _ _ _ _ H3). auto.
Qed.

(** ** One request *)

(** The operand at position [i]: its meaning, and an answer that stands for it. *)
Ltac operand F h i :=
  let m := fresh "m" in let Em := fresh "Em" in let a := fresh "a" in let Ea := fresh "Ea" in let S := fresh "S" in
  destruct (nth_error h i) as [m|] eqn:Em;
  [destruct (stands_at _ _ _ _ F Em) as (a & Ea & S); try rewrite Ea; destruct m
  |try rewrite (stands_none _ _ _ F Em)].

(** Answers of another kind are of no use. *)
Ltac unfit_operand :=
  repeat match goal with
         | S : stands_for _ _ |- _ => cbn [stands_for] in S
         | S : exists _, _ |- _ => destruct S
         | S : _ /\ _ |- _ => destruct S
         end;
  subst; eexists; split; [reflexivity|split; [reflexivity|exact I]].

Lemma reply_forward h H r m : Forall2 stands_for h H -> Forall fine h -> sensible r -> meant h r m ->
  exists a, reply E H r = Ret a /\ stands_for m a /\ fine m.
Proof.
  intros F W Hr M. destruct r as [n|t n|t n|t n|i n|i n|i j|i j|i|i j c|i c|i n|i c]; cbn [meant reply sensible] in *.
  - destruct M.
  - destruct Hr as (Wn & bs' & T' & R). destruct M as (v & bs & Hv & T & ->).
    rewrite (hex_text_fun _ _ _ T' T) in R. destruct (private_of_hex _ _ _ _ Hv T R) as (k & -> & S).
    eexists. split; [reflexivity|]. split; [exact S|exact Wn].
  - destruct Hr as (Wn & v' & bs' & T' & R). destruct M as (v & bs & T & ->).
    pose proof (base58check_inj _ _ _ T' T) as Q. injection Q as -> ->.
    destruct (private_of_wif _ n _ _ T R) as (k & -> & S).
    eexists. split; [reflexivity|]. split; [exact S|exact Wn].
  - destruct Hr as (Wn & _). destruct M as (c & x & y & bs & z & T & S & P & ->).
    rewrite (import_text _ _ _ _ _ _ T S (point_curve _ _ P)).
    eexists. split; [reflexivity|]. split; [|exact Wn]. exists x, y. auto.
  - operand F h i; try (subst m; unfit_operand).
    destruct S as (k & -> & _ & R & T & _ & _). destruct M as (v' & Hv & ->).
    destruct (private_of_hex _ _ _ _ Hv T R) as (k' & -> & S).
    eexists. split; [reflexivity|]. split; [exact S|exact Hr].
  - operand F h i; try (subst m; unfit_operand).
    destruct S as (k & -> & _ & R & _ & T & _). subst m.
    destruct (private_of_wif _ n _ _ T R) as (k' & -> & S).
    eexists. split; [reflexivity|]. split; [exact S|exact Hr].
  - operand F h i; try (subst m; unfit_operand).
    operand F h j; try (subst m; unfit_operand).
    pose proof S as (k & -> & _). pose proof S0 as (k0 & -> & _). rewrite Add_combine.
    exact (combined_forward _ _ _ _ _ _ _ _ _ _ (fine_at _ _ _ W Em) S S0 M).
  - operand F h i; try (subst m; unfit_operand).
    operand F h j; try (subst m; unfit_operand).
    pose proof S as (k & -> & _). pose proof S0 as (k0 & -> & _). rewrite Mul_combine.
    exact (combined_forward _ _ _ _ _ _ _ _ _ _ (fine_at _ _ _ W Em) S S0 M).
  - operand F h i; try (subst m; unfit_operand).
    destruct S as (k & -> & K & R & _ & _ & Kn). subst m.
    destruct (GetPublicKey_range E HE k _ K R) as (x & y & -> & C & P). rewrite Kn.
    eexists. split; [reflexivity|]. split; [|exact (fine_at _ _ _ W Em)]. exists x, y. split; [reflexivity|split; assumption].
  - operand F h i; try (subst m; unfit_operand).
    operand F h j; try (subst m; unfit_operand).
    destruct S as (x1 & y1 & -> & P). destruct S0 as (x2 & y2 & -> & Q).
    destruct M as [(Hn & ->)|[(<- & Hz & ->)|(<- & Hz & ->)]].
    + rewrite (AddPublicKeys_networks E); [|cbn; congruence]. eexists. split; [reflexivity|split; [reflexivity|exact I]].
    + destruct (add_forward n _ _ _ _ _ _ c P Q) as [A _]. rewrite (A Hz). eexists. split; [reflexivity|split; [reflexivity|exact I]].
    + destruct (add_forward n _ _ _ _ _ _ c P Q) as [_ A]. destruct (A Hz) as (x3 & y3 & -> & P3).
      eexists. split; [reflexivity|]. split; [|exact (fine_at _ _ _ W Em)]. exists x3, y3. auto.
  - operand F h i; try (subst m; unfit_operand).
    destruct S as (x & y & -> & P). subst m. destruct (point_bounds _ _ (point_curve _ _ P)) as [X Y].
    destruct (Format_sec1 x y (Some n) c X Y) as (s & bs & -> & S & T & _).
    eexists. split; [reflexivity|]. split; [|exact I]. exists x, y, bs, s. auto.
  - operand F h i; try (subst m; unfit_operand).
    destruct S as (x & y & bs & s & -> & P & S & T). subst m.
    rewrite (import_text _ _ _ _ _ _ T S (point_curve _ _ P)).
    eexists. split; [reflexivity|]. split; [|exact Hr]. exists x, y. auto.
  - operand F h i; try (subst m; unfit_operand).
    destruct S as (x & y & -> & P). subst m. destruct (point_bounds _ _ (point_curve _ _ P)) as [X Y].
    pose proof (fine_at _ _ _ W Em) as Wn. pose proof Wn as (_ & p & Hp).
    destruct (Address_base58check x y n p c X Y Hp) as (s & bs & -> & S & T & _).
    eexists. split; [reflexivity|]. split; [|exact Wn]. exists x, y, bs, p, s. auto.
Qed.

Lemma reply_total h H r : Forall2 stands_for h H -> Forall fine h -> sensible r ->
  match r with Generate _ => False | _ => True end -> exists m, meant h r m.
Proof.
  intros F W Hr G. destruct r as [n|t n|t n|t n|i n|i n|i j|i j|i|i j c|i c|i n|i c]; cbn [meant sensible] in *.
  - destruct G.
  - destruct Hr as (((v & Hv) & _) & bs & T & _). eexists. exists v, bs. eauto.
  - destruct Hr as (_ & v & bs & T & _). eexists. exists v, bs. eauto.
  - destruct Hr as (_ & c & x & y & bs & C & S & T). destruct (every_point_once _ C) as (z & R & P & _).
    eexists. exists c, x, y, bs, z. split; [exact T|]. split; [exact S|]. split; [split; assumption|reflexivity].
  - destruct Hr as ((v & Hv) & _). destruct (nth_error h i) as [[n' v' bs| | | | |]|]; eauto.
  - destruct (nth_error h i) as [[n' v' bs| | | | |]|]; eauto.
  - operand F h i; eauto. destruct (nth_error h j) as [[]|] eqn:Em'; eauto.
    destruct (stands_at _ _ _ _ F Em') as (b & _ & S'). exact (combined_total _ _ _ _ _ _ _ _ _ (fine_at _ _ _ W Em) S S').
  - operand F h i; eauto. destruct (nth_error h j) as [[]|] eqn:Em'; eauto.
    destruct (stands_at _ _ _ _ F Em') as (b & _ & S'). exact (combined_total _ _ _ _ _ _ _ _ _ (fine_at _ _ _ W Em) S S').
  - destruct (nth_error h i) as [[]|]; eauto.
  - destruct (nth_error h i) as [[|n1 x| | | |]|]; eauto. destruct (nth_error h j) as [[|n2 y| | | |]|]; eauto.
    destruct (net_eqb (Some n1) (Some n2)) eqn:En.
    2:{ eexists. left. split; [|reflexivity]. intros ->. rewrite (proj2 (net_eqb_eq (Some n2) (Some n2)) eq_refl) in En. discriminate. }
    apply net_eqb_eq in En. injection En as <-.
    destruct (Z.eq_dec ((x + y) mod n256k1) 0); eauto 6.
  - destruct (nth_error h i) as [[]|]; eauto.
  - destruct (nth_error h i) as [[]|]; eauto.
  - destruct (nth_error h i) as [[]|]; eauto.
Qed.

Lemma perform_forward h H r rd m rest : Forall2 stands_for h H -> Forall fine h -> sensible r ->
  meant_next h r rd m rest -> exists a, perform E H r rd = Ret (a, rest) /\ stands_for m a /\ fine m.
Proof.
  intros F W Hr M.
  destruct r as [n|t n|t n|t n|i n|i n|i j|i j|i|i j c|i c|i n|i c];
    try (destruct M as (-> & M); destruct (reply_forward _ _ _ _ F W Hr M) as (a & Ea & S);
         exists a; unfold perform; rewrite Ea; auto).
  destruct M as (v & bs & B & L & Hv & ->). cbn [perform].
  rewrite n256k1_N in B. pose proof (first_block_good _ _ _ _ _ B) as G. cbv beta in G.
  pose proof (GeneratePrivateKey_spec n [v] rd Hv) as K. destruct (GeneratePrivateKey (Some n) rd) as [(k & rest')|p] eqn:Eg.
  - destruct K as (z & B' & Kk & Hk & P). destruct (first_block_fun _ _ _ _ _ _ _ B B') as [<- <-].
    pose proof (generated_wellformed _ _ _ _ Eg) as (z & Kz & Rz & Lz & Lc & Hn & _ & _).
    assert (z = bytes_number bs) by congruence. subst z.
    assert (T : hex_text (Hex k) bs).
    { destruct (proj2 (hex_text_iff (Hex k))) as [bs' T].
      - split; [rewrite Lz; reflexivity|]. destruct Hn as (_ & ds & F' & _). clear -F'. induction F'; constructor; eauto.
      - assert (Lb : length bs' = 32%nat).
        { rewrite (hex_text_lower _ _ T Lc), hex_encode_length in Lz. lia. }
        assert (Ns : Hex k <> []) by (destruct Hn; assumption).
        pose proof (set_string16_decode _ _ Ns (proj1 (hex_text_decode _ _) T)) as A.
        apply hex_number_set_string in Hn as (_ & _ & Hn). rewrite <- bytes_number_set_bytes in A.
        rewrite <- (bytes_number_inj bs' bs); [exact T|congruence|congruence]. }
    assert (R : 1 <= bytes_number bs < n256k1).
    { rewrite n256k1_N. assert (1 <= 2 ^ 252) by discriminate. lia. }
    destruct (private_of_hex _ _ _ _ Hv T R) as (k' & P' & S). rewrite Hk, P in P'. injection P' as <-.
    eexists. split; [reflexivity|]. split; [exact S|exact Hr].
  - destruct K as (_ & K). destruct (K _ _ B).
Qed.

Lemma perform_total h H r rd : Forall2 stands_for h H -> Forall fine h -> sensible r ->
  (exists m rest, meant_next h r rd m rest) \/
  (perform E H r rd = Panic PRand /\ forall m rest, ~ meant_next h r rd m rest).
Proof.
  intros F W Hr.
  destruct r as [n|t n|t n|t n|i n|i n|i j|i j|i|i j c|i c|i n|i c];
    try (left; destruct (reply_total _ _ _ F W Hr I) as [m M]; exists m, rd; split; [reflexivity|exact M]).
  pose proof Hr as ((v & Hv) & _).
  pose proof (GeneratePrivateKey_spec n [v] rd Hv) as K. cbn [perform].
  destruct (GeneratePrivateKey (Some n) rd) as [(k & rest')|p] eqn:Eg.
  - destruct K as (z & B & _). left. 
    destruct (octets_exist 32 z (first_block_range _ _ _ _ _ B)) as (bs & L & Nz).
    exists (MPrivate n v bs), rest', v, bs. rewrite n256k1_N. split; [|auto]. rewrite Nz. exact B.
  - destruct K as (-> & K). right. split; [reflexivity|]. intros m rest (v' & bs & B & _). rewrite n256k1_N in B.
    exact (K _ _ B).
Qed.

(** ** All requests *)

Lemma session_forward h rs rd ms rest : meant_all h rs rd ms rest -> forall H, Forall2 stands_for h H -> Forall fine h ->
  Forall sensible rs -> exists answers, session E H rs rd = Ret (answers, rest) /\ Forall2 stands_for ms answers.
Proof.
  induction 1 as [h rd|h r rs rd m rest h' rest' M _ IH]; intros H F W Hr; cbn [session].
  - eauto.
  - inversion Hr as [|? ? Hr1 Hr2]; subst. destruct (perform_forward _ _ _ _ _ _ F W Hr1 M) as (a & -> & S & Wm).
    apply IH; [apply Forall2_app; auto|apply Forall_app; auto|exact Hr2].
Qed.

Lemma session_total rs : forall h H rd, Forall2 stands_for h H -> Forall fine h -> Forall sensible rs ->
  (exists ms rest, meant_all h rs rd ms rest) \/
  (session E H rs rd = Panic PRand /\ forall ms rest, ~ meant_all h rs rd ms rest).
Proof.
  induction rs as [|r rs IH]; intros h H rd F W Hr.
  - left. exists h, rd. constructor.
  - inversion Hr as [|? ? Hr1 Hr2]; subst. cbn [session].
    destruct (perform_total _ _ _ rd F W Hr1) as [(m & rest & M)|(Ep & Hm)].
    2:{ right. rewrite Ep. split; [reflexivity|]. intros ms rest A. inversion A; subst. eapply Hm. eassumption. }
    destruct (perform_forward _ _ _ _ _ _ F W Hr1 M) as (a & Ea & S & Wm). rewrite Ea.
    destruct (IH (h ++ [m]) (H ++ [a]) rest) as [(ms & rest' & A)|(Es & Hs)];
      [apply Forall2_app; auto|apply Forall_app; auto|exact Hr2| |].
    + left. exists ms, rest'. econstructor; eassumption.
    + right. split; [exact Es|]. intros ms rest'' A. 
      destruct (session_forward _ _ _ _ _ A H F W Hr) as (an & Ean & _). cbn [session] in Ean. rewrite Ea, Es in Ean. discriminate.
Qed.

(** ** The meanings are determined *)

Lemma even_bytes_fun z a b : even_bytes z a -> even_bytes z b -> a = b.
Proof.
  intros (s & S & T) (s' & S' & T'). apply shortest_hex_sprintf in S, S'. destruct S as [_ ->], S' as [_ ->].
  exact (hex_text_fun _ _ _ T T').
Qed.

Lemma combined_fun f n1 v1 b1 n2 v2 b2 m m' : combined f n1 v1 b1 n2 v2 b2 m -> combined f n1 v1 b1 n2 v2 b2 m' -> m = m'.
Proof.
  unfold combined. cbv zeta.
  intros [(A & ->)|[(A & B & ->)|[(A & B & C & ->)|(A & B & v & bs & C & D & ->)]]]
         [(A' & ->)|[(A' & B' & ->)|[(A' & B' & C' & ->)|(A' & B' & v' & bs' & C' & D' & ->)]]];
    try reflexivity; try contradiction; try (exfalso; eauto; fail).
  pose proof (hex_text_fun _ _ _ C C') as Q. injection Q as ->. rewrite (even_bytes_fun _ _ _ D D'). reflexivity.
Qed.

Lemma meant_fun h r m m' : meant h r m -> meant h r m' -> m = m'.
Proof.
  destruct r as [n|t n|t n|t n|i n|i n|i j|i j|i|i j c|i c|i n|i c]; cbn [meant].
  - contradiction.
  - intros (v & bs & C & D & ->) (v' & bs' & C' & D' & ->).
    pose proof (hex_text_fun _ _ _ C C') as Q. injection Q as ->. rewrite (hex_text_fun _ _ _ D D'). reflexivity.
  - intros (v & bs & C & ->) (v' & bs' & C' & ->).
    pose proof (base58check_inj _ _ _ C C') as Q. injection Q as -> ->. reflexivity.
  - intros (c & x & y & bs & z & T & S & P & ->) (c' & x' & y' & bs' & z' & T' & S' & P' & ->).
    pose proof (import_text _ _ _ _ _ n T S (point_curve _ _ P)) as I1.
    pose proof (import_text _ _ _ _ _ n T' S' (point_curve _ _ P')) as I2.
    rewrite I1 in I2. injection I2 as <- <-.
    destruct (every_point_once _ (point_curve _ _ P)) as (k & _ & _ & U). destruct P as (R & M), P' as (R' & M').
    rewrite (U _ R M), (U _ R' M'). reflexivity.
  - destruct (nth_error h i) as [[]|]; try congruence. intros (v' & C & ->) (v'' & C' & ->).
    pose proof (hex_text_fun _ _ _ C C') as Q. injection Q as ->. reflexivity.
  - destruct (nth_error h i) as [[]|]; congruence.
  - destruct (nth_error h i) as [[]|], (nth_error h j) as [[]|]; try congruence. apply combined_fun.
  - destruct (nth_error h i) as [[]|], (nth_error h j) as [[]|]; try congruence. apply combined_fun.
  - destruct (nth_error h i) as [[]|]; congruence.
  - destruct (nth_error h i) as [[]|], (nth_error h j) as [[]|]; try congruence.
    intros [(A & ->)|[(A & B & ->)|(A & B & ->)]] [(A' & ->)|[(A' & B' & ->)|(A' & B' & ->)]]; congruence.
  - destruct (nth_error h i) as [[]|]; congruence.
  - destruct (nth_error h i) as [[]|]; congruence.
  - destruct (nth_error h i) as [[]|]; congruence.
Qed.

Lemma meant_next_fun h r rd m rest m' rest' : meant_next h r rd m rest -> meant_next h r rd m' rest' -> m = m' /\ rest = rest'.
Proof.
  destruct r as [n|t n|t n|t n|i n|i n|i j|i j|i|i j c|i c|i n|i c];
    try (intros (-> & A) (-> & B); split; [exact (meant_fun _ _ _ _ A B)|reflexivity]).
  intros (v & bs & B & L & C & ->) (v' & bs' & B' & L' & C' & ->).
  destruct (first_block_fun _ _ _ _ _ _ _ B B') as [Q ->]. rewrite (bytes_number_inj bs bs'); [|congruence|exact Q].
  pose proof (hex_text_fun _ _ _ C C') as Q'. injection Q' as ->. auto.
Qed.

Lemma meant_all_fun h rs rd ms rest : meant_all h rs rd ms rest -> forall ms' rest', meant_all h rs rd ms' rest' -> ms = ms' /\ rest = rest'.
Proof.
  induction 1 as [h rd|h r rs rd m rest h' rest' M _ IH]; intros ms2 rest2 A; inversion A; subst; [auto|].
  match goal with M2 : meant_next _ _ _ _ _ |- _ => destruct (meant_next_fun _ _ _ _ _ _ _ M M2) as [<- <-] end. auto.
Qed.

(** C93 *)
Lemma session_exact rs rd : Forall sensible rs ->
  (forall ms rest, meant_all [] rs rd ms rest ->
     exists answers, session E [] rs rd = Ret (answers, rest) /\ Forall2 stands_for ms answers) /\
  (forall answers rest, session E [] rs rd = Ret (answers, rest) ->
     exists ms, meant_all [] rs rd ms rest /\ Forall2 stands_for ms answers) /\
  (forall p, session E [] rs rd = Panic p -> p = PRand /\ forall ms rest, ~ meant_all [] rs rd ms rest).
Proof.
  intros Hr. assert (A : forall ms rest, meant_all [] rs rd ms rest ->
     exists answers, session E [] rs rd = Ret (answers, rest) /\ Forall2 stands_for ms answers).
  { intros ms rest M. exact (session_forward _ _ _ _ _ M [] (Forall2_nil _) (Forall_nil _) Hr). }
  split; [exact A|].
  destruct (session_total rs [] [] rd (Forall2_nil _) (Forall_nil _) Hr) as [(ms & rest & M)|(Ep & Hm)].
  - destruct (A _ _ M) as (an & Ean & S). split; [|congruence].
    intros an' rest' Q. rewrite Ean in Q. injection Q as <- <-. eauto.
  - split; [congruence|]. intros p Q. split; [congruence|exact Hm].
Qed.
End WithLib.
