(** * What results depend on; letter case; mistyped signs; split keys (C87-C91) *)

From Coq Require Import Permutation.
From Verif Require Import GoBase GoNum Sha256 Ripemd160 Base58 GoRand Model HexFacts NumFacts Spec SpecMore SpecFacts PrivFacts CombFacts GenFacts PrivProps.
From Verif Require Import EcRef PubFacts Base58Facts Primes NumTheory CurveSpec Curve CurveMul CurveGroup EcdsaContract EcFacts PubCurve RestatePriv Uniform Algebra Workflow Witness.
Local Open Scope Z_scope.
Local Opaque sha256 ripemd160 secp_P secp_N.

(** ** C87: fields that are not looked at *)

Lemma combine_fields op a b a' b' :
  Key a = Key a' -> equal_up_to_case (WIF a) (WIF a') -> KNetwork a = KNetwork a' ->
  Key b = Key b' -> equal_up_to_case (WIF b) (WIF b') -> KNetwork b = KNetwork b' ->
  combine op a b = combine op a' b'.
Proof.
  intros Ka Wa Na Kb Wb Nb. apply equal_up_to_case_lower in Wa, Wb.
  unfold combine. rewrite Ka, Wa, Na, Kb, Wb, Nb. reflexivity.
Qed.

Lemma combine_wif_only_refuses op a b a' b' c c' :
  Key a = Key a' -> KNetwork a = KNetwork a' -> Key b = Key b' -> KNetwork b = KNetwork b' ->
  combine op a b = Ret (Ok c) -> combine op a' b' = Ret (Ok c') -> c = c'.
Proof.
  intros Ka Na Kb Nb H H'.
  unfold combine in H, H'. rewrite Ka, Na, Kb, Nb in H.
  destruct (negb (net_eqb _ _)); [discriminate|].
  destruct (str_eqb (to_lower (WIF a)) _); [discriminate|].
  destruct (str_eqb (to_lower (WIF a')) _); [discriminate|].
  rewrite H in H'. congruence.
Qed.

Lemma sums_fields a b a' b' :
  Key a = Key a' -> equal_up_to_case (WIF a) (WIF a') -> KNetwork a = KNetwork a' ->
  Key b = Key b' -> equal_up_to_case (WIF b) (WIF b') -> KNetwork b = KNetwork b' ->
  AddPrivateKeys a b = AddPrivateKeys a' b' /\ MultiplyPrivateKeys a b = MultiplyPrivateKeys a' b'.
Proof. intros. split; [apply (combine_fields Z.add)|apply (combine_fields Z.mul)]; assumption. Qed.

Lemma wif_only_refuses a b a' b' :
  Key a = Key a' -> KNetwork a = KNetwork a' -> Key b = Key b' -> KNetwork b = KNetwork b' ->
  (forall c c', AddPrivateKeys a b = Ret (Ok c) -> AddPrivateKeys a' b' = Ret (Ok c') -> c = c') /\
  (forall c c', MultiplyPrivateKeys a b = Ret (Ok c) -> MultiplyPrivateKeys a' b' = Ret (Ok c') -> c = c').
Proof.
  intros Ka Na Kb Nb.
  split; intros c c'; [apply (combine_wif_only_refuses Z.add)|apply (combine_wif_only_refuses Z.mul)]; assumption.
Qed.

Lemma get_public_fields E a b : Key a = Key b ->
  GetPublicKey E b =
  match GetPublicKey E a with
  | Ret (Some p) => Ret (Some (PublicKey (PX p) (PY p) (KNetwork b)))
  | Ret None => Ret None
  | Panic e => Panic e
  end.
Proof.
  intros K. unfold GetPublicKey. rewrite <- K. destruct (Key a) as [k|]; [|reflexivity].
  destruct (lib_ScalarMult E k _) as [[x y] v]. destruct v; reflexivity.
Qed.

Lemma format_fields p q c : PX p = PX q -> PY p = PY q -> Format p c = Format q c.
Proof. intros X Y. unfold Format. rewrite X, Y. reflexivity. Qed.

Lemma address_fields p q n m c : PX p = PX q -> PY p = PY q -> PNetwork p = Some n -> PNetwork q = Some m ->
  PubKeyHashPrefix n = PubKeyHashPrefix m -> Address p c = Address q c.
Proof.
  intros X Y Np Nq H. unfold Address. rewrite (format_fields p q c X Y), Np, Nq, H. reflexivity.
Qed.

(** ** C88: letter case *)

Lemma hex_decode_of_lower s bs : hex_decode (to_lower s) = Ok bs <-> hex_decode s = Ok bs.
Proof.
  split; [|apply hex_decode_lower].
  revert bs; induction s as [|c|c1 c2 s IH] using list_pair_ind; intros bs; cbn [hex_decode to_lower map].
  - auto.
  - rewrite fromhex_of_lower. destruct (fromhex c); discriminate.
  - rewrite !fromhex_of_lower. fold (to_lower s). destruct (fromhex c1), (fromhex c2); try discriminate.
    destruct (hex_decode (to_lower s)) as [t|e]; [|discriminate]. rewrite (IH t eq_refl). auto.
Qed.

Lemma hex_text_case s t bs : equal_up_to_case s t -> hex_text s bs -> hex_text t bs.
Proof.
  intros H. apply equal_up_to_case_lower in H. rewrite !hex_text_decode, <- (hex_decode_of_lower s), <- (hex_decode_of_lower t), H. auto.
Qed.

Lemma equal_up_to_case_sym s t : equal_up_to_case s t -> equal_up_to_case t s.
Proof. rewrite !equal_up_to_case_lower. auto. Qed.
Lemma equal_up_to_case_refl s : equal_up_to_case s s.
Proof. rewrite !equal_up_to_case_lower. auto. Qed.
Lemma equal_up_to_case_app s t u v : equal_up_to_case s t -> equal_up_to_case u v -> equal_up_to_case (s ++ u) (t ++ v).
Proof. apply Forall2_app. Qed.

Lemma set_string16_of_lower s : set_string16 (to_lower s) = set_string16 s.
Proof.
  unfold set_string16, set_string. destruct s as [|c s]; [reflexivity|].
  cbn [to_lower map]. fold (to_lower s).
  assert (D1 : byte_eqb (lower_byte c) x2d = byte_eqb c x2d) by (destruct c; reflexivity).
  assert (D2 : byte_eqb (lower_byte c) x2b = byte_eqb c x2b) by (destruct c; reflexivity).
  rewrite D1, D2. pose proof (scan_of_lower s) as S.
  pose proof (scan_of_lower (c :: s)) as S'. cbn [to_lower map] in S'. fold (to_lower s) in S'.
  destruct (byte_eqb c x2d); [|destruct (byte_eqb c x2b)].
  - rewrite S. destruct s; reflexivity.
  - rewrite S. destruct s; reflexivity.
  - rewrite S'. reflexivity.
Qed.

Lemma private_case h h' n n' k :
  equal_up_to_case h h' -> equal_up_to_case (PrivKeyPrefix n) (PrivKeyPrefix n') ->
  PrivateFromHex h (Some n) = Ret (Ok k) ->
  PrivateFromHex h' (Some n') = Ret (Ok (PrivateKey (Key k) h' (WIF k) (Some n'))).
Proof.
  intros Hh Hn H. destruct (hex_decode (PrivKeyPrefix n ++ h)) as [bs|e] eqn:D.
  2: { rewrite (PrivateFromHex_err _ _ _ D) in H. discriminate. }
  rewrite (PrivateFromHex_ok _ _ _ D) in H. injection H as <-. cbn [Key WIF].
  assert (D' : hex_decode (PrivKeyPrefix n' ++ h') = Ok bs).
  { apply hex_text_decode. apply hex_text_decode in D. eapply hex_text_case; [|exact D].
    apply equal_up_to_case_app; assumption. }
  rewrite (PrivateFromHex_ok _ _ _ D').
  apply equal_up_to_case_lower in Hh. rewrite <- (set_string16_of_lower h'), <- Hh, set_string16_of_lower. reflexivity.
Qed.

Lemma private_case_error h h' n n' :
  equal_up_to_case h h' -> equal_up_to_case (PrivKeyPrefix n) (PrivKeyPrefix n') ->
  (exists e, PrivateFromHex h (Some n) = Ret (Err e)) -> exists e, PrivateFromHex h' (Some n') = Ret (Err e).
Proof.
  intros Hh Hn [e H]. destruct (PrivateFromHex_total h' n') as [[k|e'] R]; [|eauto].
  apply (private_case h' h n' n) in R; [|apply equal_up_to_case_sym; assumption..]. congruence.
Qed.

Lemma generate_fuel_case n n' : equal_up_to_case (PrivKeyPrefix n) (PrivKeyPrefix n') ->
  forall f rd, generate_fuel f (Some n') rd =
    match generate_fuel f (Some n) rd with
    | Ret (k, rest) => Ret (PrivateKey (Key k) (Hex k) (WIF k) (Some n'), rest)
    | Panic e => Panic e
    end.
Proof.
  intros Hn. induction f as [|f IH]; intros rd; cbn [generate_fuel]; [reflexivity|].
  destruct (generateRandomBigInt rd) as [[key rd']|e]; cbn [bind]; [|reflexivity].
  destruct (negb (len (bigIntToHex (Some key)) =? 64)); [apply IH|].
  destruct (PrivateFromHex_total (bigIntToHex (Some key)) n) as [[k|e] R]; rewrite R; cbn [bind].
  - rewrite (private_case _ _ _ _ _ (equal_up_to_case_refl _) Hn R). cbn [bind Key Hex WIF KNetwork].
    destruct (PrivateFromHex_success (bigIntToHex (Some key)) n k) as [S _]. destruct (S R) as (_ & _ & _ & Hh & _).
    rewrite Hh. reflexivity.
  - destruct (private_case_error _ _ _ _ (equal_up_to_case_refl _) Hn (ex_intro _ e R)) as [e' R']. rewrite R'. cbn [bind].
    apply IH.
Qed.

Lemma generate_case n n' rd : equal_up_to_case (PrivKeyPrefix n) (PrivKeyPrefix n') ->
  GeneratePrivateKey (Some n') rd =
    match GeneratePrivateKey (Some n) rd with
    | Ret (k, rest) => Ret (PrivateKey (Key k) (Hex k) (WIF k) (Some n'), rest)
    | Panic e => Panic e
    end.
Proof. intros Hn. apply generate_fuel_case, Hn. Qed.

Lemma private_same_prefix h n n' : PrivKeyPrefix n = PrivKeyPrefix n' ->
  PrivateFromHex h (Some n') =
    match PrivateFromHex h (Some n) with
    | Ret (Ok k) => Ret (Ok (PrivateKey (Key k) (Hex k) (WIF k) (Some n')))
    | r => r
    end.
Proof.
  intros Hn. unfold PrivateFromHex. rewrite <- Hn.
  destruct (hex_decode (PrivKeyPrefix n ++ h)) as [bs|e]; cbn [bind_res]; [|reflexivity].
  destruct (slice _ 0 8) as [c|e]; cbn [bind]; [|reflexivity].
  destruct (hex_decode ((PrivKeyPrefix n ++ h) ++ c)) as [w|e]; reflexivity.
Qed.

Lemma generate_same_prefix n n' rd : PrivKeyPrefix n = PrivKeyPrefix n' ->
  GeneratePrivateKey (Some n') rd =
    match GeneratePrivateKey (Some n) rd with
    | Ret (k, rest) => Ret (PrivateKey (Key k) (Hex k) (WIF k) (Some n'), rest)
    | Panic e => Panic e
    end.
Proof. intros Hn. apply generate_case. rewrite Hn. apply equal_up_to_case_refl. Qed.

Lemma refused_networks E a b p q n m f : KNetwork a = Some n -> KNetwork b = Some m ->
  PNetwork p = Some n -> PNetwork q = Some m -> n <> m ->
  AddPrivateKeys a b = Ret (Err EDifferentNetwork) /\ MultiplyPrivateKeys a b = Ret (Err EDifferentNetwork) /\
  AddPublicKeys E p q f = Ret (Err EDifferentNetwork).
Proof.
  intros Na Nb Np Nq Hne. assert (K : net_eqb (Some n) (Some m) = false) by (apply net_eqb_neq; congruence).
  unfold AddPrivateKeys, MultiplyPrivateKeys, AddPublicKeys. rewrite Na, Nb, Np, Nq, K. auto.
Qed.

Lemma address_case p q n m c a : PX p = PX q -> PY p = PY q -> PNetwork p = Some n -> PNetwork q = Some m ->
  equal_up_to_case (PubKeyHashPrefix n) (PubKeyHashPrefix m) ->
  Address p c = Ret (Ok a) -> Address q c = Ret (Ok a).
Proof.
  intros X Y Np Nq Hn H. destruct (Address_success _ _ _ _ Np H) as (v & s & bs & Hv & Hf & Ht & Ha).
  rewrite (format_fields p q c X Y) in Hf. apply (hex_text_case _ _ _ Hn) in Hv.
  apply hex_text_decode in Hv, Ht. rewrite (Address_eq q c s bs m v Hf Ht Nq Hv). do 2 f_equal.
  eapply base58check_fun; [|exact Ha]. apply base58check_encode. reflexivity.
Qed.

Lemma prefix_case p q : to_lower p = to_lower q -> forall t, to_lower t = t ->
  Forall (fun c => forall d, lower_byte d = c -> d = c) t -> str_eqb p t = str_eqb q t.
Proof.
  intros H t Ht Hd.
  assert (K : forall p, p = t <-> to_lower p = t).
  { intros u. split; [intros ->; exact Ht|]. clear -Hd. revert t Hd.
    induction u as [|c u IH]; intros [|d t] Hd H; cbn in H; try discriminate; [reflexivity|].
    injection H as H1 H2. inversion Hd as [|? ? Hd1 Hd2]; subst. f_equal; [apply Hd1; reflexivity|apply IH; [exact Hd2|reflexivity]]. }
  destruct (str_eqb p t) eqn:P, (str_eqb q t) eqn:Q; try reflexivity.
  - apply str_eqb_eq, K in P. rewrite H in P. apply K, str_eqb_eq in P. congruence.
  - apply str_eqb_eq, K in Q. rewrite <- H in Q. apply K, str_eqb_eq in Q. congruence.
Qed.

Lemma slice_lower s lo hi : slice (to_lower s) lo hi =
  match slice s lo hi with Ret t => Ret (to_lower t) | Panic e => Panic e end.
Proof.
  unfold slice, to_lower. rewrite map_length.
  destruct (_ && _ && _); [|reflexivity]. rewrite skipn_map, firstn_map. reflexivity.
Qed.

Lemma digit_lower (d : byte) : lower_byte d = x30 -> d = x30.
Proof. destruct d; vm_compute; congruence. Qed.
Lemma digit_lower2 (d : byte) : lower_byte d = x32 -> d = x32.
Proof. destruct d; vm_compute; congruence. Qed.
Lemma digit_lower3 (d : byte) : lower_byte d = x33 -> d = x33.
Proof. destruct d; vm_compute; congruence. Qed.
Lemma digit_lower4 (d : byte) : lower_byte d = x34 -> d = x34.
Proof. destruct d; vm_compute; congruence. Qed.

Lemma public_lower E s net : PublicFromHex E (to_lower s) net = PublicFromHex E s net.
Proof.
  unfold PublicFromHex. rewrite !slice_lower.
  destruct (slice s 0 2) as [p|]; cbn [bind]; [|reflexivity].
  assert (LL : to_lower (to_lower p) = to_lower p).
  { unfold to_lower. rewrite map_map. apply map_ext. intros c. destruct c; reflexivity. }
  rewrite (prefix_case _ _ LL (str "04") eq_refl), (prefix_case _ _ LL (str "03") eq_refl), (prefix_case _ _ LL (str "02") eq_refl)
    by (repeat constructor; first [apply digit_lower|apply digit_lower2|apply digit_lower3|apply digit_lower4]).
  destruct (str_eqb p (str "04")).
  - destruct (slice s 2 66) as [x|]; cbn [bind]; [|reflexivity].
    destruct (slice s 66 130) as [y|]; cbn [bind]; [|reflexivity]. rewrite !set_string16_of_lower. reflexivity.
  - destruct (_ || _); [|reflexivity]. destruct (slice s 2 66) as [x|]; cbn [bind]; [|reflexivity].
    rewrite set_string16_of_lower. reflexivity.
Qed.

Lemma public_case E s t net : equal_up_to_case s t -> PublicFromHex E s net = PublicFromHex E t net.
Proof. intros H. apply equal_up_to_case_lower in H. rewrite <- (public_lower E s), H. apply public_lower. Qed.

Section Points.
Context (E : ecdsa_lib) (HE : ecdsa_contract E).

(** ** C90: 02 typed for 03 *)

Lemma even_opposite y : Z.even (p256k1 - y) = negb (Z.even y).
Proof. rewrite Z.even_sub. replace (Z.even p256k1) with false by reflexivity. destruct (Z.even y); reflexivity. Qed.

Lemma typed_prefix (u t : gostring) : length u = 2%nat -> length t = 64%nat ->
  substring (u ++ t) 0 2 = u /\ (66 <= length (u ++ t))%nat /\ substring (u ++ t) 2 66 = t.
Proof.
  intros Hu Hl. unfold substring. rewrite app_length, Hl, Hu. split; [|split; [lia|]].
  - rewrite skipn_O, firstn_app, Hu. cbn [Nat.sub]. rewrite firstn_O, app_nil_r. apply firstn_all2. lia.
  - rewrite skipn_app, Hu, skipn_all2 by lia. cbn [Nat.sub]. rewrite skipn_O. cbn [app]. apply firstn_all2. lia.
Qed.

Lemma opposite_multiple k x y : 1 <= k < n256k1 -> 0 < y < p256k1 ->
  multiple (Some G256k1) k (Some (x, y)) -> multiple (Some G256k1) (n256k1 - k) (Some (x, p256k1 - y)).
Proof.
  intros Hk Hy M. apply multiple_G in M; [|lia]. apply multiple_G; [lia|]. rewrite n256k1_N in *. rewrite p256k1_P in *.
  rewrite <- neg_mulG, M by lia. cbn [ec_neg]. do 2 f_equal.
  rewrite Z_mod_nz_opp_full; rewrite Z.mod_small by lia; lia.
Qed.

Lemma flipped t (b : bool) x p net f : length t = 64%nat -> hex_number t x -> x < p256k1 ->
  PublicFromHex E (str (if b then "02" else "03") ++ t) net = Ret (Ok p) ->
  exists y, p = PublicKey (Some x) (Some y) net /\ 0 < y < p256k1 /\
    let q := PublicKey (Some x) (Some (p256k1 - y)) net in
    PublicFromHex E (str (if b then "03" else "02") ++ t) net = Ret (Ok q) /\
    AddPublicKeys E p q f = Ret (Err ENotOnCurve) /\
    forall k, 1 <= k < n256k1 ->
      multiple (Some G256k1) k (Some (x, y)) -> multiple (Some G256k1) (n256k1 - k) (Some (x, p256k1 - y)).
Proof.
  intros Hl Hx HP H.
  destruct (typed_prefix (str (if b then "02" else "03")) t ltac:(destruct b; reflexivity) Hl) as (L1 & L2 & L3).
  destruct (typed_prefix (str (if b then "03" else "02")) t ltac:(destruct b; reflexivity) Hl) as (M1 & M2 & M3).
  assert (Hx1 := Hx). assert (Hx2 := Hx). rewrite <- L3 in Hx1. rewrite <- M3 in Hx2.
  assert (M1' : substring (str (if b then "03" else "02") ++ t) 0 2 = str (if negb b then "02" else "03"))
    by (rewrite M1; destruct b; reflexivity).
  destruct (compressed_import E HE _ net b x L1 L2 Hx1 HP) as [Good Bad].
  destruct (compressed_import E HE _ net (negb b) x M1' M2 Hx2 HP) as [Good' _].
  assert (Ex : exists y, curve_point (x, y)).
  { destruct (import_x_point E HE (if b then 0 else 1) x net) as [(y & C & _)|[N _]];
      [destruct b; auto|rewrite p256k1_P in HP; pose proof (hex_number_nonneg _ _ Hx); lia| |].
    - exists y. apply curve_point_iff, C.
    - rewrite Bad in H; [discriminate|]. intros (y & C). apply N. exists y. apply curve_point_iff, C. }
  destruct (Good Ex) as (y & C & Ey & Hy). destruct (Good' Ex) as (y' & C' & Ey' & Hy').
  rewrite H in Hy. injection Hy as ->.
  destruct (opposite_exists x y C) as [Co Hc].
  assert (y' = p256k1 - y) as ->.
  { apply (parity_point x); [assumption..|]. rewrite even_opposite, Ey, Ey'. reflexivity. }
  assert (Ry : 0 < y < p256k1).
  { destruct C as (_ & Ry & _), Co as (_ & Ry' & _). cbn [fst snd] in Ry, Ry'. lia. }
  exists y. split; [reflexivity|]. split; [exact Ry|]. cbv zeta. split; [exact Hy'|]. split.
  - apply curve_point_iff in C, Co. rewrite (AddPublicKeys_eq E HE) by assumption.
    assert (ec_add (Some (x, y)) (Some (x, p256k1 - y)) = None) as ->; [|reflexivity].
    cbn [ec_add]. rewrite Z.eqb_refl. apply cong0 in Hc. rewrite Hc. reflexivity.
  - intros k Hk M. apply opposite_multiple; assumption.
Qed.

(** ** C89: how many numbers are the x of a point *)

Definition x_of (k : Z) : Z := match ec_nmul (Z.to_nat k) GG with Some (x, _) => x | None => 0 end.

Lemma NoDup_map_on {A B} (g : A -> B) l : NoDup l -> (forall a b, In a l -> In b l -> g a = g b -> a = b) -> NoDup (map g l).
Proof.
  induction 1 as [|a l Ha _ IH]; intros H; cbn [map]; constructor.
  - intros K. apply in_map_iff in K as (b & Eb & Hb). apply Ha. rewrite (H a b); cbn; auto.
  - apply IH. intros u v Hu Hv. apply H; cbn; auto.
Qed.

Lemma x_of_inj M i j : 2 * M = secp_N - 1 -> 1 <= i <= M -> 1 <= j <= M -> x_of i = x_of j -> i = j.
Proof.
  intros HM Hi Hj H.
  pose proof (GetPublicKey_eq E HE (PrivateKey (Some i) [] [] None) i eq_refl ltac:(lia)) as Pi.
  pose proof (GetPublicKey_eq E HE (PrivateKey (Some j) [] [] None) j eq_refl ltac:(lia)) as Pj.
  unfold x_of in H.
  destruct (ec_nmul (Z.to_nat i) GG) as [[xi yi]|] eqn:Ei.
  2: { apply mulG_none in Ei; [|lia]. apply Z.divide_pos_le in Ei; lia. }
  destruct (ec_nmul (Z.to_nat j) GG) as [[xj yj]|] eqn:Ej.
  2: { apply mulG_none in Ej; [|lia]. apply Z.divide_pos_le in Ej; lia. }
  destruct (same_x E HE (PrivateKey (Some i) [] [] None) (PrivateKey (Some j) [] [] None) i j _ _ eq_refl eq_refl ltac:(rewrite n256k1_N; lia) ltac:(rewrite n256k1_N; lia) Pi Pj) as [S _].
  cbn [PX] in S. destruct S as [S|S]; [congruence|exact S|]. rewrite n256k1_N in S. lia.
Qed.

Lemma x_count M S c : 2 * M = secp_N - 1 -> NoDup S -> (forall x, In x S <-> 0 <= x < p256k1) ->
  holds_for (fun x => exists y, curve_point (x, y)) S c -> Z.of_nat c = M.
Proof.
  intros HM NS HS H.
  enough (T : holds_for (fun x => exists y, curve_point (x, y)) S (Z.to_nat M)).
  { rewrite (holds_for_fun _ _ _ _ H T). pose proof N_pos. lia. }
  exists (map (fun i => x_of (Z.of_nat i)) (seq 1 (Z.to_nat M))). split; [|split; [|rewrite map_length; apply seq_length]].
  - apply NoDup_map_on; [apply seq_NoDup|]. intros i j Hi Hj K. apply in_seq in Hi, Hj.
    apply (x_of_inj M) in K; [lia|exact HM|lia|lia].
  - intros x. rewrite in_map_iff. split.
    + intros (i & Ei & Hi). apply in_seq in Hi. unfold x_of in Ei.
      destruct (ec_nmul (Z.to_nat (Z.of_nat i)) GG) as [[xi yi]|] eqn:Mi.
      2: { apply mulG_none in Mi; [|lia]. apply Z.divide_pos_le in Mi; lia. }
      subst xi. pose proof (valid_some _ _ _ (nmul_valid _ _ GG_valid) Mi) as C. apply curve_point_iff in C.
      split; [|exists yi; exact C]. apply HS. destruct C as (Rx & _). exact Rx.
    + intros [_ (y & C)]. apply curve_point_iff in C. destruct (cyclic (Some (x, y)) C) as (k & Hk & Ek).
      assert (k <> 0) by (intros ->; discriminate Ek).
      destruct (Z_le_gt_dec k M).
      * exists (Z.to_nat k). split; [|apply in_seq; lia]. unfold x_of. rewrite Z2Nat.id, <- Ek by lia. reflexivity.
      * exists (Z.to_nat (secp_N - k)). split; [|apply in_seq; lia].
        unfold x_of. rewrite Z2Nat.id, <- neg_mulG, <- Ek by lia. reflexivity.
Qed.

Lemma accepted_x (b : bool) net x : 0 <= x < p256k1 ->
  (exists t p, length t = 64%nat /\ hex_number t x /\
     PublicFromHex E (str (if b then "02" else "03") ++ t) net = Ret (Ok p)) <-> exists y, curve_point (x, y).
Proof.
  intros Hin. split; intros K.
  - destruct K as (t & p & Hl & Hx & Hp).
    destruct (typed_prefix (str (if b then "02" else "03")) t ltac:(destruct b; reflexivity) Hl) as (L1 & L2 & L3).
    rewrite <- L3 in Hx. destruct (compressed_import E HE _ net b x L1 L2 Hx ltac:(lia)) as [_ Bad].
    destruct (import_x_point E HE (if b then 0 else 1) x net) as [(y' & C & _)|[N _]];
      [destruct b; auto|rewrite p256k1_P in Hin; lia| |].
    + exists y'. apply curve_point_iff, C.
    + rewrite Bad in Hp; [discriminate|]. intros (y' & C). apply N. exists y'. apply curve_point_iff, C.
  - pose proof P_lt_2_256 as PL. rewrite p256k1_P in Hin.
    assert (Hl : length (pad_left 64 (sprintf_x x)) = 64%nat) by (apply hex64_length; lia).
    assert (Hx : hex_number (pad_left 64 (sprintf_x x)) x).
    { apply hex_number_set_string. split; [intros K0; rewrite K0 in Hl; discriminate|].
      split; [apply pad_left_sprintf_x_hex; lia|apply pad_left_sprintf_x_value; lia]. }
    destruct (typed_prefix (str (if b then "02" else "03")) _ ltac:(destruct b; reflexivity) Hl) as (L1 & L2 & L3).
    assert (Hx1 := Hx). rewrite <- L3 in Hx1.
    destruct (compressed_import E HE _ net b x L1 L2 Hx1 ltac:(rewrite p256k1_P; lia)) as [Good _].
    destruct (Good K) as (y & _ & _ & H). eauto 6.
Qed.

Lemma accepted_count (b : bool) net S c : NoDup S -> (forall x, In x S <-> 0 <= x < p256k1) ->
  holds_for (fun x => exists t p, length t = 64%nat /\ hex_number t x /\
               PublicFromHex E (str (if b then "02" else "03") ++ t) net = Ret (Ok p)) S c ->
  2 * Z.of_nat c = n256k1 - 1.
Proof.
  intros NS HS (T & NT & HT & Hc).
  assert (HM : exists M, 2 * M = secp_N - 1) by (exists ((secp_N - 1) / 2); reflexivity).
  destruct HM as [M HM]. rewrite n256k1_N, <- HM. f_equal. apply (x_count M S c HM NS HS).
  exists T. split; [exact NT|]. split; [|exact Hc]. intros x. rewrite HT.
  split; intros [Hin K]; (split; [exact Hin|]); apply HS in Hin.
  - apply accepted_x in K; assumption.
  - apply accepted_x; assumption.
Qed.

(** The count is about something: the list exists. *)
Lemma accepted_exists (b : bool) net : exists S c, NoDup S /\ (forall x, In x S <-> 0 <= x < p256k1) /\
  holds_for (fun x => exists t p, length t = 64%nat /\ hex_number t x /\
               PublicFromHex E (str (if b then "02" else "03") ++ t) net = Ret (Ok p)) S c.
Proof.
  set (S := map Z.of_nat (seq 0 (Z.to_nat p256k1))).
  assert (NS : NoDup S) by (apply FinFun.Injective_map_NoDup; [intros i j; apply Nat2Z.inj|apply seq_NoDup]).
  assert (HS : forall x, In x S <-> 0 <= x < p256k1).
  { intros x. unfold S. rewrite in_map_iff. split.
    - intros (i & <- & Hi). apply in_seq in Hi. lia.
    - intros Hx. exists (Z.to_nat x). split; [apply Z2Nat.id; lia|]. apply in_seq. lia. }
  assert (D : forall x, (In x S /\ exists y, curve_point (x, y)) \/ ~ (In x S /\ exists y, curve_point (x, y))).
  { intros x. destruct (Z_le_gt_dec 0 x); [|right; intros [K _]; apply HS in K; lia].
    destruct (Z_lt_ge_dec x p256k1) as [HP|]; [|right; intros [K _]; apply HS in K; lia].
    rewrite p256k1_P in HP. destruct (import_x_point E HE 0 x net) as [(y & C & _)|[N _]]; [auto|lia| |].
    - left. split; [apply HS; rewrite p256k1_P; lia|]. exists y. apply curve_point_iff, C.
    - right. intros [_ (y & C)]. apply N. exists y. apply curve_point_iff, C. }
  destruct (holds_for_exists _ S NS D) as (c & T & NT & HT & Hc).
  exists S, c. split; [exact NS|]. split; [exact HS|]. exists T. split; [exact NT|]. split; [|exact Hc].
  intros x. rewrite HT. split.
  - intros (Hin & _ & K). split; [exact Hin|]. apply HS in Hin. apply accepted_x; assumption.
  - intros (Hin & K). split; [exact Hin|]. split; [exact Hin|]. apply HS in Hin. apply accepted_x in K; assumption.
Qed.

(** ** C91: keys split between parties who exchange texts *)

Lemma split_key c l a r n bs A L : KNetwork a = Some n -> hex_text (PrivKeyPrefix n) bs ->
  add_up AddPrivateKeys a l = Ret (Ok r) ->
  Forall2 (fun k P => exists x Q d s, Key k = Some x /\ 0 <= x /\ GetPublicKey E k = Ret (Some Q) /\
             Format Q d = Ret s /\ PublicFromHex E s (Some n) = Ret (Ok P)) (a :: l) (A :: L) ->
  exists R, add_up (fun p q => AddPublicKeys E p q c) A L = Ret (Ok R) /\ GetPublicKey E r = Ret (Some R).
Proof.
  intros Hn Hbs H HF.
  assert (Nets : Forall (fun k => KNetwork k = Some n) (a :: l)).
  { constructor; [exact Hn|]. destruct l as [|b l]; [constructor|].
    destruct (add_up_private (b :: l) a r ltac:(discriminate) H) as (_ & _ & Hf & _). rewrite <- Hn. exact Hf. }
  eapply add_up_agree; [exact HE|exact Hn|exact Hbs|exact H|].
  revert Nets HF. generalize (a :: l) (A :: L). clear -HE. intros ks Ps Nets HF.
  induction HF as [|k P ks Ps HP _ IH]; constructor; inversion Nets; subst.
  - destruct HP as (x & Q & d & s & Kx & Hx & HQ & Hf & Hi). exists x. split; [exact Kx|]. split; [exact Hx|].
    destruct (GetPublicKey_inv E HE k x Q Kx Hx HQ) as (px & py & -> & C & _).
    apply curve_point_iff in C. rewrite (round_trip E HE px py _ (Some n) d s C Hf) in Hi.
    rewrite HQ. congruence.
  - apply IH. assumption.
Qed.

End Points.
