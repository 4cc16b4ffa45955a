(** * Facts about sequences of calls: restoring, adding up many keys, crashes *)

From Coq Require Import Permutation.
From Verif Require Import GoBase GoNum Sha256 Ripemd160 Base58 GoRand Model Spec SpecMore CurveSpec EcdsaContract.
From Verif Require Import NumFacts HexFacts SpecFacts PrivFacts GenFacts CombFacts PrivProps PubFacts EcRef Field Curve CurveMul CurveGroup EcFacts PubCurve.
Local Open Scope Z_scope.
Local Opaque sha256 ripemd160 secp_P secp_N.

(** ** Restoring a generated key *)

Lemma lower_case_to_lower s : lower_case_hex s -> to_lower s = s.
Proof.
  intros H. unfold to_lower. rewrite <- (map_id s) at 2. apply map_ext_Forall.
  eapply Forall_impl; [|exact H]. intros c Hc. cbn in Hc.
  repeat (destruct Hc as [<-|Hc]; [reflexivity|]). destruct Hc.
Qed.

Lemma restore_lower n v k : hex_text (PrivKeyPrefix n) [v] -> lower_case_hex (Hex k) ->
  PrivateFromHex (Hex k) (Some n) = Ret (Ok k) -> PrivateFromWIF (WIF k) (Some n) = Ret (Ok k).
Proof.
  intros Hv Hl H. rewrite (hex_wif_hex _ _ _ _ (Some n) Hv H), (lower_case_to_lower _ Hl).
  apply PrivateFromHex_success in H as (bs & _ & _ & E & N & _). rewrite <- N. destruct k; reflexivity.
Qed.

Lemma restore_generated n v rd k rest : hex_text (PrivKeyPrefix n) [v] ->
  GeneratePrivateKey (Some n) rd = Ret (k, rest) ->
  PrivateFromWIF (WIF k) (Some n) = Ret (Ok k) /\ PrivateFromHex (Hex k) (Some n) = Ret (Ok k).
Proof.
  intros Hv H. apply generated_wellformed in H as (z & _ & _ & _ & Hl & _ & _ & H).
  split; [|exact H]. apply (restore_lower n v); assumption.
Qed.

Lemma restore_combined op a b c n v : hex_text (PrivKeyPrefix n) [v] -> KNetwork a = Some n ->
  combine op a b = Ret (Ok c) ->
  PrivateFromWIF (WIF c) (Some n) = Ret (Ok c) /\ PrivateFromHex (Hex c) (Some n) = Ret (Ok c).
Proof.
  intros Hv Hn H. apply combine_success in H as (x & y & _ & _ & _ & _ & _ & [Hl _] & H). rewrite Hn in H.
  split; [|exact H]. apply (restore_lower n v); assumption.
Qed.

(** ** Adding up private keys *)

Lemma add_up_private l : forall a r, l <> [] -> add_up AddPrivateKeys a l = Ret (Ok r) ->
  exists xs, Forall2 (fun k x => Key k = Some x) (a :: l) xs /\ Forall (fun k => KNetwork k = KNetwork a) l /\
    Key r = Some (total xs mod secp_N) /\ KNetwork r = KNetwork a /\
    shortest_hex (Hex r) (total xs mod secp_N) /\ PrivateFromHex (Hex r) (KNetwork a) = Ret (Ok r).
Proof.
  induction l as [|b l IH]; intros a r Hne H; [congruence|]. cbn [add_up] in H.
  destruct (AddPrivateKeys a b) as [[ab|e]|e] eqn:Eab; cbn [bind bind_res] in H; try discriminate.
  apply (combine_success Z.add) in Eab as (x & y & Kx & Ky & Nab & Kab & Nr & Sab & Pab).
  destruct l as [|c l].
  - cbn [add_up] in H. injection H as <-. exists [x; y].
    split; [repeat constructor; assumption|]. split; [repeat constructor; congruence|].
    cbn [total fold_right]. rewrite Z.add_0_r. auto.
  - destruct (IH ab r ltac:(discriminate) H) as (xs & HF & HN & K & N & S & P).
    inversion HF as [|? xab ? xs' Kab' HF']; subst. rewrite Kab in Kab'. injection Kab' as <-.
    exists (x :: y :: xs'). split; [repeat constructor; assumption|].
    assert (total ((x + y) mod secp_N :: xs') mod secp_N = total (x :: y :: xs') mod secp_N) as T.
    { cbn [total fold_right]. rewrite Zplus_mod_idemp_l, Z.add_assoc. reflexivity. }
    rewrite T in K, S. rewrite Nr in N, P.
    split; [constructor; [congruence|]|].
    { eapply Forall_impl; [|exact HN]. intros k E. cbn beta in E. rewrite E. exact Nr. }
    auto.
Qed.

Lemma total_perm xs ys : Permutation xs ys -> total xs = total ys.
Proof. unfold total. induction 1; cbn [fold_right] in *; lia. Qed.

Lemma add_up_private_order a l b m r s : Permutation (a :: l) (b :: m) -> l <> [] ->
  add_up AddPrivateKeys a l = Ret (Ok r) -> add_up AddPrivateKeys b m = Ret (Ok s) -> r = s.
Proof.
  intros HP Hl H1 H2.
  assert (Hm : m <> []).
  { intros ->. apply Permutation_length in HP. destruct l; [congruence|discriminate]. }
  destruct (add_up_private l a r Hl H1) as (xs & F1 & N1 & K1 & R1 & S1 & P1).
  destruct (add_up_private m b s Hm H2) as (ys & F2 & N2 & K2 & R2 & S2 & P2).
  destruct (Permutation_Forall2 HP F1) as (ys' & HPy & F2').
  assert (ys' = ys) as ->.
  { clear - F2 F2'. revert ys' F2'. induction F2 as [|k x l xs Hx HF IH]; intros ys' F2'; inversion F2'; subst; [reflexivity|].
    f_equal; [congruence|apply IH; assumption]. }
  assert (Hnet : KNetwork a = KNetwork b).
  { assert (In b (a :: l)) as Hb by (apply Permutation_in with (1 := Permutation_sym HP); left; reflexivity).
    destruct Hb as [->|Hb]; [reflexivity|]. rewrite Forall_forall in N1. symmetry. apply N1, Hb. }
  rewrite (total_perm _ _ HPy) in S1. rewrite Hnet in P1.
  assert (Hex r = Hex s) as E; [|congruence].
  apply shortest_hex_sprintf in S1 as [_ ->], S2 as [_ ->]. reflexivity.
Qed.

(** ** Adding up public keys *)

Section WithLib.
Context (E : ecdsa_lib) (HE : ecdsa_contract E).

Lemma combine_nonzero op a b c n bs : KNetwork a = Some n -> hex_text (PrivKeyPrefix n) bs ->
  combine op a b = Ret (Ok c) -> exists z, Key c = Some z /\ 1 <= z < secp_N.
Proof.
  intros Hn Hbs H. apply combine_success in H as (x & y & _ & _ & _ & K & _ & S & P).
  eexists. split; [exact K|]. pose proof (mod_N_range (op x y)) as B.
  destruct (Z.eq_dec (op x y mod secp_N) 0) as [Z0|Z0]; [exfalso|lia].
  rewrite Z0 in S. assert (Hex c = str "0") as E0.
  { apply shortest_hex_sprintf in S as [_ ->]. reflexivity. }
  rewrite E0, Hn in P. apply PrivateFromHex_success in P as (bs' & Ht & _).
  apply hex_text_decode in Hbs, Ht. rewrite (hex_decode_app _ _ _ Hbs) in Ht. discriminate.
Qed.

Definition publishes (k : private_key) (P : public_key) : Prop :=
  exists x, Key k = Some x /\ 0 <= x /\ GetPublicKey E k = Ret (Some P).

Lemma add_up_agree c l : forall a r n bs A L, KNetwork a = Some n -> hex_text (PrivKeyPrefix n) bs ->
  add_up AddPrivateKeys a l = Ret (Ok r) -> Forall2 publishes (a :: l) (A :: L) ->
  exists R, add_up (fun p q => AddPublicKeys E p q c) A L = Ret (Ok R) /\ GetPublicKey E r = Ret (Some R).
Proof.
  induction l as [|b l IH]; intros a r n bs A L Hn Hbs H HF;
    inversion HF as [|? ? ? ? PA HF']; subst; inversion HF' as [|? B ? L' PB HF'']; subst; cbn [add_up] in *.
  - injection H as <-. exists A. split; [reflexivity|]. destruct PA as (x & _ & _ & PA). exact PA.
  - destruct (AddPrivateKeys a b) as [[ab|e]|e] eqn:Eab; cbn [bind bind_res] in H; try discriminate.
    destruct PA as (x & Kx & Hx & PA), PB as (y & Ky & Hy & PB).
    destruct (combine_nonzero Z.add a b ab n bs Hn Hbs Eab) as (z & Kz & Hz).
    destruct (GetPublicKey_range E HE ab z Kz ltac:(rewrite n256k1_N; exact Hz)) as (px & py & Pab & _).
    rewrite (add_keys_agree E HE a b ab x y A B c Eab Kx Ky Hx Hy PA PB), Pab. cbn [bind bind_res].
    pose proof (combine_success Z.add a b ab Eab) as (_ & _ & _ & _ & _ & _ & Nab & _).
    apply (IH ab r n bs); [congruence|exact Hbs|exact H|].
    constructor; [|exact HF'']. exists z. split; [exact Kz|]. split; [lia|exact Pab].
Qed.

Definition key_point (p : public_key) : option point :=
  match PX p, PY p with Some x, Some y => Some (x, y) | _, _ => None end.

Definition point_total (ps : list public_key) : option point := fold_right (fun p o => ec_add (key_point p) o) None ps.

Lemma curve_key_valid p : curve_key p -> valid (key_point p).
Proof.
  intros K. destruct (curve_key_coords p K) as (x & y & -> & C). apply curve_point_iff in C. exact C.
Qed.
Lemma point_total_valid ps : Forall curve_key ps -> valid (point_total ps).
Proof.
  induction 1 as [|p ps Hp _ IH]; [exact I|]. apply ec_add_valid; [apply curve_key_valid, Hp|exact IH].
Qed.

Lemma add_up_public c l : forall a r, curve_key a -> Forall curve_key l ->
  add_up (fun p q => AddPublicKeys E p q c) a l = Ret (Ok r) ->
  curve_key r /\ PNetwork r = PNetwork a /\ Forall (fun k => PNetwork k = PNetwork a) l /\
  key_point r = point_total (a :: l).
Proof.
  induction l as [|b l IH]; intros a r Ha Hl H; cbn [add_up] in H.
  - injection H as <-. split; [exact Ha|]. split; [reflexivity|]. split; [constructor|].
    cbn [point_total fold_right]. destruct (curve_key_coords a Ha) as (x & y & -> & C). reflexivity.
  - inversion Hl as [|? ? Hb Hl']; subst.
    destruct (AddPublicKeys E a b c) as [[ab|e]|e] eqn:Eab; cbn [bind bind_res] in H; try discriminate.
    destruct (AddPublicKeys_inv E HE a b c ab Ha Hb Eab) as (x1 & y1 & x2 & y2 & x & y & Ea & Eb & Er & C1 & C2 & C3 & S).
    destruct (AddPublicKeys_closed E HE a b c ab Ha Hb Eab) as [Kab Nab].
    destruct (IH ab r Kab Hl' H) as (K & N & F & T). split; [exact K|]. split; [congruence|].
    split. { constructor; [rewrite Eb; reflexivity|]. eapply Forall_impl; [|exact F]. intros k. cbn. congruence. }
    rewrite T. cbn [point_total fold_right]. fold (point_total l).
    rewrite Er, Ea, Eb. unfold key_point at 1 2 3. cbn [PX PY]. rewrite <- S.
    apply ec_add_assoc; [exact C1|exact C2|]. apply point_total_valid, Hl'.
Qed.

Lemma point_total_perm ps qs : Permutation ps qs -> Forall curve_key ps -> point_total ps = point_total qs.
Proof.
  induction 1 as [|p ps qs _ IH|p q ps|ps qs rs Hp IH1 _ IH2]; intros HF; cbn [point_total fold_right] in *.
  - reflexivity.
  - inversion HF; subst. f_equal. apply IH. assumption.
  - inversion HF as [|? ? Hp HF']; subst. inversion HF' as [|? ? Hq HF'']; subst. fold (point_total ps).
    pose proof (curve_key_valid _ Hp). pose proof (curve_key_valid _ Hq). pose proof (point_total_valid _ HF'').
    rewrite <- (ec_add_assoc (key_point q)), <- (ec_add_assoc (key_point p)) by assumption.
    f_equal. apply ec_add_comm; assumption.
  - rewrite IH1 by assumption. apply IH2. exact (Permutation_Forall Hp HF).
Qed.

Lemma add_up_public_order c d a l b m r s : Permutation (a :: l) (b :: m) ->
  curve_key a -> Forall curve_key l ->
  add_up (fun p q => AddPublicKeys E p q c) a l = Ret (Ok r) ->
  add_up (fun p q => AddPublicKeys E p q d) b m = Ret (Ok s) -> r = s.
Proof.
  intros HP Ha Hl H1 H2.
  assert (HF : Forall curve_key (a :: l)) by (constructor; assumption).
  pose proof (Permutation_Forall HP HF) as HF'. inversion HF' as [|? ? Hb Hm]; subst.
  destruct (add_up_public c l a r Ha Hl H1) as (K1 & N1 & F1 & T1).
  destruct (add_up_public d m b s Hb Hm H2) as (K2 & N2 & F2 & T2).
  assert (Hnet : PNetwork a = PNetwork b).
  { assert (In b (a :: l)) as Hin by (apply Permutation_in with (1 := Permutation_sym HP); left; reflexivity).
    destruct Hin as [->|Hin]; [reflexivity|]. rewrite Forall_forall in F1. symmetry. apply F1, Hin. }
  rewrite (point_total_perm _ _ HP HF) in T1. rewrite <- T2 in T1.
  destruct (curve_key_coords r K1) as (x & y & Er & _), (curve_key_coords s K2) as (x' & y' & Es & _).
  rewrite Er, Es in T1. unfold key_point in T1. cbn [PX PY] in T1. injection T1 as -> ->.
  rewrite Er, Es. congruence.
Qed.

(** ** The whole path from random bytes to an address *)

Lemma generate_to_address n v w rd k rest c : hex_text (PrivKeyPrefix n) [v] -> hex_text (PubKeyHashPrefix n) w ->
  GeneratePrivateKey (Some n) rd = Ret (k, rest) ->
  exists A s a, GetPublicKey E k = Ret (Some A) /\ curve_key A /\ Format A c = Ret s /\
    PublicFromHex E s (Some n) = Ret (Ok A) /\ Address A c = Ret (Ok a) /\
    exists k', PrivateFromWIF (WIF k) (Some n) = Ret (Ok k') /\ GetPublicKey E k' = Ret (Some A).
Proof.
  intros Hv Hw H. pose proof (restore_generated n v rd k rest Hv H) as [R _].
  apply generated_wellformed in H as (z & Kz & Hz & _ & _ & _ & Nk & _).
  assert (1 <= z < n256k1) as Hz' by (rewrite n256k1_N; lia).
  destruct (GetPublicKey_range E HE k z Kz Hz') as (x & y & HA & C & _).
  assert (0 <= x < 2 ^ 256 /\ 0 <= y < 2 ^ 256) as [Bx By].
  { destruct C as (B1 & B2 & _). cbn [fst snd] in B1, B2. rewrite p256k1_P in B1, B2. pose proof P_lt_2_256. lia. }
  destruct (Format_sec1 x y (KNetwork k) c Bx By) as (s & bs & HF & _).
  destruct (Address_base58check x y n w c Bx By Hw) as (a & bs' & Ha & _). rewrite <- Nk in Ha.
  assert (curve_key (PublicKey (Some x) (Some y) (KNetwork k))) as HK by (exists x, y; auto).
  exists (PublicKey (Some x) (Some y) (KNetwork k)), s, a.
  split; [exact HA|]. split; [exact HK|]. split; [exact HF|].
  split; [|split; [exact Ha|exists k; auto]].
  rewrite (export_import E HE _ c (Some n) s HK HF), Nk. reflexivity.
Qed.

(** ** Opposite keys *)

Lemma opposite_points a b x y : Key a = Some x -> Key b = Some y -> 1 <= x < n256k1 -> y = n256k1 - x ->
  exists px py, GetPublicKey E a = Ret (Some (PublicKey (Some px) (Some py) (KNetwork a))) /\
    GetPublicKey E b = Ret (Some (PublicKey (Some px) (Some (p256k1 - py)) (KNetwork b))) /\
    Z.even py = negb (Z.even (p256k1 - py)).
Proof.
  intros Ka Kb Hx Hy.
  destruct (GetPublicKey_range E HE a x Ka Hx) as (px & py & HA & CA & MA).
  destruct (GetPublicKey_range E HE b y Kb ltac:(lia)) as (qx & qy & HB & CB & MB).
  assert (S : point_sum (Some (px, py)) (Some (qx, qy)) None).
  { apply multiple_G in MA, MB; try lia. apply curve_point_iff in CA, CB.
    apply point_sum_iff; [exact CA|exact CB|]. rewrite <- MA, <- MB, <- nmul_add by apply GG_valid.
    rewrite <- Z2Nat.inj_add by lia. replace (x + y) with n256k1 by lia. rewrite n256k1_N.
    apply mulG_none; [pose proof CurveGroup.N_pos; lia|apply Z.divide_refl]. }
  pose proof CA as CA'. apply curve_point_iff in CA'.
  inversion S as [| |x0 y0 y0' D| |]; subst. destruct CA as (B1 & B2 & _), CB as (B3 & B4 & _). cbn [fst snd] in *.
  assert (py <> 0) as Hpy.
  { intros ->. apply on_curve_F, oncF_y in CA'. auto. }
  assert (qy = p256k1 - py) as ->.
  { unfold cong in D. rewrite Z.sub_0_r in D. destruct D as [q D]. assert (0 < p256k1) by lia.
    assert (q = 1) by nia. lia. }
  eexists _, py. split; [exact HA|]. split; [exact HB|].
  rewrite Z.even_sub. replace (Z.even p256k1) with false by reflexivity. destruct (Z.even py); reflexivity.
Qed.

Lemma opposite_texts a b x y A B : Key a = Some x -> Key b = Some y -> 1 <= x < n256k1 -> y = n256k1 - x ->
  GetPublicKey E a = Ret (Some A) -> GetPublicKey E b = Ret (Some B) ->
  exists t, length t = 64%nat /\
    (Format A true = Ret (str "02" ++ t) /\ Format B true = Ret (str "03" ++ t) \/
     Format A true = Ret (str "03" ++ t) /\ Format B true = Ret (str "02" ++ t)).
Proof.
  intros Ka Kb Hx Hy HA HB.
  destruct (opposite_points a b x y Ka Kb Hx Hy) as (px & py & HA' & HB' & Hp).
  destruct (GetPublicKey_range E HE a x Ka Hx) as (qx & qy & HA'' & (B1 & _ & _) & _).
  rewrite HA' in HA''. injection HA'' as <- <-. cbn [fst] in B1. rewrite p256k1_P in B1. pose proof P_lt_2_256.
  assert (A = PublicKey (Some px) (Some py) (KNetwork a)) as -> by congruence.
  assert (B = PublicKey (Some px) (Some (p256k1 - py)) (KNetwork b)) as -> by congruence.
  exists (hex64 px). split; [apply hex64_length; lia|]. rewrite !Format_compressed, Hp.
  destruct (Z.even (p256k1 - py)); cbn [negb]; auto.
Qed.

End WithLib.
