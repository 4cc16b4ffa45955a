(** * Public keys and the curve: lemmas behind C24-C27, C29, C31, C32, C37, C38, C54, C55 *)

From Coq Require Import Znumtheory.
From Verif Require Import GoBase GoNum Sha256 Ripemd160 Base58 GoRand Model EcRef.
From Verif Require Import NumTheory Primes Field Curve CurveMul CurveGroup CurveSpec EcdsaContract EcFacts.
From Verif Require Import NumFacts HexFacts Spec SpecFacts PrivFacts CombFacts PubFacts.
Local Open Scope Z_scope.
Local Opaque secp_P secp_N sha256 ripemd160 p256k1 n256k1 G256k1.

Lemma P_lt_2_256 : secp_P < 2 ^ 256.
Proof. vm_compute. reflexivity. Qed.

Lemma valid_some (o : option point) x y : valid o -> o = Some (x, y) -> on_curve (x, y).
Proof. intros V ->. exact V. Qed.

(** ** The group in specification terms *)

Lemma G_point : curve_point G256k1.
Proof. rewrite G256k1_G. apply curve_point_iff, G_on_curve. Qed.

Lemma GG_G : GG = Some G256k1.
Proof. rewrite G256k1_G. reflexivity. Qed.

Lemma multiple_G k r : 0 <= k -> (multiple (Some G256k1) k r <-> ec_nmul (Z.to_nat k) GG = r).
Proof. intros Hk. rewrite GG_G. apply multiple_iff; [|exact Hk]. rewrite <- GG_G. exact GG_valid. Qed.

Lemma multiple_exists k : 0 <= k -> exists r, multiple (Some G256k1) k r.
Proof. intros Hk. eexists. apply multiple_G; [exact Hk|reflexivity]. Qed.

Lemma multiple_fun q k r s : on_the_curve q -> 0 <= k -> multiple q k r -> multiple q k s -> r = s.
Proof.
  intros V Hk H1 H2. apply on_the_curve_iff in V. apply multiple_iff in H1, H2; congruence.
Qed.

Lemma sum_exists p q : on_the_curve p -> on_the_curve q ->
  exists r, point_sum p q r /\ on_the_curve r /\ (forall r', point_sum p q r' -> r' = r).
Proof.
  intros Vp Vq. apply on_the_curve_iff in Vp, Vq. exists (ec_add p q).
  split; [apply point_sum_add; assumption|]. split; [apply on_the_curve_iff; auto|].
  intros r' H. apply point_sum_iff in H; auto.
Qed.

Lemma sum_comm p q r : on_the_curve p -> on_the_curve q -> point_sum p q r -> point_sum q p r.
Proof.
  intros Vp Vq. apply on_the_curve_iff in Vp, Vq. rewrite !point_sum_iff by assumption.
  intros <-. symmetry. apply ec_add_comm; assumption.
Qed.

Lemma sum_assoc p q r pq qr s : on_the_curve p -> on_the_curve q -> on_the_curve r ->
  point_sum p q pq -> point_sum q r qr -> (point_sum pq r s <-> point_sum p qr s).
Proof.
  intros Vp Vq Vr. apply on_the_curve_iff in Vp, Vq, Vr. rewrite !point_sum_iff by assumption.
  intros <- <-. rewrite !point_sum_iff by auto. rewrite ec_add_assoc by assumption. tauto.
Qed.

Lemma order_exact k : 0 <= k -> (multiple (Some G256k1) k None <-> (n256k1 | k)).
Proof. intros Hk. rewrite multiple_G, n256k1_N by exact Hk. apply mulG_none, Hk. Qed.

Lemma every_point_once q : curve_point q ->
  exists k, 1 <= k < n256k1 /\ multiple (Some G256k1) k (Some q) /\
    forall k', 1 <= k' < n256k1 -> multiple (Some G256k1) k' (Some q) -> k' = k.
Proof.
  intros C. apply curve_point_iff in C. rewrite n256k1_N. pose proof CurveGroup.N_pos as NP.
  destruct (cyclic (Some q) C) as (k & Hk & E). exists k.
  assert (k <> 0) by (intros ->; discriminate E).
  split; [lia|]. split; [apply multiple_G; [lia|congruence]|].
  intros k' Hk' M. apply multiple_G in M; [|lia]. rewrite E in M. apply mulG_eq in M; [|lia|lia].
  rewrite !Z.mod_small in M by lia. exact M.
Qed.

(** ** Calls of the dependency under the contract *)

Section WithLib.
Context (E : ecdsa_lib) (HE : ecdsa_contract E).

Lemma scalar_G k : 0 <= k ->
  match ec_nmul (Z.to_nat k) GG with
  | Some r => lib_ScalarMult E k (secp_Gx, secp_Gy) = (r, true)
  | None => snd (lib_ScalarMult E k (secp_Gx, secp_Gy)) = false
  end.
Proof.
  intros Hk. change (secp_Gx, secp_Gy) with secp_G. rewrite <- G256k1_G.
  destruct (ec_nmul (Z.to_nat k) GG) as [r|] eqn:R.
  - apply (contract_ScalarMult E HE); [exact Hk|exact G_point|]. apply multiple_G; assumption.
  - apply (contract_ScalarMult_infinity E HE); [exact Hk|exact G_point|]. apply multiple_G; assumption.
Qed.

Lemma GetPublicKey_eq key k : Key key = Some k -> 0 <= k ->
  GetPublicKey E key = Ret (match ec_nmul (Z.to_nat k) GG with
                            | Some (x, y) => Some (PublicKey (Some x) (Some y) (KNetwork key))
                            | None => None
                            end).
Proof.
  intros K Hk. unfold GetPublicKey. rewrite K. pose proof (scalar_G k Hk) as S.
  destruct (ec_nmul (Z.to_nat k) GG) as [[x y]|].
  - rewrite S. reflexivity.
  - destruct (lib_ScalarMult E k _) as [[x y] v]. cbn in S. rewrite S. reflexivity.
Qed.

Lemma add_points q r o : on_curve q -> on_curve r -> ec_add (Some q) (Some r) = o ->
  match o with
  | Some s => lib_AddPoints E q r = (s, true)
  | None => snd (lib_AddPoints E q r) = false
  end.
Proof.
  intros Cq Cr S. destruct o as [s|].
  - apply (contract_AddPoints E HE); [apply curve_point_iff; assumption..|]. apply point_sum_iff; assumption.
  - apply (contract_AddPoints_infinity E HE); [apply curve_point_iff; assumption..|]. apply point_sum_iff; assumption.
Qed.

Lemma AddPublicKeys_eq x1 y1 x2 y2 net c : on_curve (x1, y1) -> on_curve (x2, y2) ->
  AddPublicKeys E (PublicKey (Some x1) (Some y1) net) (PublicKey (Some x2) (Some y2) net) c =
  Ret (match ec_add (Some (x1, y1)) (Some (x2, y2)) with
       | Some (x, y) => Ok (PublicKey (Some x) (Some y) net)
       | None => Err ENotOnCurve
       end).
Proof.
  intros C1 C2. unfold AddPublicKeys. cbn [PNetwork PX PY]. rewrite net_eqb_refl. cbn [negb].
  destruct (ec_add (Some (x1, y1)) (Some (x2, y2))) as [[x y]|] eqn:R;
    pose proof (add_points _ _ _ C1 C2 R) as S.
  - rewrite S. reflexivity.
  - destruct (lib_AddPoints E (x1, y1) (x2, y2)) as [[x y] v]. cbn in S. rewrite S. reflexivity.
Qed.

(** ** C24 *)

Lemma GetPublicKey_point key k : Key key = Some k -> 0 <= k -> ~ (n256k1 | k) ->
  exists x y, GetPublicKey E key = Ret (Some (PublicKey (Some x) (Some y) (KNetwork key))) /\
    curve_point (x, y) /\ multiple (Some G256k1) k (Some (x, y)).
Proof.
  intros K Hk Hn. rewrite (GetPublicKey_eq key k K Hk). rewrite n256k1_N in Hn.
  destruct (ec_nmul (Z.to_nat k) GG) as [[x y]|] eqn:R.
  - exists x, y. split; [reflexivity|]. split; [|apply multiple_G; assumption].
    apply curve_point_iff. exact (valid_some _ _ _ (nmul_valid _ _ GG_valid) R).
  - exfalso. apply Hn, mulG_none; assumption.
Qed.

Lemma GetPublicKey_range key k : Key key = Some k -> 1 <= k < n256k1 ->
  exists x y, GetPublicKey E key = Ret (Some (PublicKey (Some x) (Some y) (KNetwork key))) /\
    curve_point (x, y) /\ multiple (Some G256k1) k (Some (x, y)).
Proof.
  intros K Hk. apply GetPublicKey_point; [exact K|lia|]. intros D. apply Z.divide_pos_le in D; lia.
Qed.

Lemma GetPublicKey_infinity key k : Key key = Some k -> 0 <= k -> (n256k1 | k) ->
  GetPublicKey E key = Ret None.
Proof.
  intros K Hk Hn. rewrite (GetPublicKey_eq key k K Hk). rewrite n256k1_N in Hn.
  apply mulG_none in Hn; [|exact Hk]. rewrite Hn. reflexivity.
Qed.

Lemma GetPublicKey_inv key k A : Key key = Some k -> 0 <= k -> GetPublicKey E key = Ret (Some A) ->
  exists x y, A = PublicKey (Some x) (Some y) (KNetwork key) /\ on_curve (x, y) /\
    ec_nmul (Z.to_nat k) GG = Some (x, y).
Proof.
  intros K Hk H. rewrite (GetPublicKey_eq key k K Hk) in H.
  destruct (ec_nmul (Z.to_nat k) GG) as [[x y]|] eqn:R; [|discriminate].
  exists x, y. split; [congruence|]. split; [|reflexivity].
  exact (valid_some _ _ _ (nmul_valid _ _ GG_valid) R).
Qed.

(** ** C25 *)

Lemma same_point_iff a b x y A B : Key a = Some x -> Key b = Some y -> 0 <= x -> 0 <= y ->
  GetPublicKey E a = Ret (Some A) -> GetPublicKey E b = Ret (Some B) ->
  (PX A = PX B /\ PY A = PY B <-> x mod n256k1 = y mod n256k1).
Proof.
  intros Ka Kb Hx Hy HA HB.
  destruct (GetPublicKey_inv a x A Ka Hx HA) as (xa & ya & -> & _ & Ra).
  destruct (GetPublicKey_inv b y B Kb Hy HB) as (xb & yb & -> & _ & Rb).
  rewrite n256k1_N, <- mulG_eq, Ra, Rb by assumption. cbn. split; [intros [E1 E2]; congruence|].
  intros H. split; congruence.
Qed.

Lemma distinct_points a b x y A B : Key a = Some x -> Key b = Some y ->
  1 <= x < n256k1 -> 1 <= y < n256k1 ->
  GetPublicKey E a = Ret (Some A) -> GetPublicKey E b = Ret (Some B) ->
  PX A = PX B -> PY A = PY B -> x = y.
Proof.
  intros Ka Kb Hx Hy HA HB EX EY.
  assert (M : x mod n256k1 = y mod n256k1) by (eapply same_point_iff; eauto; lia).
  rewrite !Z.mod_small in M by lia. exact M.
Qed.

(** Equal x: the same key or the opposite one. *)
Lemma same_x a b x y A B : Key a = Some x -> Key b = Some y ->
  1 <= x < n256k1 -> 1 <= y < n256k1 ->
  GetPublicKey E a = Ret (Some A) -> GetPublicKey E b = Ret (Some B) ->
  (PX A = PX B <-> x = y \/ x = n256k1 - y).
Proof.
  intros Ka Kb Hx Hy HA HB.
  destruct (GetPublicKey_inv a x A Ka ltac:(lia) HA) as (xa & ya & -> & Ca & Ra).
  destruct (GetPublicKey_inv b y B Kb ltac:(lia) HB) as (xb & yb & -> & Cb & Rb).
  rewrite n256k1_N in *. cbn [PX].
  assert (Neg : ec_nmul (Z.to_nat (secp_N - y)) GG = ec_neg (Some (xb, yb))).
  { rewrite <- Rb. symmetry. apply neg_mulG. lia. }
  split.
  - intros [= ->]. destruct (curve_y _ _ _ Cb Ca) as [->| ->].
    + left. rewrite <- Rb in Ra. apply mulG_eq in Ra; [|lia|lia]. rewrite !Z.mod_small in Ra by lia. exact Ra.
    + right. assert (En : ec_neg (Some (xb, yb)) = Some (xb, secp_P - yb)).
      { cbn. f_equal. f_equal. destruct Cb as (_ & Rg & _).
        assert (yb <> 0).
        { intros ->. destruct Ca as (_ & Rg' & _). lia. }
        replace (- yb) with (secp_P - yb + (-1) * secp_P) by lia.
        rewrite Z.mod_add by auto. apply Z.mod_small. lia. }
      rewrite En, <- Ra in Neg. apply mulG_eq in Neg; [|lia|lia]. rewrite !Z.mod_small in Neg by lia. lia.
  - intros [->| ->]; [congruence|]. rewrite Ra in Neg. cbn in Neg. congruence.
Qed.

(** C55: every point has exactly one private key. *)
Lemma unique_private_key q : curve_point q ->
  exists k, 1 <= k < n256k1 /\
    (forall key, Key key = Some k ->
       GetPublicKey E key = Ret (Some (PublicKey (Some (fst q)) (Some (snd q)) (KNetwork key)))) /\
    (forall key k', Key key = Some k' -> 1 <= k' < n256k1 ->
       GetPublicKey E key = Ret (Some (PublicKey (Some (fst q)) (Some (snd q)) (KNetwork key))) -> k' = k).
Proof.
  intros C. destruct q as [x y]. cbn [fst snd].
  destruct (every_point_once (x, y) C) as (k & Hk & M & U). exists k. split; [exact Hk|]. split.
  - intros key K. destruct (GetPublicKey_range key k K Hk) as (x' & y' & -> & _ & M').
    assert (R : Some (x, y) = Some (x', y')) by (eapply (multiple_fun (Some G256k1) k); eauto; [exact G_point|lia]).
    congruence.
  - intros key k' K Hk' H. apply U; [exact Hk'|].
    destruct (GetPublicKey_range key k' K Hk') as (x' & y' & H' & _ & M'). rewrite H in H'. congruence.
Qed.

(** ** C26 *)

Lemma add_homomorphic a b c x y A B f : Key a = Some x -> Key b = Some y -> 0 <= x -> 0 <= y ->
  KNetwork a = KNetwork b -> KNetwork c = KNetwork a -> Key c = Some ((x + y) mod n256k1) ->
  GetPublicKey E a = Ret (Some A) -> GetPublicKey E b = Ret (Some B) ->
  AddPublicKeys E A B f = match GetPublicKey E c with
                          | Ret (Some C) => Ret (Ok C)
                          | _ => Ret (Err ENotOnCurve)
                          end.
Proof.
  intros Ka Kb Hx Hy Nab Nc Kc HA HB.
  destruct (GetPublicKey_inv a x A Ka Hx HA) as (xa & ya & -> & Ca & Ra).
  destruct (GetPublicKey_inv b y B Kb Hy HB) as (xb & yb & -> & Cb & Rb).
  rewrite n256k1_N in Kc. pose proof CurveGroup.N_pos as NP.
  rewrite (GetPublicKey_eq c _ Kc) by (apply Z.mod_pos_bound; lia).
  rewrite mulG_mod by lia. rewrite <- Nab, AddPublicKeys_eq by assumption.
  rewrite <- Ra, <- Rb, <- nmul_add, <- Z2Nat.inj_add by auto. rewrite Nc.
  destruct (ec_nmul (Z.to_nat (x + y)) GG) as [[x3 y3]|]; reflexivity.
Qed.

Lemma add_keys_agree a b c x y A B f : AddPrivateKeys a b = Ret (Ok c) ->
  Key a = Some x -> Key b = Some y -> 0 <= x -> 0 <= y ->
  GetPublicKey E a = Ret (Some A) -> GetPublicKey E b = Ret (Some B) ->
  AddPublicKeys E A B f = match GetPublicKey E c with
                          | Ret (Some C) => Ret (Ok C)
                          | _ => Ret (Err ENotOnCurve)
                          end.
Proof.
  intros H Ka Kb Hx Hy HA HB.
  apply (combine_success Z.add) in H. destruct H as (x' & y' & Ka' & Kb' & Nab & Kc & Nc & _).
  assert (x' = x) by congruence. assert (y' = y) by congruence. subst x' y'.
  apply (add_homomorphic a b c x y); try assumption.
Qed.

Lemma add_error_iff a b x y A B f : Key a = Some x -> Key b = Some y -> 0 <= x -> 0 <= y ->
  KNetwork a = KNetwork b -> GetPublicKey E a = Ret (Some A) -> GetPublicKey E b = Ret (Some B) ->
  ((exists C, AddPublicKeys E A B f = Ret (Ok C)) <-> ~ (n256k1 | x + y)) /\
  ((n256k1 | x + y) -> AddPublicKeys E A B f = Ret (Err ENotOnCurve)).
Proof.
  intros Ka Kb Hx Hy Nab HA HB.
  destruct (GetPublicKey_inv a x A Ka Hx HA) as (xa & ya & -> & Ca & Ra).
  destruct (GetPublicKey_inv b y B Kb Hy HB) as (xb & yb & -> & Cb & Rb).
  rewrite <- Nab, AddPublicKeys_eq by assumption. rewrite n256k1_N.
  rewrite <- Ra, <- Rb, <- nmul_add, <- Z2Nat.inj_add by auto.
  pose proof (mulG_none (x + y) ltac:(lia)) as M.
  destruct (ec_nmul (Z.to_nat (x + y)) GG) as [[x3 y3]|].
  - split; [split; [|eauto]|].
    + intros _ D. apply M in D. discriminate.
    + intros D. apply M in D. discriminate.
  - split; [split|reflexivity].
    + intros [C H]. discriminate.
    + intros H. exfalso. apply H, M. reflexivity.
Qed.

(** ** C27 *)

Lemma mul_keys_agree a b c x y A B : MultiplyPrivateKeys a b = Ret (Ok c) ->
  Key a = Some x -> Key b = Some y -> 0 <= x -> 0 <= y ->
  GetPublicKey E a = Ret (Some A) -> GetPublicKey E b = Ret (Some B) ->
  exists xa ya xb yb xc yc,
    A = PublicKey (Some xa) (Some ya) (KNetwork a) /\ B = PublicKey (Some xb) (Some yb) (KNetwork b) /\
    GetPublicKey E c = Ret (Some (PublicKey (Some xc) (Some yc) (KNetwork a))) /\
    multiple (Some (xb, yb)) x (Some (xc, yc)) /\ multiple (Some (xa, ya)) y (Some (xc, yc)).
Proof.
  intros H Ka Kb Hx Hy HA HB.
  apply (combine_success Z.mul) in H. destruct H as (x' & y' & Ka' & Kb' & Nab & Kc & Nc & _).
  assert (x' = x) by congruence. assert (y' = y) by congruence. subst x' y'.
  destruct (GetPublicKey_inv a x A Ka Hx HA) as (xa & ya & -> & Ca & Ra).
  destruct (GetPublicKey_inv b y B Kb Hy HB) as (xb & yb & -> & Cb & Rb).
  pose proof CurveGroup.N_pos as NP.
  rewrite (GetPublicKey_eq c _ Kc) by (apply Z.mod_pos_bound; lia).
  rewrite mulG_mod by nia. rewrite Nc.
  assert (D : ~ (secp_N | x * y)).
  { intros D. apply prime_mult in D; [|exact prime_N].
    destruct D as [D|D]; (apply mulG_none in D; [congruence|assumption]). }
  destruct (ec_nmul (Z.to_nat (x * y)) GG) as [[xc yc]|] eqn:R.
  2:{ exfalso. apply D, mulG_none; [nia|exact R]. }
  exists xa, ya, xb, yb, xc, yc. split; [reflexivity|]. split; [reflexivity|]. split; [reflexivity|]. split.
  - apply multiple_iff; [exact Cb|exact Hx|]. etransitivity; [|exact R].
    rewrite Z2Nat.inj_mul, nmul_mul by auto. exact (f_equal (ec_nmul (Z.to_nat x)) (eq_sym Rb)).
  - apply multiple_iff; [exact Ca|exact Hy|]. etransitivity; [|exact R].
    rewrite Z.mul_comm, Z2Nat.inj_mul, nmul_mul by auto. exact (f_equal (ec_nmul (Z.to_nat y)) (eq_sym Ra)).
Qed.

(** ** C29 *)

Lemma Format_injective c x y x' y' n n' s :
  curve_point (x, y) -> curve_point (x', y') ->
  Format (PublicKey (Some x) (Some y) n) c = Ret s -> Format (PublicKey (Some x') (Some y') n') c = Ret s ->
  x = x' /\ y = y'.
Proof.
  intros C C' H H'. apply curve_point_iff in C, C'.
  pose proof P_lt_2_256 as PL. pose proof C as (Rx & Ry & _). pose proof C' as (Rx' & Ry' & _).
  destruct (Format_sec1 x y n c ltac:(lia) ltac:(lia)) as (s1 & b1 & F1 & S1 & T1 & _).
  destruct (Format_sec1 x' y' n' c ltac:(lia) ltac:(lia)) as (s2 & b2 & F2 & S2 & T2 & _).
  assert (s1 = s) by congruence. assert (s2 = s) by congruence. subst s1 s2.
  assert (b1 = b2) by (eapply hex_text_fun; eassumption). subst b2.
  destruct (sec1_inj _ _ _ _ _ _ S1 S2) as [-> Hy]. split; [reflexivity|].
  destruct c; [|exact Hy]. apply (curve_parity x'); [assumption..|].
  rewrite !Zmod_even, Hy. reflexivity.
Qed.

Lemma parity_point x y y' : curve_point (x, y) -> curve_point (x, y') -> Z.even y = Z.even y' -> y = y'.
Proof.
  intros C C' H. apply curve_point_iff in C, C'. apply (curve_parity x); [assumption..|].
  rewrite !Zmod_even, H. reflexivity.
Qed.

(** ** C32 and C31: compressed import *)

Lemma neg_parity y : 0 <= y < secp_P -> y <> 0 -> (secp_P - y) mod 2 = 1 - y mod 2.
Proof.
  intros R N0. pose proof P_odd as PO. rewrite Zminus_mod, PO.
  pose proof (Z.mod_pos_bound y 2 ltac:(lia)). assert (y mod 2 = 0 \/ y mod 2 = 1) as [-> | ->] by lia; reflexivity.
Qed.

Lemma import_x_point par x net : (par = 0 \/ par = 1) -> 0 <= x < secp_P ->
  (exists y, on_curve (x, y) /\ y mod 2 = par /\
     import_x E par (Some x) net = Ret (Ok (PublicKey (Some x) (Some y) net))) \/
  ((~ exists y, on_curve (x, y)) /\ import_x E par (Some x) net = Ret (Err ENotOnSecp)).
Proof.
  intros Hpar Hx. unfold import_x.
  destruct (contract_GetY E HE x) as [I P]; [rewrite p256k1_P; exact Hx|].
  destruct (lib_GetY E x) as [y b]. cbn [fst snd] in I, P. destruct b.
  - left. specialize (P eq_refl). apply curve_point_iff in P. cbn [negb].
    destruct (Z.eqb_spec (y mod 2) par) as [Ey|Ey].
    + exists y. auto.
    + pose proof P as (_ & Ry & _).
      assert (Ny : y <> 0).
      { intros ->. apply on_curve_F, oncF_y in P. auto. }
      destruct (contract_MultMod E HE y (-1)) as [Rm Cm]; [rewrite p256k1_P; exact Ry|].
      rewrite p256k1_P in Rm. apply cong_F in Cm.
      assert (Em : lib_MultMod E y (-1) = secp_P - y).
      { apply ofZ_inj; [exact Rm|lia|]. rewrite Cm. apply ofZ_eq.
        replace (secp_P - y) with (y * -1 + 1 * secp_P) by lia. symmetry. apply Z.mod_add. auto. }
      exists (secp_P - y). rewrite Em. split; [|split; [|reflexivity]].
      * apply onc_Z; [exact Hx|lia|].
        assert (Eo : ofZ (secp_P - y) = Fopp (ofZ y)).
        { rewrite <- ofZ_opp. apply ofZ_eq. replace (secp_P - y) with (- y + 1 * secp_P) by lia.
          apply Z.mod_add. auto. }
        rewrite Eo. apply oncF_opp, on_curve_F, P.
      * rewrite neg_parity by assumption. pose proof (Z.mod_pos_bound y 2 ltac:(lia)). lia.
  - right. split; [|reflexivity]. intros (y' & C).
    assert (false = true); [|discriminate]. apply I. exists y'. apply curve_point_iff, C.
Qed.

Lemma hex_number_nonneg s x : hex_number s x -> 0 <= x.
Proof.
  intros H. apply hex_number_scan in H. destruct H as (_ & H).
  destruct (scan fromhex s) as [ds|] eqn:Hs; [|discriminate]. cbn in H. injection H as <-.
  apply valb_nonneg; [lia|]. apply (scan_hex_ok _ _ Hs).
Qed.

Lemma compressed_import s net (b : bool) x :
  substring s 0 2 = str (if b then "02" else "03") -> (66 <= length s)%nat ->
  hex_number (substring s 2 66) x -> x < p256k1 ->
  ((exists y, curve_point (x, y)) ->
   exists y, curve_point (x, y) /\ Z.even y = b /\
     PublicFromHex E s net = Ret (Ok (PublicKey (Some x) (Some y) net))) /\
  ((~ exists y, curve_point (x, y)) -> PublicFromHex E s net = Ret (Err ENotOnSecp)).
Proof.
  intros Hp Hl Hx HxP. rewrite (PublicFromHex_0203 E s net b Hp Hl).
  assert (Hs : set_string16 (substring s 2 66) = Some x) by (apply set_string16_signed; left; exact Hx).
  rewrite Hs. rewrite p256k1_P in HxP.
  assert (0 <= x) by (eapply hex_number_nonneg; exact Hx).
  destruct (import_x_point (if b then 0 else 1) x net) as [(y & C & Py & Hi)|[Nc Hi]];
    [destruct b; auto|lia| |].
  - split.
    + intros _. exists y. split; [apply curve_point_iff, C|]. split; [|exact Hi].
      rewrite Zmod_even in Py. destruct b, (Z.even y); congruence.
    + intros N. exfalso. apply N. exists y. apply curve_point_iff, C.
  - split; [|intros _; exact Hi]. intros (y & C). exfalso. apply Nc. exists y. apply curve_point_iff, C.
Qed.

Lemma compressed_round_trip x y net net' s : curve_point (x, y) ->
  Format (PublicKey (Some x) (Some y) net) true = Ret s ->
  PublicFromHex E s net' = Ret (Ok (PublicKey (Some x) (Some y) net')).
Proof.
  intros C H. pose proof C as (Rx & Ry & _). cbn [fst snd] in Rx, Ry. rewrite p256k1_P in Rx, Ry.
  pose proof P_lt_2_256 as PL. rewrite Format_compressed in H.
  assert (s = str (if Z.even y then "02" else "03") ++ hex64 x) as -> by congruence. clear H.
  pose proof (hex64_length x ltac:(lia)) as Lx.
  assert (Hp : substring (str (if Z.even y then "02" else "03") ++ hex64 x) 0 2 =
               str (if Z.even y then "02" else "03")) by (destruct (Z.even y); reflexivity).
  assert (Hl : length (str (if Z.even y then "02" else "03") ++ hex64 x) = 66%nat)
    by (rewrite app_length, Lx; destruct (Z.even y); reflexivity).
  assert (Sx : substring (str (if Z.even y then "02" else "03") ++ hex64 x) 2 66 = hex64 x).
  { pose proof (substring_mid (str (if Z.even y then "02" else "03")) (hex64 x) []) as K.
    rewrite Lx, app_nil_r in K. destruct (Z.even y); exact K. }
  rewrite (PublicFromHex_0203 E _ net' (Z.even y) Hp) by lia. rewrite Sx.
  unfold hex64 at 1. rewrite pad_left_sprintf_x_value by lia.
  apply curve_point_iff in C.
  destruct (import_x_point (if Z.even y then 0 else 1) x net') as [(y' & C' & Py & Hi)|[Nc Hi]];
    [destruct (Z.even y); auto|lia| |].
  - rewrite Hi. rewrite <- Zmod_even in Py. rewrite (curve_parity _ _ _ C C'); [reflexivity|auto].
  - exfalso. apply Nc. exists y. exact C.
Qed.

Lemma round_trip x y net net' c s : curve_point (x, y) ->
  Format (PublicKey (Some x) (Some y) net) c = Ret s ->
  PublicFromHex E s net' = Ret (Ok (PublicKey (Some x) (Some y) net')).
Proof.
  intros C H. destruct c; [eapply compressed_round_trip; eassumption|].
  destruct C as (Rx & Ry & _). cbn [fst snd] in Rx, Ry. rewrite p256k1_P in Rx, Ry. pose proof P_lt_2_256.
  eapply uncompressed_round_trip; [| |exact H]; lia.
Qed.

(** ** C37 *)

Lemma address_paths key k A c d s : Key key = Some k -> 0 <= k -> GetPublicKey E key = Ret (Some A) ->
  Format A c = Ret s ->
  exists B, PublicFromHex E s (KNetwork key) = Ret (Ok B) /\ B = A /\ Address B d = Address A d.
Proof.
  intros K Hk HA HF. destruct (GetPublicKey_inv key k A K Hk HA) as (x & y & -> & C & _).
  eexists. split; [|split; reflexivity]. eapply round_trip; [apply curve_point_iff, C|exact HF].
Qed.

Lemma address_total key k n v c : Key key = Some k -> 0 <= k -> ~ (n256k1 | k) ->
  KNetwork key = Some n -> hex_text (PubKeyHashPrefix n) v ->
  exists A a, GetPublicKey E key = Ret (Some A) /\ Address A c = Ret (Ok a).
Proof.
  intros K Hk Hn Hnet Hv. destruct (GetPublicKey_point key k K Hk Hn) as (x & y & HA & C & _).
  destruct C as (Rx & Ry & _). cbn [fst snd] in Rx, Ry. rewrite p256k1_P in Rx, Ry. pose proof P_lt_2_256.
  rewrite Hnet in HA.
  destruct (Address_base58check x y n v c ltac:(lia) ltac:(lia) Hv) as (a & bs & Ha & _). eauto.
Qed.

(** ** C38 *)

Lemma AddPublicKeys_sum x1 y1 x2 y2 net c : curve_point (x1, y1) -> curve_point (x2, y2) ->
  (exists x y, AddPublicKeys E (PublicKey (Some x1) (Some y1) net) (PublicKey (Some x2) (Some y2) net) c =
     Ret (Ok (PublicKey (Some x) (Some y) net)) /\
     curve_point (x, y) /\ point_sum (Some (x1, y1)) (Some (x2, y2)) (Some (x, y))) \/
  (AddPublicKeys E (PublicKey (Some x1) (Some y1) net) (PublicKey (Some x2) (Some y2) net) c =
     Ret (Err ENotOnCurve) /\ point_sum (Some (x1, y1)) (Some (x2, y2)) None).
Proof.
  intros C1 C2. apply curve_point_iff in C1, C2. rewrite AddPublicKeys_eq by assumption.
  destruct (ec_add (Some (x1, y1)) (Some (x2, y2))) as [[x y]|] eqn:S.
  - left. exists x, y. split; [reflexivity|]. split.
    + apply curve_point_iff. refine (valid_some _ _ _ (ec_add_valid _ _ _ _) S); assumption.
    + apply point_sum_iff; assumption.
  - right. split; [reflexivity|]. apply point_sum_iff; assumption.
Qed.

Lemma AddPublicKeys_comm p q c d : curve_key p -> curve_key q -> PNetwork p = PNetwork q ->
  AddPublicKeys E p q c = AddPublicKeys E q p d.
Proof.
  destruct p as [px py pn], q as [qx qy qn]. intros (x & y & Hx & Hy & C) (x' & y' & Hx' & Hy' & C') N.
  cbn in *. subst. apply curve_point_iff in C, C'. rewrite !AddPublicKeys_eq by assumption.
  rewrite (ec_add_comm (Some (x, y)) (Some (x', y'))) by assumption. reflexivity.
Qed.

Lemma AddPublicKeys_networks p q c : PNetwork p <> PNetwork q ->
  AddPublicKeys E p q c = Ret (Err EDifferentNetwork).
Proof.
  intros H. unfold AddPublicKeys. apply net_eqb_neq in H. rewrite H. reflexivity.
Qed.

Lemma AddPublicKeys_flag p q c d : AddPublicKeys E p q c = AddPublicKeys E p q d.
Proof. reflexivity. Qed.

Lemma AddPublicKeys_inv p q c r : curve_key p -> curve_key q -> AddPublicKeys E p q c = Ret (Ok r) ->
  exists x1 y1 x2 y2 x y, p = PublicKey (Some x1) (Some y1) (PNetwork p) /\
    q = PublicKey (Some x2) (Some y2) (PNetwork p) /\ r = PublicKey (Some x) (Some y) (PNetwork p) /\
    on_curve (x1, y1) /\ on_curve (x2, y2) /\ on_curve (x, y) /\
    ec_add (Some (x1, y1)) (Some (x2, y2)) = Some (x, y).
Proof.
  destruct p as [px py pn], q as [qx qy qn]. intros (x1 & y1 & Hx & Hy & C) (x2 & y2 & Hx' & Hy' & C') H.
  cbn in *. subst. apply curve_point_iff in C, C'.
  destruct (net_eqb pn qn) eqn:En; [apply net_eqb_eq in En|apply net_eqb_neq in En].
  2:{ rewrite AddPublicKeys_networks in H by exact En. discriminate. }
  subst qn. rewrite AddPublicKeys_eq in H by assumption.
  destruct (ec_add (Some (x1, y1)) (Some (x2, y2))) as [[x y]|] eqn:S; [|discriminate].
  exists x1, y1, x2, y2, x, y. split; [reflexivity|]. split; [reflexivity|]. split; [congruence|].
  split; [exact C|]. split; [exact C'|]. split; [|exact S].
  refine (valid_some _ _ _ (ec_add_valid _ _ _ _) S); assumption.
Qed.

Lemma AddPublicKeys_closed p q c r : curve_key p -> curve_key q -> AddPublicKeys E p q c = Ret (Ok r) ->
  curve_key r /\ PNetwork r = PNetwork p.
Proof.
  intros Hp Hq H. destruct (AddPublicKeys_inv p q c r Hp Hq H) as (x1 & y1 & x2 & y2 & x & y & _ & _ & -> & _ & _ & C & _).
  split; [|reflexivity]. exists x, y. split; [reflexivity|]. split; [reflexivity|]. apply curve_point_iff, C.
Qed.

Lemma AddPublicKeys_assoc p q r pq qr c d e f : curve_key p -> curve_key q -> curve_key r ->
  AddPublicKeys E p q c = Ret (Ok pq) -> AddPublicKeys E q r d = Ret (Ok qr) ->
  AddPublicKeys E pq r e = AddPublicKeys E p qr f.
Proof.
  intros Hp Hq Hr H1 H2.
  destruct (AddPublicKeys_inv p q c pq Hp Hq H1) as (x1 & y1 & x2 & y2 & x & y & Ep & Eq & Epq & C1 & C2 & C12 & S1).
  destruct (AddPublicKeys_inv q r d qr Hq Hr H2) as (x2' & y2' & x3 & y3 & x' & y' & Eq' & Er & Eqr & _ & C3 & C23 & S2).
  assert (x2' = x2) by congruence. assert (y2' = y2) by congruence.
  assert (Hn : PNetwork q = PNetwork p) by (rewrite Eq; reflexivity). subst x2' y2'.
  rewrite Epq, Er, Eqr, Hn, Ep. cbn [PNetwork]. rewrite !AddPublicKeys_eq by assumption.
  rewrite <- S1, <- S2, ec_add_assoc by assumption. reflexivity.
Qed.

(** Uncompressed import checks nothing. *)
Lemma uncompressed_unchecked s net x y :
  substring s 0 2 = str "04" -> (130 <= length s)%nat ->
  hex_number (substring s 2 66) x -> hex_number (substring s 66 130) y ->
  PublicFromHex E s net = Ret (Ok (PublicKey (Some x) (Some y) net)).
Proof.
  intros Hp Hl Hx Hy. rewrite (PublicFromHex_04 E s net Hp Hl).
  assert (Sx : set_string16 (substring s 2 66) = Some x) by (apply set_string16_signed; left; exact Hx).
  assert (Sy : set_string16 (substring s 66 130) = Some y) by (apply set_string16_signed; left; exact Hy).
  rewrite Sx, Sy. reflexivity.
Qed.

Lemma curve_key_coords p : curve_key p -> exists x y, p = PublicKey (Some x) (Some y) (PNetwork p) /\ curve_point (x, y).
Proof. destruct p as [px py n]. intros (x & y & Hx & Hy & C). cbn in *. subst. eauto. Qed.

Lemma export_import p c net s : curve_key p -> Format p c = Ret s ->
  PublicFromHex E s net = Ret (Ok (PublicKey (PX p) (PY p) net)).
Proof.
  intros K HF. destruct (curve_key_coords p K) as (x & y & Ep & C). rewrite Ep in HF. rewrite Ep. cbn [PX PY].
  eapply round_trip; eassumption.
Qed.

Lemma imports_agree p s1 s2 net : curve_key p -> Format p true = Ret s1 -> Format p false = Ret s2 ->
  PublicFromHex E s1 net = PublicFromHex E s2 net.
Proof.
  intros K H1 H2. rewrite (export_import p true net s1 K H1), (export_import p false net s2 K H2). reflexivity.
Qed.

Lemma AddPublicKeys_point p q c x1 y1 x2 y2 : curve_key p -> curve_key q -> PNetwork p = PNetwork q ->
  PX p = Some x1 -> PY p = Some y1 -> PX q = Some x2 -> PY q = Some y2 ->
  (exists x y, AddPublicKeys E p q c = Ret (Ok (PublicKey (Some x) (Some y) (PNetwork p))) /\
     point_sum (Some (x1, y1)) (Some (x2, y2)) (Some (x, y))) \/
  (AddPublicKeys E p q c = Ret (Err ENotOnCurve) /\ point_sum (Some (x1, y1)) (Some (x2, y2)) None).
Proof.
  destruct p as [px py pn], q as [qx qy qn]. intros (x & y & Hx & Hy & C) (x' & y' & Hx' & Hy' & C') N.
  cbn in *. subst. intros [= ->] [= ->] [= ->] [= ->].
  destruct (AddPublicKeys_sum x1 y1 x2 y2 qn c C C') as [(x & y & H & _ & S)|H]; eauto 6.
Qed.

End WithLib.

Lemma parameters :
  secp_P = p256k1 /\ secp_N = n256k1 /\ secp_A = 0 /\ secp_B = 7 /\ (secp_Gx, secp_Gy) = G256k1.
Proof. exact (conj (eq_sym p256k1_P) (conj (eq_sym n256k1_N) (conj eq_refl (conj eq_refl (eq_sym G256k1_G))))). Qed.
