(** * Which correct library is used does not matter: proofs (C104) *)

From Coq Require Import Lia.
From Verif Require Import GoBase GoNum GoRand Model Spec SpecFacts CurveSpec EcdsaContract EcRef EcFacts Curve CurveMul CurveGroup HexFacts PubFacts PubCurve CombFacts NumFacts.
From Verif Require Import SpecSession Session SpecLibs.
Local Open Scope Z_scope.
Local Opaque secp_P secp_N p256k1 n256k1.

Section TwoLibs.
Context (E1 E2 : ecdsa_lib) (H1 : ecdsa_contract E1) (H2 : ecdsa_contract E2).

Lemma libs_GetPublicKey key : (forall k, Key key = Some k -> 0 <= k) -> GetPublicKey E1 key = GetPublicKey E2 key.
Proof.
  intros Hk. destruct (Key key) as [k|] eqn:K.
  - rewrite (GetPublicKey_eq E1 H1 key k K (Hk k eq_refl)), (GetPublicKey_eq E2 H2 key k K (Hk k eq_refl)). reflexivity.
  - unfold GetPublicKey. rewrite K. reflexivity.
Qed.

Lemma libs_AddPublicKeys p q c : (PNetwork p = PNetwork q -> curve_key p /\ curve_key q) ->
  AddPublicKeys E1 p q c = AddPublicKeys E2 p q c.
Proof.
  intros HC. destruct p as [px py pn], q as [qx qy qn]. cbn [PNetwork] in HC.
  destruct (net_eqb pn qn) eqn:N.
  - apply net_eqb_eq in N. destruct (HC N) as ((x & y & Hx & Hy & C) & (x' & y' & Hx' & Hy' & C')).
    cbn [PX PY] in *. subst. apply curve_point_iff in C, C'.
    rewrite (AddPublicKeys_eq E1 H1), (AddPublicKeys_eq E2 H2) by assumption. reflexivity.
  - unfold AddPublicKeys. cbn [PNetwork]. rewrite N. reflexivity.
Qed.

Lemma libs_import par x net : par = 0 \/ par = 1 -> 0 <= x < secp_P ->
  import_x E1 par (Some x) net = import_x E2 par (Some x) net.
Proof.
  intros Hp Hx.
  destruct (import_x_point E1 H1 par x net Hp Hx) as [(y & C & P & ->)|(N & ->)],
           (import_x_point E2 H2 par x net Hp Hx) as [(y' & C' & P' & ->)|(N' & ->)]; [|exfalso; eauto..|reflexivity].
  rewrite (curve_parity _ _ _ C C'); [reflexivity|congruence].
Qed.

Lemma libs_PublicFromHex s net : x_in_field s -> PublicFromHex E1 s net = PublicFromHex E2 s net.
Proof.
  intros HX. destruct (Nat.lt_ge_cases (length s) 2) as [L|L].
  { unfold PublicFromHex. rewrite slice_bad by (unfold len; lia). reflexivity. }
  assert (C : forall b : bool, substring s 0 2 = str (if b then "02" else "03") -> PublicFromHex E1 s net = PublicFromHex E2 s net).
  { intros b Hb. assert (Hb' : substring s 0 2 = str "02" \/ substring s 0 2 = str "03") by (destruct b; auto).
    destruct (Nat.lt_ge_cases (length s) 66) as [L'|L'].
    - rewrite !PublicFromHex_0203_short by (auto || lia). reflexivity.
    - rewrite !(PublicFromHex_0203 _ s net b Hb L').
      destruct (set_string16 (substring s 2 66)) as [x|] eqn:Sx; [|reflexivity].
      apply libs_import; [destruct b; auto|]. apply set_string16_signed in Sx. rewrite <- p256k1_P. exact (HX Hb' x Sx). }
  destruct (list_eq_dec Byte.byte_eq_dec (substring s 0 2) (str "02")) as [Q2|Q2]; [exact (C true Q2)|].
  destruct (list_eq_dec Byte.byte_eq_dec (substring s 0 2) (str "03")) as [Q3|Q3]; [exact (C false Q3)|].
  unfold PublicFromHex. rewrite (PublicFromHex_prefix s net L). cbn [bind].
  apply str_eqb_neq in Q2, Q3. rewrite Q2, Q3. reflexivity.
Qed.

Lemma stands_back h H i a : Forall2 stands_for h H -> nth_error H i = Some a ->
  exists m, nth_error h i = Some m /\ stands_for m a.
Proof.
  intros F. revert i. induction F as [|m' a' h H S F IH]; intros [|i] Hi; cbn in *; try discriminate; eauto.
  injection Hi as ->. eauto.
Qed.

Lemma stands_private m k : stands_for m (APrivate k) -> forall z, Key k = Some z -> 0 <= z.
Proof.
  destruct m; cbn [stands_for]; try discriminate.
  - intros (k' & Ek & K & R & _) z Hz. injection Ek as <-. rewrite K in Hz. injection Hz as <-. lia.
  - intros (x & y & Q & _). discriminate.
  - intros (x & y & bs' & s & Q & _). discriminate.
  - intros (x & y & bs' & p & s & Q & _). discriminate.
Qed.
Lemma stands_public m p : stands_for m (APublic p) -> curve_key p.
Proof.
  destruct m; cbn [stands_for]; try discriminate.
  - intros (k' & Ek & _). discriminate.
  - intros (x & y & Q & P). injection Q as ->. exists x, y. cbn [PX PY]. split; [reflexivity|]. split; [reflexivity|].
    exact (point_curve E1 H1 _ _ P).
  - intros (x & y & bs' & s & Q & _). discriminate.
  - intros (x & y & bs' & q & s & Q & _). discriminate.
Qed.
Lemma stands_text m t : stands_for m (AText t) ->
  exists c x y bs, curve_point (x, y) /\ sec1 c x y bs /\ hex_text t bs.
Proof.
  destruct m; cbn [stands_for]; try discriminate.
  - intros (k' & Ek & _). discriminate.
  - intros (x & y & Q & _). discriminate.
  - intros (x & y & bs' & s & Q & P & S & T). injection Q as ->. exists c, x, y, bs'.
    split; [exact (point_curve E1 H1 _ _ P)|auto].
  - intros (x & y & bs' & q & s & Q & _). discriminate.
Qed.

Lemma libs_perform h H r rd : Forall2 stands_for h H -> sensible r -> perform E1 H r rd = perform E2 H r rd.
Proof.
  intros F Hr.
  destruct r as [n|t n|t n|t n|i n|i n|i j|i j|i|i j c|i c|i n|i c];
    [reflexivity|reflexivity|reflexivity| |reflexivity|reflexivity|reflexivity|reflexivity| | |reflexivity| |reflexivity];
    cbn [perform reply sensible] in *.
  - destruct Hr as (_ & c & x & y & bs & C & S & T).
    rewrite (import_text E1 H1 t bs c x y n T S C), (import_text E2 H2 t bs c x y n T S C). reflexivity.
  - destruct (nth_error H i) as [[k| | | | | |]|] eqn:Hi; [|reflexivity..].
    destruct (stands_back _ _ _ _ F Hi) as (m & _ & S). rewrite (libs_GetPublicKey k (stands_private _ _ S)). reflexivity.
  - destruct (nth_error H i) as [[|p| | | | |]|] eqn:Hi; [reflexivity| |reflexivity..].
    destruct (nth_error H j) as [[|q| | | | |]|] eqn:Hj; [reflexivity| |reflexivity..].
    destruct (stands_back _ _ _ _ F Hi) as (m & _ & S), (stands_back _ _ _ _ F Hj) as (m' & _ & S').
    rewrite libs_AddPublicKeys; [reflexivity|]. intros _. split; eapply stands_public; eassumption.
  - destruct (nth_error H i) as [[| |t| | | |]|] eqn:Hi; [reflexivity|reflexivity| |reflexivity..].
    destruct (stands_back _ _ _ _ F Hi) as (m & _ & S). destruct (stands_text _ _ S) as (c & x & y & bs & C & S' & T).
    rewrite (import_text E1 H1 t bs c x y n T S' C), (import_text E2 H2 t bs c x y n T S' C). reflexivity.
Qed.

Lemma libs_session_from rs : forall h H rd, Forall2 stands_for h H -> Forall fine h -> Forall sensible rs ->
  session E1 H rs rd = session E2 H rs rd.
Proof.
  induction rs as [|r rs IH]; intros h H rd F W Hr; [reflexivity|].
  inversion Hr as [|? ? Hr1 Hr2]; subst. cbn [session]. rewrite (libs_perform h H r rd F Hr1).
  destruct (perform_total E2 h H r rd F W Hr1) as [(m & rest & M)|(-> & _)]; [|reflexivity].
  destruct (perform_forward E2 H2 _ _ _ _ _ _ F W Hr1 M) as (a & -> & S & Wm).
  apply (IH (h ++ [m])); [apply Forall2_app; auto|apply Forall_app; auto|exact Hr2].
Qed.

Lemma libs_session rs rd : Forall sensible rs -> session E1 [] rs rd = session E2 [] rs rd.
Proof. apply (libs_session_from rs [] [] rd); constructor. Qed.

End TwoLibs.

(** ** The lax libraries *)

Lemma lax_lib_meets b : ecdsa_contract (lax_lib b).
Proof.
  pose proof ref_lib_meets as R. constructor.
  - intros x Hx. assert (I : in_field x = true).
    { unfold in_field. rewrite p256k1_P in Hx. apply andb_true_intro. split; [apply Z.leb_le|apply Z.ltb_lt]; lia. }
    cbn [lib_GetY lax_lib]. rewrite I. exact (contract_GetY _ R x Hx).
  - exact (contract_MultMod _ R).
  - intros k q r Hk C M. cbn [lib_ScalarMult lax_lib]. rewrite (proj2 (Z.leb_le 0 k) Hk).
    exact (contract_ScalarMult _ R k q r Hk C M).
  - intros k q Hk C M. cbn [lib_ScalarMult lax_lib]. rewrite (proj2 (Z.leb_le 0 k) Hk).
    exact (contract_ScalarMult_infinity _ R k q Hk C M).
  - intros q r s Cq Cr S. cbn [lib_AddPoints lax_lib].
    rewrite (proj2 (on_curveb_ok q) (proj1 (curve_point_iff q) Cq)), (proj2 (on_curveb_ok r) (proj1 (curve_point_iff r) Cr)).
    exact (contract_AddPoints _ R q r s Cq Cr S).
  - intros q r Cq Cr S. cbn [lib_AddPoints lax_lib].
    rewrite (proj2 (on_curveb_ok q) (proj1 (curve_point_iff q) Cq)), (proj2 (on_curveb_ok r) (proj1 (curve_point_iff r) Cr)).
    exact (contract_AddPoints_infinity _ R q r Cq Cr S).
Qed.

(** Where the contract says nothing, the two differ. *)
Lemma lax_GetPublicKey key k : Key key = Some k -> k < 0 -> GetPublicKey (lax_lib true) key <> GetPublicKey (lax_lib false) key.
Proof.
  intros K Hk. unfold GetPublicKey. rewrite K. cbn [lib_ScalarMult lax_lib].
  rewrite (proj2 (Z.leb_gt 0 k)) by exact Hk. cbn. discriminate.
Qed.

Lemma lax_AddPublicKeys x1 y1 x2 y2 net c : ~ (curve_point (x1, y1) /\ curve_point (x2, y2)) ->
  AddPublicKeys (lax_lib true) (PublicKey (Some x1) (Some y1) net) (PublicKey (Some x2) (Some y2) net) c <>
  AddPublicKeys (lax_lib false) (PublicKey (Some x1) (Some y1) net) (PublicKey (Some x2) (Some y2) net) c.
Proof.
  intros N. unfold AddPublicKeys. cbn [PNetwork PX PY]. rewrite net_eqb_refl. cbn [negb lib_AddPoints lax_lib].
  destruct (on_curveb (x1, y1) && on_curveb (x2, y2)) eqn:Q; [|cbn; discriminate].
  exfalso. apply N. apply andb_prop in Q. destruct Q as [Q1 Q2].
  split; apply curve_point_iff, on_curveb_ok; assumption.
Qed.

Lemma lax_PublicFromHex s net : (66 <= length s)%nat ->
  (exists x, signed_hex_number (substring s 2 66) x) -> ~ x_in_field s ->
  PublicFromHex (lax_lib true) s net <> PublicFromHex (lax_lib false) s net.
Proof.
  intros L (x & Hx) N. 
  assert (C : forall b : bool, substring s 0 2 = str (if b then "02" else "03") ->
    PublicFromHex (lax_lib true) s net <> PublicFromHex (lax_lib false) s net).
  { intros b Hb. rewrite !(PublicFromHex_0203 _ s net b Hb L). apply set_string16_signed in Hx. rewrite Hx.
    unfold import_x. cbn [lib_GetY lax_lib]. destruct (in_field x) eqn:I; [|cbn; destruct b; discriminate].
    exfalso. apply N. intros _ x' Hx'. apply set_string16_signed in Hx'. rewrite Hx in Hx'. injection Hx' as <-.
    unfold in_field in I. apply andb_prop in I. destruct I as [I1 I2]. rewrite p256k1_P. apply Z.leb_le in I1. apply Z.ltb_lt in I2. lia. }
  destruct (list_eq_dec Byte.byte_eq_dec (substring s 0 2) (str "02")) as [Q|Q]; [exact (C true Q)|].
  destruct (list_eq_dec Byte.byte_eq_dec (substring s 0 2) (str "03")) as [Q'|Q']; [exact (C false Q')|].
  exfalso. apply N. intros [?|?]; contradiction.
Qed.

Lemma example_in_field : x_in_field (str "02c6047f9441ed7d6d3045406e95c07cd85c778e4b8cef3ca7abac09b95c709ee5").
Proof.
  intros _ x Hx. apply set_string16_signed in Hx. vm_compute in Hx. injection Hx as <-. vm_compute. split; [discriminate|reflexivity].
Qed.
Lemma example_not_in_field : exists x,
  let s := str "03ffffffffffffffffffffffffffffffffffffffffffffffffffffffffffffffff" in
  signed_hex_number (substring s 2 66) x /\ ~ x_in_field s.
Proof.
  exists (2 ^ 256 - 1). cbv zeta. 
  assert (S : set_string16 (substring (str "03ffffffffffffffffffffffffffffffffffffffffffffffffffffffffffffffff") 2 66) = Some (2 ^ 256 - 1))
    by (vm_compute; reflexivity).
  apply set_string16_signed in S. split; [exact S|].
  intros X. specialize (X (or_intror eq_refl) _ S). destruct X as (_ & X). vm_compute in X. discriminate.
Qed.
