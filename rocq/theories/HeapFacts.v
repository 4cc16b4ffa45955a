(** * Every heap program computes what its value model computes *)

From Verif Require Import GoBase GoNum Sha256 Ripemd160 Base58 GoRand Model Heap HeapSem HeapWp HeapRules.
Local Open Scope Z_scope.
Local Opaque sha256 ripemd160 secp_P secp_N b58decode b58encode hex_decode hex_encode slice.

Ltac fr_tac := repeat match goal with
  | H : look _ (oset _ _ _) _ = None |- _ => apply look_oset_none in H; destruct H as [H ?] end.
Ltac own_tac := solve [repeat first [assumption | apply oset_own | apply oset_own_other]].
Ltac at_tac := solve [repeat first [eassumption | apply look_oset_same | rewrite look_oset_other by congruence]].
Ltac keep_tac := solve [repeat first [assumption | apply keep_refl | apply keep_oset]].

Section Str.
Context {B : Type} (F : omap).
Lemma b_SetString own tr lg parse z s (f : ptr -> prog B) Q : own z <> None ->
  match parse s with
  | Some v => behaves F (oset own z (OInt v)) tr lg (f (Some z)) Q
  | None => behaves F own tr lg (f None) Q
  end -> behaves F own tr lg (pbind (int_SetString parse z s) f) Q.
Proof. intros Hz. unfold int_SetString. destruct (parse s); cbn; auto. Qed.
End Str.

(** One step of symbolic execution where nothing is to be decided. *)
Ltac go1 :=
  match goal with
  | |- behaves _ _ _ _ (pbind (alloc _) _) _ => apply b_alloc; intros
  | |- behaves _ _ _ _ (pbind new_int _) _ => apply b_alloc; intros
  | |- behaves _ _ _ _ (pbind (new_int_of _) _) _ => apply b_alloc; intros
  | |- behaves _ _ _ _ (pbind (write _ _) _) _ => apply b_write; [own_tac|]
  | |- behaves _ _ _ _ (pbind (int_SetZ _ _) _) _ => apply b_SetZ; [own_tac|]
  | |- behaves _ _ _ _ (pbind (int_SetString _ _ _) _) _ => apply b_SetString; [own_tac|]
  | |- behaves _ _ _ _ (pbind (pure _) _) _ => apply b_pure
  | |- behaves _ _ _ _ (PRet _) _ => cbn [behaves]
  | |- behaves _ _ _ _ (PPanic _) _ => cbn [behaves]
  end.
Ltac go := repeat go1.

(** [o] is a new key whose network is the given pointer and whose value is [v]. *)
Definition new_priv (F own : omap) (net : ptr) (own' : omap) (a : addr) (v : private_key) : Prop :=
  look F own a = None /\ own' a <> None /\
  exists k, look F own' a = Some (OPriv k (Hex v) (WIF v) net) /\ int_at (look F own') k (Key v) /\
            net_at (look F own') net (KNetwork v).
Lemma new_priv_at F own net own' a v : new_priv F own net own' a v -> priv_at (look F own') a v.
Proof. intros (_ & _ & k & H1 & H2 & H3). exists k, net. auto. Qed.

Definition priv_result (F own : omap) (net : ptr) (v : outcome (result private_key)) (own' : omap)
  (o : outcome (result addr)) : Prop := rel_out (rel_res (new_priv F own net own')) o v.

Ltac quit := cbn [behaves]; split; [keep_tac|]; split; [reflexivity|]; split; [reflexivity|]; try reflexivity.

Lemma PrivateFromWIF_heap F own s p v : net_at (look F own) p v ->
  quiet F own (h_PrivateFromWIF s p) (priv_result F own p (PrivateFromWIF s v)).
Proof.
  intros Hn tr lg. unfold h_PrivateFromWIF, PrivateFromWIF. go.
  destruct (CheckWIF s) as [[|]|e]; cbn [negb bind]; [|quit|quit].
  destruct (b58decode s) as [bytes|e]; cbn [pbind_res bind_res]; [|quit].
  go. destruct (slice _ 2 _) as [h1|]; cbn [bind]; [|quit].
  go. destruct (slice _ 0 _) as [h2|]; cbn [bind]; [|quit].
  go. fr_tac. assert (K : forall own', keep F own own' -> net_at (look F own') p v).
  { intros own' [I _]. eapply net_mono; eauto. }
  destruct (set_string16 h2) as [z|] eqn:Ez; go; quit.
  all: cbn [rel_out rel_res]; split; [assumption|]; split; [own_tac|].
  - exists (Some a0). split; [at_tac|]. split; [exists z; split; [at_tac|reflexivity]|].
    apply K. keep_tac.
  - exists None. split; [at_tac|]. split; [reflexivity|]. apply K. keep_tac.
Qed.

Lemma PrivateFromHex_heap F own s p v : net_at (look F own) p v ->
  quiet F own (h_PrivateFromHex s p) (priv_result F own p (PrivateFromHex s v)).
Proof.
  intros Hn tr lg. unfold h_PrivateFromHex, PrivateFromHex.
  assert (K : forall own', keep F own own' -> net_at (look F own') p v).
  { intros own' [I _]. eapply net_mono; eauto. }
  go. fr_tac. destruct (set_string16 s) as [z|]; go.
  all: eapply b_read_net; [apply K; keep_tac|].
  all: destruct v as [n|]; [|quit].
  all: destruct (hex_decode _) as [b1|e]; cbn [pbind_res bind_res]; [|quit].
  all: go; destruct (slice _ 0 8) as [c|e]; cbn [bind]; [|quit].
  all: destruct (hex_decode _) as [b2|e]; cbn [pbind_res bind_res]; [|quit].
  all: go; quit; cbn [rel_out rel_res]; split; [assumption|]; split; [own_tac|].
  - exists (Some a0). split; [at_tac|]. split; [exists z; split; [at_tac|reflexivity]|apply K; keep_tac].
  - exists None. split; [at_tac|]. split; [reflexivity|apply K; keep_tac].
Qed.

Lemma keep_net F own own' p v : net_at (look F own) p v -> keep F own own' -> net_at (look F own') p v.
Proof. intros H [I _]. eapply net_mono; eauto. Qed.
Lemma keep_int F own own' p v : int_at (look F own) p v -> keep F own own' -> int_at (look F own') p v.
Proof. intros H [I _]. eapply int_mono; eauto. Qed.
Lemma keep_words F own own' p v : words_at (look F own) p v -> keep F own own' -> words_at (look F own') p v.
Proof. intros H [I _]. eapply words_mono; eauto. Qed.
Lemma keep_globals F own own' g : globals_at (look F own) g -> keep F own own' -> globals_at (look F own') g.
Proof. intros H [I _]. eapply globals_mono; eauto. Qed.
Lemma keep_at F own own' a o : look F own a = Some o -> keep F own own' -> look F own' a = Some o.
Proof. intros H [I _]. apply I, H. Qed.
Lemma globals_N F own g : globals_at (look F own) g -> int_at (look F own) (Some (gN g)) (Some secp_N).
Proof. intros (_ & _ & _ & _ & _ & H & _). exists secp_N. auto. Qed.

(** The value-level body shared by AddPrivateKeys and MultiplyPrivateKeys. *)
Definition v_combine (op : Z -> Z -> Z) (p1 p2 : private_key) : outcome (result private_key) :=
  if negb (net_eqb (KNetwork p1) (KNetwork p2)) then Ret (Err EDifferentNetwork)
  else if str_eqb (to_lower (WIF p1)) (to_lower (WIF p2)) then Ret (Err EIdentical)
  else match Key p1, Key p2 with
       | Some k1, Some k2 => PrivateFromHex (bigIntToHex (Some (big_mod (op k1 k2) secp_N))) (KNetwork p1)
       | _, _ => Panic PNil
       end.
Lemma combine_add p1 p2 : AddPrivateKeys p1 p2 = v_combine Z.add p1 p2.
Proof. reflexivity. Qed.
Lemma combine_mul p1 p2 : MultiplyPrivateKeys p1 p2 = v_combine Z.mul p1 p2.
Proof. reflexivity. Qed.

(** The network pointer inside a key object. *)
Definition net_field (o : option obj) : ptr :=
  match o with Some (OPriv _ _ _ n) => n | Some (OPub _ _ n) => n | _ => None end.

Lemma new_priv_weaken F own own0 net own' a v : keep F own own0 ->
  new_priv F own0 net own' a v -> new_priv F own net own' a v.
Proof. intros K (H & H'). split; [eapply keep_none; eauto|exact H']. Qed.

Lemma combine_heap op F own g p1 p2 v1 v2 : globals_at (look F own) g ->
  priv_at (look F own) p1 v1 -> priv_at (look F own) p2 v2 ->
  quiet F own (h_combine op g p1 p2) (priv_result F own (net_field (look F own p1)) (v_combine op v1 v2)).
Proof.
  intros Hg (k1 & n1 & L1 & I1 & N1) (k2 & n2 & L2 & I2 & N2) tr lg. unfold h_combine, v_combine.
  rewrite L1. cbn [net_field].
  eapply b_read_priv; [exact L1|]. cbn beta iota. eapply b_read_priv; [exact L2|]. cbn beta iota.
  eapply b_net_eqb; [eassumption..|].
  destruct (net_eqb _ _); cbn [negb]; [|quit].
  destruct (str_eqb _ _); [quit|].
  go. pose proof (keep_new F own a (OInt 0) H) as K0.
  eapply b_op; [own_tac|eapply keep_int; eassumption|eapply keep_int; eassumption|].
  destruct (Key v1) as [z1|], (Key v2) as [z2|]; try solve [split; [keep_tac|]; auto; split; [reflexivity|]; split; reflexivity].
  eapply b_op; [own_tac|eexists; split; [at_tac|reflexivity]|eapply globals_N, keep_globals; [exact Hg|keep_tac]|].
  cbn beta iota.
  eapply b_bigIntToHex; [eexists; split; [at_tac|reflexivity]|].
  match goal with |- behaves F ?o _ _ _ _ => assert (Kf : keep F own o) by keep_tac end.
  eapply behaves_mono; [|eapply PrivateFromHex_heap, keep_net; [exact N1|exact Kf]].
  cbn beta. intros own' tr' lg' o (K & -> & -> & R).
  split; [eapply keep_trans; eassumption|]. do 2 (split; [reflexivity|]).
  unfold priv_result in *. destruct o as [[a'|e]|e], (PrivateFromHex _ _) as [[k|e']|e']; try exact R.
  eapply new_priv_weaken; eassumption.
Qed.

Definition new_pub (F own : omap) (net : ptr) (own' : omap) (a : addr) (v : public_key) : Prop :=
  look F own a = None /\
  exists x y, look F own' a = Some (OPub x y net) /\ int_at (look F own') x (PX v) /\
     int_at (look F own') y (PY v) /\ net_at (look F own') net (PNetwork v).
Lemma new_pub_at F own net own' a v : new_pub F own net own' a v -> pub_at (look F own') a v.
Proof. intros (_ & x & y & H1 & H2 & H3 & H4). exists x, y, net. auto. Qed.
Definition pub_result (F own : omap) (net : ptr) (v : outcome (result public_key)) (own' : omap)
  (o : outcome (result addr)) : Prop := rel_out (rel_res (new_pub F own net own')) o v.

Lemma int_other F own a o p v : p <> Some a -> int_at (look F own) p v -> int_at (look F (oset own a o)) p v.
Proof.
  intros N. destruct p as [b|]; [|auto]. intros (z & Hz & E). exists z. split; [|exact E].
  rewrite look_oset_other by congruence. exact Hz.
Qed.
Lemma int_none F own a p v : look F own a = None -> int_at (look F own) p v -> p <> Some a.
Proof. intros N H ->. destruct H as (z & Hz & _). congruence. Qed.

Section Pub.
Context (L : hlib) (g : globals) (E : ecdsa_lib) (M : hlib_meets L g E).

(** An object of [own] is not what a pointer to an integer points to. *)
Lemma int_not_pub F own a x y n p v : look F own a = Some (OPub x y n) -> int_at (look F own) p v -> p <> Some a.
Proof. intros H Hi ->. destruct Hi as (z & Hz & _). congruence. Qed.

Lemma PublicFromHex_heap F own s p v : globals_at (look F own) g -> net_at (look F own) p v ->
  quiet F own (h_PublicFromHex L g s p) (pub_result F own p (PublicFromHex E s v)).
Proof.
  intros Hg Hn tr lg. unfold h_PublicFromHex, PublicFromHex. go.
  destruct (slice s 0 2) as [prefix|]; cbn [bind]; [|quit].
  destruct (str_eqb prefix (str "04")).
  - go. destruct (slice s 2 66) as [x|]; cbn [bind]; [|quit].
    go. destruct (slice s 66 130) as [y|]; cbn [bind]; [|quit].
    go. fr_tac. destruct (set_string16 x) as [zx|]; go; fr_tac; destruct (set_string16 y) as [zy|]; go; quit.
    all: cbn [rel_out rel_res]; split; [assumption|].
    + exists (Some a0), (Some a1). split; [at_tac|]. do 2 (split; [eexists; split; [at_tac|reflexivity]|]).
      eapply keep_net; [exact Hn|keep_tac].
    + exists (Some a0), None. split; [at_tac|]. do 1 (split; [eexists; split; [at_tac|reflexivity]|]).
      split; [reflexivity|]. eapply keep_net; [exact Hn|keep_tac].
    + exists None, (Some a1). split; [at_tac|]. split; [reflexivity|].
      do 1 (split; [eexists; split; [at_tac|reflexivity]|]). eapply keep_net; [exact Hn|keep_tac].
    + exists None, None. split; [at_tac|]. do 2 (split; [reflexivity|]). eapply keep_net; [exact Hn|keep_tac].
  - destruct (str_eqb prefix (str "03") || str_eqb prefix (str "02")); [|quit].
    go. destruct (slice s 2 66) as [x|]; cbn [bind]; [|quit].
    go. fr_tac. destruct (set_string16 x) as [zx|]; go; [|quit].
    match goal with |- behaves F ?o _ _ _ _ => remember o as own1 eqn:E1 end.
    assert (K1 : keep F own own1) by (rewrite E1; keep_tac).
    assert (A1 : look F own1 a = Some (OPub (Some a0) None p)) by (rewrite E1; at_tac).
    assert (B1 : look F own1 a0 = Some (OInt zx)) by (rewrite E1; at_tac).
    assert (O1 : own1 a <> None) by (rewrite E1; own_tac). clear E1.
    eapply b_routine; [eapply (meets_GetY _ _ _ M); [eapply keep_globals; eassumption|exact B1]|].
    cbn beta. intros own2 [y onCurve] K2 (Eb & Hy). cbn [fst snd] in *.
    destruct (lib_GetY E zx) as [vy b]; cbn [fst snd] in *. subst b.
    destruct onCurve; cbn [negb]; [|split; [eapply keep_trans; eassumption|]; do 2 (split; [reflexivity|]); reflexivity].
    specialize (Hy eq_refl). set (par := if str_eqb prefix (str "02") then 0 else 1).
    assert (K12 : keep F own own2) by (eapply keep_trans; eassumption).
    destruct y as [ay|]; [|discriminate]. pose proof Hy as (vy' & Ly & Ev). injection Ev as <-.
    apply b_alloc; intros pa Npa. apply b_SetZ; [own_tac|].
    apply b_alloc; intros ya Nya. fr_tac.
    assert (ay <> pa) by congruence. assert (ay <> ya) by congruence.
    eapply b_Set; [own_tac|exists vy; split; [at_tac|reflexivity]|].
    apply b_alloc; intros two Ntwo. fr_tac. assert (ay <> two) by congruence.
    eapply b_op; [own_tac|exists vy; split; [at_tac|reflexivity]|exists 2; split; [at_tac|reflexivity]|].
    cbn beta iota.
    eapply b_read_int; [eexists; split; [at_tac|reflexivity]|]. cbn beta iota.
    eapply b_read_int; [exists par; split; [at_tac|reflexivity]|]. cbn beta iota.
    match goal with |- behaves F ?o _ _ _ _ => remember o as own3 eqn:E3 end.
    assert (K3 : keep F own2 own3) by (rewrite E3; keep_tac). clear E3.
    assert (Fin : forall own4 q w, keep F own2 own4 -> int_at (look F own4) q (Some w) ->
      behaves F own4 tr lg (do _ <- write a (OPub (Some a0) q p); PRet (Ok a))
        (fun own' tr' lg' o => keep F own own' /\ tr' = tr /\ lg' = lg /\
           pub_result F own p (Ret (Ok (PublicKey (Some zx) (Some w) v))) own' o)).
    { intros own4 q w K4 Hq. apply b_write; [apply K4, K2, O1|]. cbn [behaves].
      assert (K5 : keep F own (oset own4 a (OPub (Some a0) q p))).
      { apply keep_oset; [eapply keep_trans; eassumption|assumption]. }
      split; [exact K5|]. do 2 (split; [reflexivity|]). cbn [pub_result rel_out rel_res].
      split; [assumption|]. exists (Some a0), q. split; [apply look_oset_same|].
      split; [exists zx; split; [|reflexivity]; rewrite look_oset_other by congruence; apply K4, K2, B1|].
      split; [|eapply keep_net; eassumption].
      apply int_other; [|exact Hq]. eapply int_not_pub; [|exact Hq]. apply K4, K2, A1. }
    destruct (negb (big_mod vy 2 =? par)).
    + apply behaves_bind. apply b_alloc; intros m1 Nm1.
      eapply behaves_mono; [|eapply (meets_MultMod _ _ _ M);
        [eapply keep_globals; [exact Hg|]|rewrite look_oset_other; [apply K3, Ly|]|apply look_oset_same]].
      * cbn beta. intros own5 tr' lg' o (I5 & J5 & -> & -> & w & -> & Hw). apply Fin; [|exact Hw].
        eapply keep_trans; [exact K3|]. eapply keep_trans; [apply keep_new, Nm1|]. exact (conj I5 J5).
      * eapply keep_trans; [eapply keep_trans; [exact K12|exact K3]|apply keep_new, Nm1].
      * intros ->. apply K3 in Ly. congruence.
    + cbn [pbind]. apply Fin; [exact K3|]. exists vy. split; [apply K3, Ly|reflexivity].
Qed.

Lemma GetPublicKey_heap F own a v : globals_at (look F own) g -> priv_at (look F own) a v ->
  quiet F own (h_GetPublicKey L g a) (fun own' o =>
    rel_out (rel_opt (new_pub F own (net_field (look F own a)) own')) o (GetPublicKey E v)).
Proof.
  intros Hg (k & n & La & Ik & Nn) tr lg. unfold h_GetPublicKey, GetPublicKey. rewrite La. cbn [net_field].
  apply b_alloc; intros q Nq. assert (a <> q) by congruence.
  eapply b_read_priv; [rewrite look_oset_other by assumption; exact La|]. cbn beta iota.
  destruct k as [ak|]; cbn in Ik; [|rewrite Ik; quit].
  destruct Ik as (zk & Lk & ->). assert (ak <> q) by congruence.
  pose proof (keep_globals _ _ (oset own q (OPub None None None)) _ Hg ltac:(apply keep_new, Nq)) as Hg1.
  eapply b_routine; [eapply (meets_ScalarMult _ _ _ M); [exact Hg1|at_tac| |]|].
  { destruct Hg1 as (_ & _ & H1 & _). exact H1. } { destruct Hg1 as (_ & _ & _ & H1 & _). exact H1. }
  cbn beta. intros own2 [[rx ry] valid] K2 (Eb & Hr). cbn [fst snd] in *.
  destruct (lib_ScalarMult E zk (secp_Gx, secp_Gy)) as [[vx vy] b]. cbn [fst snd] in *. subst b.
  assert (K : keep F own own2) by (eapply keep_trans; [apply keep_new, Nq|exact K2]).
  assert (O2 : own2 q <> None) by (apply K2; own_tac).
  destruct valid; cbn [negb]; [|quit]. destruct (Hr eq_refl) as (Hx & Hy).
  assert (Lq : look F own2 q = Some (OPub None None None)) by (apply K2; at_tac).
  pose proof (int_not_pub _ _ _ _ _ _ _ _ Lq Hx). pose proof (int_not_pub _ _ _ _ _ _ _ _ Lq Hy).
  go. quit. cbn [rel_out rel_opt]. split; [assumption|]. exists rx, ry. split; [at_tac|].
  do 2 (split; [repeat (apply int_other; [assumption|]); assumption|]).
  eapply keep_net; [exact Nn|keep_tac].
Qed.

Lemma AddPublicKeys_heap F own p1 p2 c v1 v2 : globals_at (look F own) g ->
  pub_at (look F own) p1 v1 -> pub_at (look F own) p2 v2 ->
  quiet F own (h_AddPublicKeys L g p1 p2 c) (pub_result F own (net_field (look F own p1)) (AddPublicKeys E v1 v2 c)).
Proof.
  intros Hg (x1 & y1 & n1 & L1 & X1 & Y1 & N1) (x2 & y2 & n2 & L2 & X2 & Y2 & N2) tr lg.
  unfold h_AddPublicKeys, AddPublicKeys. rewrite L1. cbn [net_field].
  eapply b_read_pub; [exact L1|]. cbn beta iota. eapply b_read_pub; [exact L2|]. cbn beta iota.
  eapply b_net_eqb; [eassumption..|]. destruct (net_eqb _ _); cbn [negb]; [|quit].
  destruct x1 as [x1|]; cbn in X1; [destruct X1 as (zx1 & Lx1 & ->)|rewrite X1; quit].
  destruct y1 as [y1|]; cbn in Y1; [destruct Y1 as (zy1 & Ly1 & ->)|rewrite Y1; quit].
  destruct x2 as [x2|]; cbn in X2; [destruct X2 as (zx2 & Lx2 & ->)|rewrite X2; quit].
  destruct y2 as [y2|]; cbn in Y2; [destruct Y2 as (zy2 & Ly2 & ->)|rewrite Y2; quit].
  eapply b_routine; [eapply (meets_AddPoints _ _ _ M); eassumption|].
  cbn beta. intros own2 [[rx ry] valid] K2 (Eb & Hr). cbn [fst snd] in *.
  destruct (lib_AddPoints E _ _) as [[vx vy] b]. cbn [fst snd] in *. subst b.
  destruct valid; cbn [negb]; [|quit]. destruct (Hr eq_refl) as (Hx & Hy).
  apply b_alloc; intros q Nq. pose proof (keep_none _ _ _ _ K2 Nq) as Nq0. quit.
  cbn [rel_out rel_res]. split; [assumption|]. exists rx, ry. split; [at_tac|].
  split; [eapply keep_int; [exact Hx|apply keep_new, Nq]|].
  split; [eapply keep_int; [exact Hy|apply keep_new, Nq]|].
  eapply keep_net; [exact N1|]. keep_tac.
Qed.
End Pub.

Lemma Format_heap F own a c v : pub_at (look F own) a v ->
  quiet F own (h_Format a c) (fun own' o => own' = own /\ o = Format v c).
Proof.
  intros (x & y & n & La & Ix & Iy & Nn) tr lg. unfold h_Format, Format.
  eapply b_read_pub; [exact La|]. cbn beta iota.
  eapply b_bigIntToHex; [exact Ix|]. eapply b_bigIntToHex; [exact Iy|].
  destruct c; cbn [negb].
  - eapply b_read_int; [exact Iy|]. destruct (PY v); quit; auto.
  - quit; auto.
Qed.

Lemma Address_heap F own a c v : pub_at (look F own) a v ->
  quiet F own (h_Address a c) (fun own' o => own' = own /\ o = Address v c).
Proof.
  intros Ha tr lg. pose proof Ha as (x & y & n & La & Ix & Iy & Nn). unfold h_Address, Address.
  eapply b_quiet; [apply Format_heap, Ha|]. intros own' o _ (-> & ->).
  destruct (Format v c) as [s|e]; cbn [bind]; [|quit; auto].
  destruct (hex_decode s) as [bytes|e]; cbn [pbind_res bind_res]; [|quit; auto].
  eapply b_read_pub; [exact La|]. cbn beta iota. eapply b_read_net; [exact Nn|].
  destruct (PNetwork v) as [net|]; [|quit; auto].
  destruct (hex_decode _) as [b2|e]; cbn [pbind_res bind_res]; [|quit; auto].
  go. destruct (slice _ 0 8) as [ck|e]; cbn [bind]; [|quit; auto].
  destruct (hex_decode _) as [b3|e]; cbn [pbind_res bind_res]; quit; auto.
Qed.
