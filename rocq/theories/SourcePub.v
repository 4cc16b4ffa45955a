(** * The source of public_key.go computes what [Model.v] says *)

From Coq Require Import String.
From Verif Require Import GoBase GoNum Sha256 Ripemd160 Base58 GoRand Model GoSyntax GoSource GoSem SpecSource SpecShare SourceBase SourcePriv.
Local Open Scope Z_scope.
Local Opaque sha256 ripemd160 secp_A secp_B secp_P secp_Gx secp_Gy secp_N secp_H set_string16.

Section WithE.
Context (E : curve_params -> ecdsa_lib) (L : limits).
Notation E0 := (E secp256k1_params).

Definition pub_result (h0 : list value) (net : value) : repr (result public_key) := or_err VNil (made_pub h0 net).

Lemma the_network_of_pub h a x y n net :
  nth_error h a = Some (VStruct "PublicKey" [("X", x); ("Y", y); ("Network", n)]%string) ->
  field_is h (VPtr a) "Network" net -> net = n.
Proof.
  intros H (b & t & fs & [= <-] & Hb & Hi). rewrite H in Hb. injection Hb as <- <-.
  cbn [In] in Hi. destruct Hi as [Hi|[Hi|[Hi|[]]]]; congruence.
Qed.

Ltac at_end := first [left; reflexivity | right; eexists; split; [reflexivity|lia]].
Ltac pub_close :=
  close; eexists; split; [reflexivity|]; do 3 eexists; cbn [PX PY PNetwork];
  split; [reflexivity|]; split; [lia|]; look;
  first [at_end | apply is_net_grow; assumption | intros _; reflexivity | intros Hxy; exfalso; injection Hxy; intros; lia | intros Hxy; discriminate Hxy].

(** open the curve *)
Ltac curve H :=
  destruct H as (vA & vB & vP & vGx & vGy & vN & vH & (c & Hc & Hcurve) &
                 (aA & HAv & HA) & (aB & HBv & HB) & (aP & HPv & HP) &
                 (aGx & HGxv & HGx) & (aGy & HGyv & HGy) & (aN & HNv & HN) & (aH & HHv & HH));
  injection Hc as <-; subst vA vB vP vGx vGy vN vH.

Lemma run_GetPublicKey v k net h rd lg :
  field_is h v "Network" net -> curve_ready h -> is_priv h v k ->
  (lowest L <= length h)%nat ->
  evt (fun n => run E L n "PrivateKey.GetPublicKey" [v] (State h rd lg))
    (gives h rd lg (GetPublicKey E0 k)
       (fun h' o vs => match o with
                       | Some p => exists v, vs = [v; VBool true] /\ made_pub h net h' v p
                       | None => vs = [VNil; VBool false]
                       end)).
Proof.
  intros Hf HC (a & key & net1 & -> & Hk & Hkey & Hnet). apply (the_network_of_priv _ _ _ _ _ _ _ Hk) in Hf. subst net1. curve HC. unfold GetPublicKey, secp256k1_params.
  enter.
  destruct (Key k) as [z|]; cbn [is_big] in Hkey; [destruct Hkey as (b & -> & Hkey)|subst key]; go; [|close].
  destruct (lib_ScalarMult _ z _) as [[rx ry] ok]; go.
  destruct ok; go. 2: cbn [negb]; close.
  pub_close.
Qed.

Lemma cmp_zero a b : ((if a =? b then 0 else if a <? b then -1 else 1) =? 0) = (a =? b).
Proof. destruct (a =? b); [reflexivity|]. now destruct (a <? b). Qed.

Lemma run_PublicFromHex x v net h rd lg :
  curve_ready h -> is_net h v net ->
  (lowest L <= length h)%nat ->
  evt (fun n => run E L n "PublicFromHex" [VStr x; v] (State h rd lg))
    (gives h rd lg (PublicFromHex E0 x net) (pub_result h v)).
Proof.
  intros HC Hn. curve HC. unfold PublicFromHex, secp256k1_params.
  assert (Hcv := net_cases _ _ _ Hn). destruct Hcv as [Hv|[an Hv]]; subst v.
  all: enter.
  all: repeat (fork; try go).
  all: cbn [orb].
  all: repeat match goal with
       | H : negb _ = _ |- _ => rewrite cmp_zero in H; rewrite H; clear H
       end.
  all: first [discriminate | solve [close] | solve [pub_close]].
Qed.

Lemma run_AddPublicKeys v1 p1 v2 p2 cmp net h rd lg :
  field_is h v1 "Network" net -> curve_ready h -> is_pub h v1 p1 -> is_pub h v2 p2 ->
  (lowest L <= length h)%nat ->
  evt (fun n => run E L n "AddPublicKeys" [v1; v2; VBool cmp] (State h rd lg))
    (gives h rd lg (AddPublicKeys E0 p1 p2 cmp) (pub_result h net)).
Proof.
  intros Hf HC (a1 & x1 & y1 & n1 & -> & H1 & Hx1 & Hy1 & Hn1) (a2 & x2 & y2 & n2 & -> & H2 & Hx2 & Hy2 & Hn2).
  apply (the_network_of_pub _ _ _ _ _ _ H1) in Hf. subst net.
  curve HC. unfold AddPublicKeys, secp256k1_params.
  enter.
  rewrite (deep_equal_nets (h ++ []) n1 (PNetwork p1) n2 (PNetwork p2)) by (rewrite app_nil_r; assumption).
  go.
  fork; go; [close|].
  all: destruct (PX p1) as [z1|]; cbn [is_big] in Hx1; [destruct Hx1 as (b1 & -> & Hb1)|subst x1]; go; [|close].
  all: destruct (PY p1) as [w1|]; cbn [is_big] in Hy1; [destruct Hy1 as (d1 & -> & Hd1)|subst y1]; go; [|close].
  all: destruct (PX p2) as [z2|]; cbn [is_big] in Hx2; [destruct Hx2 as (b2 & -> & Hb2)|subst x2]; go; [|close].
  all: destruct (PY p2) as [w2|]; cbn [is_big] in Hy2; [destruct Hy2 as (d2 & -> & Hd2)|subst y2]; go; [|close].
  all: destruct (lib_AddPoints _ _ _) as [[rx ry] ok]; go; destruct ok; go; cbn [negb]; [pub_close|close].
Qed.

Lemma run_Format v p c h rd lg :
  is_pub h v p ->
  (lowest L <= length h)%nat ->
  evt (fun n => run E L n "PublicKey.Format" [v; VBool c] (State h rd lg))
    (fun r => match Format p c with
              | Ret t => r = Done [VStr t] (State h rd lg)
              | Panic q => r = Crash q (State h rd lg)
              end).
Proof.
  intros (a & x & y & net & -> & H & Hx & Hy & Hn).
  assert (Cx := big_cases _ _ _ Hx). assert (Cy := big_cases _ _ _ Hy).
  enter.
  calls (run_bigIntToHex E L _ (PX p)). { rewrite app_nil_r; exact Hx. }
  intros r ->. go.
  calls (run_bigIntToHex E L _ (PY p)). { rewrite app_nil_r; exact Hy. }
  intros r ->. go. 
  to_call. pad 64%nat (bigIntToHex (PX p)). go.
  to_call. pad 64%nat (bigIntToHex (PY p)). go.
  unfold Format. destruct c; cbn [negb]; go.
  - destruct (PY p) as [w|]; cbn [is_big] in Hy; [destruct Hy as (d & -> & Hd)|subst y]; go.
    + fork; go; now rewrite app_nil_r.
    + now rewrite app_nil_r.
  - rewrite app_nil_r, <- !app_assoc. reflexivity.
Qed.

Lemma run_Address v p c h rd lg :
  is_pub h v p ->
  (lowest L <= length h)%nat ->
  evt (fun n => run E L n "PublicKey.Address" [v; VBool c] (State h rd lg))
    (gives h rd lg (Address p c) (or_err (VStr []) (fun _ v x => v = VStr x))).
Proof.
  intros H. assert (H' := H). destruct H' as (a & x & y & net & -> & Ha & Hx & Hy & Hn). unfold Address.
  enter.
  calls (run_Format _ p c). { rewrite app_nil_r; exact H. }
  intros r Hr. destruct (Format p c) as [t|q]; subst r; go; [|close].
  fork; go; [|close].
  destruct (PNetwork p) as [n|]; cbn [is_net] in Hn; [destruct Hn as (b & -> & Hb); unfold network_cell in Hb|subst net]; go; [|close].
  repeat (fork; try go).
  all: close.
  all: eexists; split; reflexivity.
Qed.
End WithE.
