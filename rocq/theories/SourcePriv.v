(** * The source of util.go and private_key.go computes what [Model.v] says *)

From Coq Require Import String.
From Verif Require Import GoBase GoNum Sha256 Ripemd160 Base58 GoRand Model GoSyntax GoSource GoSem SpecSource SpecShare SourceBase.
Local Open Scope Z_scope.
Local Opaque sha256 secp_N rand_max set_string16.

Section WithE.
Context (E : curve_params -> ecdsa_lib) (L : limits).

Lemma run_CheckWIF w h rd lg :
  roomy L (2 * len w) ->
  (lowest L <= length h)%nat ->
  evt (fun n => run E L n "CheckWIF" [VStr w] (State h rd lg))
    (gives h rd lg (CheckWIF w) (fun _ b vs => vs = [VBool b])).
Proof.
  intros Hroom. enter. unfold CheckWIF.
  destruct (b58decode w) as [bs|] eqn:Hbs; [apply decoded_len in Hbs|]; go; [|close].
  branch; go; [|close].
  branch; go; [|close].
  branch; go; [|close].
  branch; go; close.
Qed.

Lemma net_cases h v net : is_net h v net -> v = VNil \/ exists a, v = VPtr a.
Proof. destruct net; cbn; [intros (a & -> & _); eauto|auto]. Qed.
Lemma big_cases h v z : is_big h v z -> v = VNil \/ exists a, v = VPtr a.
Proof. destruct z; cbn; [intros (a & -> & _); eauto|auto]. Qed.

(** a value that is new with respect to [h] *)
Definition new_in (h : list value) (v : value) : Prop := exists a, v = VPtr a /\ (length h <= a)%nat.
Definition priv_result (h0 : list value) (net : value) : repr (result private_key) := or_err VNil (made_priv h0 net).

Lemma fresh_less h l v : v = VNil \/ fresh (h ++ l) v -> v = VNil \/ fresh h v.
Proof. intros [->|(a & -> & H)]; [now left|right]. exists a. split; [reflexivity|]. rewrite app_length in H. lia. Qed.
Lemma made_priv_less h l net h' v k : made_priv (h ++ l) net h' v k -> made_priv h net h' v k.
Proof.
  intros (a & key & -> & Ha & Hc & Hb & Hf & Hn). exists a, key. split; [reflexivity|].
  split; [rewrite app_length in Ha; lia|]. apply fresh_less in Hf. auto.
Qed.

(** an object at the end of the heap *)
Ltac at_end := first [left; reflexivity | right; eexists; split; [reflexivity|lia]].

Ltac priv_close :=
  close; eexists; split; [reflexivity|]; do 2 eexists; cbn [Key Hex WIF KNetwork];
  split; [reflexivity|]; split; [lia|]; look; at_end.

Lemma run_PrivateFromHex x v net h rd lg :
  is_net h v net ->
  (lowest L <= length h)%nat ->
  evt (fun n => run E L n "PrivateFromHex" [VStr x; v] (State h rd lg))
    (gives h rd lg (PrivateFromHex x net) (priv_result h v)).
Proof.
  intros Hn. unfold PrivateFromHex.
  destruct net as [net|]; cbn [is_net] in Hn.
  - destruct Hn as (a & -> & Hn). unfold network_cell in Hn.
    enter.
    branch; go; branch; go; try solve [close]; branch; go; try solve [close]; branch; go; try solve [close].
    + priv_close.
    + priv_close.
  - subst v. enter. branch; go; close.
Qed.

Lemma run_bigIntToHex v z h rd lg :
  is_big h v z ->
  (lowest L <= length h)%nat ->
  evt (fun n => run E L n "bigIntToHex" [v] (State h rd lg))
    (fun r => r = Done [VStr (bigIntToHex z)] (State h rd lg)).
Proof.
  intros Hz. destruct z as [z|]; cbn [is_big] in Hz.
  - destruct Hz as (a & -> & Hz). enter. now rewrite app_nil_r.
  - subst v. enter. now rewrite app_nil_r.
Qed.

Lemma gives_grow_priv h new net rd lg o r :
  gives (h ++ new) rd lg o (priv_result (h ++ new) net) r -> gives h rd lg o (priv_result h net) r.
Proof.
  intros (l & H). exists (new ++ l). rewrite app_assoc.
  destruct o as [[k|e]|p]; cbn [priv_result or_err] in *; [|exact H|exact H].
  destruct H as (vs & -> & v & -> & Hp).
  eexists; split; [reflexivity|]. eexists; split; [reflexivity|]. eapply made_priv_less, Hp.
Qed.

(** the result is on a heap that a call has left *)
Ltac grown :=
  match goal with
  | H : ?h1 = ?h ++ ?l |- gives ?h _ _ _ (priv_result ?h ?net) _ => subst h1; apply (gives_grow_priv h l)
  end.

Lemma run_PrivateFromWIF w v net h rd lg :
  roomy L (2 * len w) ->
  is_net h v net ->
  (lowest L <= length h)%nat ->
  evt (fun n => run E L n "PrivateFromWIF" [VStr w; v] (State h rd lg))
    (gives h rd lg (PrivateFromWIF w net) (priv_result h v)).
Proof.
  intros Hroom Hn. unfold PrivateFromWIF.
  assert (Hc := net_cases _ _ _ Hn). destruct Hc as [Hv|[an Hv]].
  all: subst v; enter; (calls run_CheckWIF; [exact Hroom|]); intros r (new & H).
  all: destruct (CheckWIF w) as [b|p]; [destruct H as (vs & H & Hvs)|]; cbn [bind].
  all: rewrite <- app_assoc in H; cbn [app] in H.
  all: apply (is_net_grow _ new) in Hn.
  all: remember (h ++ new) as h1 eqn:Hh1; rewrite <- (app_nil_r h1) in H; subst r; try subst vs.
  all: go; try solve [grown; close].
  all: branch; go; try solve [grown; close].
  all: destruct (b58decode w) as [bs|] eqn:Hbs; cbn [bind_res]; [apply decoded_len in Hbs|]; go; try solve [grown; close].
  all: destruct (slice (hex_encode bs) 2 _) as [t|] eqn:Ht; cbn [bind]; [apply slice_len in Ht|]; go; try solve [grown; close].
  all: branch; go; try solve [grown; close].
  all: branch; go.
  all: grown.
  all: close.
  all: eexists; split; [reflexivity|].
  all: do 2 eexists; cbn [Key Hex WIF KNetwork]; split; [reflexivity|]; split; [lia|]; look.
  all: first [at_end | now apply is_net_grow].
Qed.

Lemma run_generateRandomBigInt h rd lg :
  (lowest L <= length h)%nat ->
  evt (fun n => run E L n "generateRandomBigInt" [] (State h rd lg))
    (fun r => match generateRandomBigInt rd with
              | Ret (z, rest) => exists new a, r = Done [VPtr a] (State (h ++ new) rest lg) /\
                                   nth_error (h ++ new) a = Some (VBig z) /\ (length h <= a)%nat
              | Panic p => exists new, r = Crash p (State (h ++ new) [] lg)
              end).
Proof.
  enter.
  replace (set_string16 _) with (Some rand_max) by (vm_compute; reflexivity).
  go.
  replace (rand_max <=? 0) with false by (vm_compute; reflexivity).
  unfold generateRandomBigInt. destruct (rand_int rand_max rd) as [[z rest]|]; go.
  - do 2 eexists. split; [reflexivity|]. split; [rewrite get_new; reflexivity|lia].
  - eexists. reflexivity.
Qed.

(** the result of a call that reads the random source *)
Definition gives_reading {A} (h : list value) (lg : list gostring)
    (o : outcome A) (rest : A -> list byte) (rep : repr A) (r : res (list value)) : Prop :=
  exists new,
    match o with
    | Ret a => exists vs, r = Done vs (State (h ++ new) (rest a) lg) /\ rep (h ++ new) a vs
    | Panic p => exists left, r = Crash p (State (h ++ new) left lg)
    end.
Definition generated (h0 : list value) (net : value) : repr (private_key * list byte) :=
  fun h a vs => exists v, vs = [v] /\ made_priv h0 net h v (fst a).

Lemma gives_reading_grow h new net lg o r :
  gives_reading (h ++ new) lg o snd (generated (h ++ new) net) r -> gives_reading h lg o snd (generated h net) r.
Proof.
  intros (l & H). exists (new ++ l). rewrite app_assoc.
  destruct o as [[k rest]|p]; cbn [generated] in *; [|exact H].
  destruct H as (vs & -> & v & -> & Hp).
  eexists; split; [reflexivity|]. eexists; split; [reflexivity|]. eapply made_priv_less, Hp.
Qed.

(** a recursive call whose result is returned *)
Ltac retried h new :=
  let r := fresh "r" in let H := fresh "H" in let l := fresh "l" in let H' := fresh "H'" in
  intros r H; rewrite app_nil_r in H; subst; apply (gives_reading_grow h new) in H;
  assert (H' := H); destruct H' as (l & H');
  lazymatch type of H with
  | gives_reading _ _ ?o _ _ _ =>
      destruct o as [[? ?]|?];
      [destruct H' as (? & H' & _); subst r; go; exact H|destruct H' as (? & H'); subst r; go; exact H]
  end.

Lemma run_generate fuel : forall v net h rd lg,
  is_net h v net ->
  generate_fuel fuel net rd <> Panic PFuel ->
  (lowest L <= length h)%nat ->
  evt (fun n => run E L n "GeneratePrivateKey" [v] (State h rd lg))
    (gives_reading h lg (generate_fuel fuel net rd) snd (generated h v)).
Proof.
  induction fuel as [|fuel IH]; intros v net h rd lg Hn Hf; [now destruct Hf|].
  cbn [generate_fuel] in *.
  destruct (net_cases _ _ _ Hn) as [Hv|[an Hv]].
  all: subst v; enter; calls run_generateRandomBigInt.
  all: destruct (generateRandomBigInt rd) as [[key rest]|p]; cbn [bind] in *; intros r H.
  all: destruct H as (new & H); rewrite ?app_nil_r in H.
  2, 4: subst r; go; exists new, []; reflexivity.
  all: destruct H as (a & H & Ha & Hge); apply (is_net_grow _ new) in Hn.
  all: remember (h ++ new) as h1 eqn:Hh1; rewrite <- (app_nil_r h1) in H; subst r; go.
  all: calls (run_bigIntToHex _ (Some key)); [exists a; split; [reflexivity|now apply get_old]|intros r ->]; go.
  all: branch; go.
  (* retries with a too short number *)
  1, 3: calls (IH _ net); [now rewrite app_nil_r|exact Hf|retried h new].
  all: calls (run_PrivateFromHex _ _ net); [now rewrite app_nil_r|]; intros r H; rewrite app_nil_r in H.
  all: destruct H as (new2 & H).
  all: destruct (PrivateFromHex (bigIntToHex (Some key)) net) as [[k|e]|p]; cbn [bind] in *.
  (* a panic of PrivateFromHex *)
  3, 6: subst r; go; exists (new ++ new2), rest; subst h1; now rewrite app_assoc.
  (* retries after an error of PrivateFromHex *)
  2, 4: destruct H as (vs & H & Hvs); cbn in Hvs; subst vs;
        apply (is_net_grow _ new2) in Hn;
        remember (h1 ++ new2) as h2 eqn:Hh2; rewrite <- (app_nil_r h2) in H; subst r; go;
        calls (IH _ net); [now rewrite app_nil_r|exact Hf|];
        assert (Hh : h2 = h ++ (new ++ new2)) by (subst; symmetry; apply app_assoc);
        clear Hh2 Hh1; retried h (new ++ new2).
  (* success: the key is replaced by the number drawn *)
  all: destruct H as (vs & H & v & Hvs & (ak & key2 & Hak & Hfar & Hcell & Hkey & _ & Hnet)); subst v vs.
  all: apply (get_old _ new2) in Ha.
  all: remember (h1 ++ new2) as h2 eqn:Hh2; rewrite <- (app_nil_r h2) in H; subst r; go.
  all: rewrite write_far by (subst h1; rewrite app_length in Hfar; lia); go.
  all: match type of Hnet with is_net _ ?w _ => set (net2 := w) in * end.
  all: exists (hset (new ++ new2) (ak - length h) (VStruct "PrivateKey"
         [("Key", VPtr a); ("Hex", VStr (Hex k)); ("WIF", VStr (WIF k)); ("Network", net2)]%string)).
  all: assert (length h <= ak)%nat as Hfar2 by (subst h1; rewrite app_length in Hfar; lia).
  all: rewrite <- (set_far h) by exact Hfar2.
  all: rewrite app_assoc, <- Hh1, <- Hh2.
  all: exists [VPtr ak]; split; [unfold store; cbn [heap source logged]; now rewrite app_nil_r|].
  all: exists (VPtr ak); split; [reflexivity|].
  all: exists ak, (VPtr a); cbn [fst Key Hex WIF KNetwork].
  all: split; [reflexivity|]; split; [exact Hfar2|]; split; [eapply get_set; exact Hcell|].
  all: split; [exists a; split; [reflexivity|]; apply get_unset; [exact Ha|congruence]|].
  all: split; [right; exists a; split; [reflexivity|exact Hge]|]; unfold net2 in *.
  all: destruct (KNetwork k); [|exact Hnet]; destruct Hnet as (b & -> & Hb); exists b; split; [reflexivity|].
  all: apply get_unset; [exact Hb|unfold network_cell in Hb; congruence].
Qed.

(** a result of PrivateFromHex that is returned as it is *)
Ltac passed_on h :=
  let r := fresh "r" in let H := fresh "H" in let H' := fresh "H'" in
  intros r H; apply (gives_grow_priv h) in H; assert (H' := H); destruct H' as (? & H');
  lazymatch type of H with
  | gives _ _ _ ?o _ _ =>
      destruct o as [[?|?]|?];
      [ destruct H' as (? & H' & ? & ? & ? & ? & ? & _); subst; go; exact H
      | destruct H' as (? & H' & Hvs); cbn in Hvs; subst; go; exact H
      | subst r; go; exact H ]
  end.

Lemma the_network_of_priv h a key x w n net :
  nth_error h a = Some (VStruct "PrivateKey" [("Key", key); ("Hex", x); ("WIF", w); ("Network", n)]%string) ->
  field_is h (VPtr a) "Network" net -> net = n.
Proof.
  intros H (b & t & fs & [= <-] & Hb & Hi). rewrite H in Hb. injection Hb as <- <-.
  cbn [In] in Hi. destruct Hi as [Hi|[Hi|[Hi|[Hi|[]]]]]; congruence.
Qed.

Lemma run_AddPrivateKeys v1 p1 v2 p2 net h rd lg :
  field_is h v1 "Network" net -> curve_ready h -> is_priv h v1 p1 -> is_priv h v2 p2 ->
  (lowest L <= length h)%nat ->
  evt (fun n => run E L n "AddPrivateKeys" [v1; v2] (State h rd lg))
    (gives h rd lg (AddPrivateKeys p1 p2) (priv_result h net)).
Proof.
  intros Hf (vA & vB & vP & vGx & vGy & vN & vH & (c & Hc & Hcurve) & _ & _ & _ & _ & _ & (aN & -> & HN) & _).
  injection Hc as <-.
  intros (a1 & key1 & net1 & -> & H1 & Hk1 & Hn1) (a2 & key2 & net2 & -> & H2 & Hk2 & Hn2).
  apply (the_network_of_priv _ _ _ _ _ _ _ H1) in Hf. subst net.
  unfold AddPrivateKeys. enter.
  rewrite (deep_equal_nets _ _ (KNetwork p1) _ (KNetwork p2)) by (rewrite app_nil_r; assumption).
  go. branch; go; [close|].
  branch; go; [close|].
  destruct (Key p1) as [k1|]; cbn [is_big] in Hk1; [destruct Hk1 as (b1 & -> & Hk1)|subst key1]; go; [|close].
  destruct (Key p2) as [k2|]; cbn [is_big] in Hk2; [destruct Hk2 as (b2 & -> & Hk2)|subst key2]; go; [|close].
  replace (secp_N =? 0) with false by (vm_compute; reflexivity). go.
  calls (run_bigIntToHex _ (Some (big_mod _ secp_N)));
    [eexists; split; [reflexivity|rewrite get_new; reflexivity]|intros r ->]. go.
  calls (run_PrivateFromHex _ _ (KNetwork p1)); [now apply is_net_grow|]. passed_on h.
Qed.

Lemma run_MultiplyPrivateKeys v1 p1 v2 p2 net h rd lg :
  field_is h v1 "Network" net -> curve_ready h -> is_priv h v1 p1 -> is_priv h v2 p2 ->
  (lowest L <= length h)%nat ->
  evt (fun n => run E L n "MultiplyPrivateKeys" [v1; v2] (State h rd lg))
    (gives h rd lg (MultiplyPrivateKeys p1 p2) (priv_result h net)).
Proof.
  intros Hf (vA & vB & vP & vGx & vGy & vN & vH & (c & Hc & Hcurve) & _ & _ & _ & _ & _ & (aN & -> & HN) & _).
  injection Hc as <-.
  intros (a1 & key1 & net1 & -> & H1 & Hk1 & Hn1) (a2 & key2 & net2 & -> & H2 & Hk2 & Hn2).
  apply (the_network_of_priv _ _ _ _ _ _ _ H1) in Hf. subst net.
  unfold MultiplyPrivateKeys. enter.
  rewrite (deep_equal_nets _ _ (KNetwork p1) _ (KNetwork p2)) by (rewrite app_nil_r; assumption).
  go. branch; go; [close|].
  branch; go; [close|].
  destruct (Key p1) as [k1|]; cbn [is_big] in Hk1; [destruct Hk1 as (b1 & -> & Hk1)|subst key1]; go; [|close].
  destruct (Key p2) as [k2|]; cbn [is_big] in Hk2; [destruct Hk2 as (b2 & -> & Hk2)|subst key2]; go; [|close].
  replace (secp_N =? 0) with false by (vm_compute; reflexivity). go.
  calls (run_bigIntToHex _ (Some (big_mod _ secp_N)));
    [eexists; split; [reflexivity|rewrite get_new; reflexivity]|intros r ->]. go.
  calls (run_PrivateFromHex _ _ (KNetwork p1)); [now apply is_net_grow|]. passed_on h.
Qed.

End WithE.
