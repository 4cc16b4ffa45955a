(** * Programs run on the source text get the answers of the model (C95): proofs *)

From Coq Require Import String.
From Verif Require Import GoBase GoNum Sha256 Ripemd160 Base58 GoRand Model ModelPtr GoSyntax GoSource GoSem SpecSource.
From Verif Require Import SourceBase SourceAll Spec CurveSpec EcdsaContract SpecSession Session SpecRun.
Local Open Scope Z_scope.
Local Opaque sha256 ripemd160 secp_A secp_B secp_P secp_Gx secp_Gy secp_N secp_H set_string16.

Lemma is_pub_grow h l v p : is_pub h v p -> is_pub (h ++ l) v p.
Proof.
  intros (a & x & y & net & -> & Ha & Hx & Hy & Hn). exists a, x, y, net.
  split; [reflexivity|]. split; [now apply get_old|].
  split; [now apply is_big_grow|]. split; [now apply is_big_grow|now apply is_net_grow].
Qed.

Lemma shows_grow h l x a : shows h x a -> shows (h ++ l) x a.
Proof. destruct x, a; cbn; auto; [apply is_priv_grow|apply is_pub_grow]. Qed.

Lemma all_grow h l k q : Forall2 (shows h) k q -> Forall2 (shows (h ++ l)) k q.
Proof. induction 1; constructor; auto using shows_grow. Qed.

Lemma held_at h k q i : Forall2 (shows h) k q ->
  match nth_error k i, nth_error q i with
  | Some x, Some a => shows h x a
  | None, None => True
  | _, _ => False
  end.
Proof. intros H. revert i. induction H; intros [|i]; cbn; auto. apply IHForall2. Qed.

Lemma text_hex h v k : is_priv h v k -> text_field h v "Hex" = Some (Hex k).
Proof. intros (a & key & net & -> & Ha & _). unfold text_field. now rewrite Ha. Qed.
Lemma text_wif h v k : is_priv h v k -> text_field h v "WIF" = Some (WIF k).
Proof. intros (a & key & net & -> & Ha & _). unfold text_field. now rewrite Ha. Qed.

Lemma made_net h n : is_net (h ++ [network_cell n]) (VPtr (length h)) (Some n).
Proof. exists (length h). split; [reflexivity|]. rewrite nth_error_app2, Nat.sub_diag by lia. reflexivity. Qed.

Section WithE.
Context (E : curve_params -> ecdsa_lib) (L : limits) (HL : lowest L = O).
Notation E0 := (E secp256k1_params).

Lemma low0 h : (lowest L <= length (A := value) h)%nat.
Proof. rewrite HL. apply Nat.le_0_l. Qed.

(** what is shown of one request *)
Definition follows (k : list held) (s : state) (r : request) (o : outcome (answer * list byte)) : Prop :=
  match o with
  | Ret (a, rest) => exists x s' new,
      steps_on E L k s r x s' /\ heap s' = heap s ++ new /\ source s' = rest /\ logged s' = logged s /\ shows (heap s') x a
  | Panic p => panics_on E L k s r p
  end.

Lemma by_call {A} k s r c (o : outcome A) rep (b : outcome answer) :
  call_for k (heap s) r = Some c ->
  answers_above E L (name c) (arguments c) (State (heap s ++ made c) (source s) (logged s)) o rep ->
  (forall a h vs, o = Ret a -> rep h a vs -> exists x b', taken c vs = Some x /\ b = Ret b' /\ shows h x b') ->
  (forall p, o = Panic p -> b = Panic p) ->
  follows k s r (match b with Ret a => Ret (a, source s) | Panic p => Panic p end).
Proof.
  intros Hc (new & H) HR HP. cbn [heap source logged] in H. unfold follows. destruct o as [a|p].
  - destruct H as (vs & He & Hr). destruct (HR a _ vs eq_refl Hr) as (x & b' & Ht & -> & Hs).
    exists x, (State ((heap s ++ made c) ++ new) (source s) (logged s)), (made c ++ new). split.
    { unfold steps_on. rewrite Hc. exists vs. auto. }
    cbn [heap source logged]. rewrite app_assoc. auto.
  - rewrite (HP p eq_refl). exists c. eexists. split; [exact Hc|exact H].
Qed.

Lemma unfit k s r : call_for k (heap s) r = None -> follows k s r (Ret (AUnfit, source s)).
Proof.
  intros H. exists HUnfit, s, []. unfold steps_on. rewrite H, app_nil_r. repeat split.
Qed.

Lemma priv_back s (o : outcome (result private_key)) a h vs :
  o = Ret a -> new_priv s h a vs -> exists x b', a_private vs = Some x /\ private_answer o = Ret b' /\ shows h x b'.
Proof.
  intros -> H. destruct a as [p|e]; cbn in *.
  - destruct H as (v & -> & Hp & _). eexists _, _. repeat split. exact Hp.
  - subst vs. eexists _, _. repeat split.
Qed.
Lemma pub_back s (o : outcome (result public_key)) a h vs :
  o = Ret a -> new_pub s h a vs -> exists x b', a_public vs = Some x /\ public_answer o = Ret b' /\ shows h x b'.
Proof.
  intros -> H. destruct a as [p|e]; cbn in *.
  - destruct H as (v & -> & Hp & _). eexists _, _. repeat split. exact Hp.
  - subst vs. eexists _, _. repeat split.
Qed.

Ltac panic := let H := fresh in intros ? H; cbn [reply]; rewrite H; reflexivity.

(** the text a request gives to PrivateFromWIF *)
Definition reads_wif (q : list answer) (r : request) (w : gostring) : Prop :=
  match r with
  | EnterWIF t _ => w = t
  | SaveWIF i _ => exists k, nth_error q i = Some (APrivate k) /\ w = WIF k
  | _ => False
  end.
Definition wif_works (w : gostring) : Prop := forall v net s, is_net (heap s) v net ->
  answers_above E L "PrivateFromWIF" [VStr w; v] s (PrivateFromWIF w net) (new_priv s).

Lemma perform_follows_on k q s r : curve_ready (heap s) -> Forall2 (shows (heap s)) k q ->
  (forall w, reads_wif q r w -> wif_works w) ->
  follows k s r (perform E0 q r (source s)).
Proof.
  intros HC HK HW. destruct r as [n|t n|t n|t n|i n|i n|i j|i j|i|i j c|i c|i n|i c]; cbn [perform].
  - (* Generate *)
    destruct (above_Generate E L (VPtr (length (heap s))) (Some n) (State (heap s ++ [network_cell n]) (source s) (logged s)))
      as (new & H); [apply made_net|apply low0|]. cbn [heap source logged] in H.
    destruct (GeneratePrivateKey (Some n) (source s)) as [[p rest]|p].
    + destruct H as (vs & He & v & -> & Hp & _). cbn [fst snd] in *.
      exists (HPrivate v), (State ((heap s ++ [network_cell n]) ++ new) rest (logged s)), ([network_cell n] ++ new).
      split; [exists [v]; auto|]. cbn [heap source logged]. rewrite app_assoc. auto.
    + destruct H as (left & He). eexists _, _. split; [reflexivity|exact He].
  - eapply by_call; [reflexivity|apply above_PrivateFromHex; [apply made_net|apply low0]|apply priv_back|panic].
  - eapply by_call; [reflexivity|apply HW; [reflexivity|apply made_net]|apply priv_back|panic].
  - eapply by_call; [reflexivity|apply above_PublicFromHex; [now apply curve_ready_grow|apply made_net|apply low0]|apply pub_back|panic].
  - (* SaveHex *)
    pose proof (held_at _ _ _ i HK) as Hi. cbn [reply].
    destruct (nth_error q i) as [a|], (nth_error k i) as [x|] eqn:Hk; try contradiction.
    2: { apply unfit. cbn. now rewrite Hk. }
    destruct x, a; try contradiction; try (apply unfit; cbn; now rewrite Hk).
    eapply by_call; [cbn [call_for]; rewrite Hk, (text_hex _ _ _ Hi); reflexivity|apply above_PrivateFromHex; [apply made_net|apply low0]|apply priv_back|panic].
  - (* SaveWIF *)
    pose proof (held_at _ _ _ i HK) as Hi. cbn [reply].
    destruct (nth_error q i) as [a|] eqn:Hq, (nth_error k i) as [x|] eqn:Hk; try contradiction.
    2: { apply unfit. cbn. now rewrite Hk. }
    destruct x, a; try contradiction; try (apply unfit; cbn; now rewrite Hk).
    eapply by_call; [cbn [call_for]; rewrite Hk, (text_wif _ _ _ Hi); reflexivity|apply HW; [exists k0; rewrite Hq; auto|apply made_net]|apply priv_back|panic].
  - (* Add *)
    pose proof (held_at _ _ _ i HK) as Hi. pose proof (held_at _ _ _ j HK) as Hj. cbn [reply].
    destruct (nth_error q i) as [a|], (nth_error k i) as [x|] eqn:Hk; try contradiction.
    2: { apply unfit. cbn. now rewrite Hk. }
    destruct (nth_error q j) as [b|], (nth_error k j) as [y|] eqn:Hk'; try contradiction.
    2: { destruct x, a; try contradiction; apply unfit; cbn; now rewrite Hk, ?Hk'. }
    destruct x, a; try contradiction; try (apply unfit; cbn; now rewrite Hk).
    destruct y, b; try contradiction; try (apply unfit; cbn; now rewrite Hk, Hk').
    eapply (by_call _ _ _ _ (AddPrivateKeys k0 k1)); [cbn [call_for]; rewrite Hk, Hk'; reflexivity| |apply priv_back|panic].
    apply (above_AddPrivateKeys E L v (Some k0) v0 (Some k1)); cbn [heap made]; [now apply curve_ready_grow| | |apply low0]; now apply is_priv_grow.
  - (* Multiply *)
    pose proof (held_at _ _ _ i HK) as Hi. pose proof (held_at _ _ _ j HK) as Hj. cbn [reply].
    destruct (nth_error q i) as [a|], (nth_error k i) as [x|] eqn:Hk; try contradiction.
    2: { apply unfit. cbn. now rewrite Hk. }
    destruct (nth_error q j) as [b|], (nth_error k j) as [y|] eqn:Hk'; try contradiction.
    2: { destruct x, a; try contradiction; apply unfit; cbn; now rewrite Hk, ?Hk'. }
    destruct x, a; try contradiction; try (apply unfit; cbn; now rewrite Hk).
    destruct y, b; try contradiction; try (apply unfit; cbn; now rewrite Hk, Hk').
    eapply (by_call _ _ _ _ (MultiplyPrivateKeys k0 k1)); [cbn [call_for]; rewrite Hk, Hk'; reflexivity| |apply priv_back|panic].
    apply (above_MultiplyPrivateKeys E L v (Some k0) v0 (Some k1)); cbn [heap made]; [now apply curve_ready_grow| | |apply low0]; now apply is_priv_grow.
  - (* Publish *)
    pose proof (held_at _ _ _ i HK) as Hi. cbn [reply].
    destruct (nth_error q i) as [a|], (nth_error k i) as [x|] eqn:Hk; try contradiction.
    2: { apply unfit. cbn. now rewrite Hk. }
    destruct x, a; try contradiction; try (apply unfit; cbn; now rewrite Hk).
    eapply (by_call _ _ _ _ (GetPublicKey E0 k0)); [cbn [call_for]; rewrite Hk; reflexivity| | |panic].
    + apply (above_GetPublicKey E L v (Some k0)); cbn [heap made]; [now apply curve_ready_grow|now apply is_priv_grow|apply low0].
    + intros [p|] h vs Ho H; cbn in H; rewrite Ho.
      * destruct H as (w & -> & Hp & _). eexists _, _. repeat split. exact Hp.
      * subst vs. eexists _, _. repeat split.
  - (* AddPublished *)
    pose proof (held_at _ _ _ i HK) as Hi. pose proof (held_at _ _ _ j HK) as Hj. cbn [reply].
    destruct (nth_error q i) as [a|], (nth_error k i) as [x|] eqn:Hk; try contradiction.
    2: { apply unfit. cbn. now rewrite Hk. }
    destruct (nth_error q j) as [b|], (nth_error k j) as [y|] eqn:Hk'; try contradiction.
    2: { destruct x, a; try contradiction; apply unfit; cbn; now rewrite Hk, ?Hk'. }
    destruct x, a; try contradiction; try (apply unfit; cbn; now rewrite Hk).
    destruct y, b; try contradiction; try (apply unfit; cbn; now rewrite Hk, Hk').
    eapply (by_call _ _ _ _ (AddPublicKeys E0 p p0 c)); [cbn [call_for]; rewrite Hk, Hk'; reflexivity| |apply pub_back|panic].
    apply (above_AddPublicKeys E L v (Some p) v0 (Some p0)); cbn [heap made]; [now apply curve_ready_grow| | |apply low0]; now apply is_pub_grow.
  - (* Export *)
    pose proof (held_at _ _ _ i HK) as Hi. cbn [reply].
    destruct (nth_error q i) as [a|], (nth_error k i) as [x|] eqn:Hk; try contradiction.
    2: { apply unfit. cbn. now rewrite Hk. }
    destruct x, a; try contradiction; try (apply unfit; cbn; now rewrite Hk).
    eapply (by_call _ _ _ _ (Format p c)); [cbn [call_for]; rewrite Hk; reflexivity| | |panic].
    + apply (above_Format E L v (Some p)); cbn [heap made]; [now apply is_pub_grow|apply low0].
    + intros t h vs Ho H; hnf in H; rewrite Ho. subst vs. eexists _, _. repeat split.
  - (* Import *)
    pose proof (held_at _ _ _ i HK) as Hi. cbn [reply].
    destruct (nth_error q i) as [a|], (nth_error k i) as [x|] eqn:Hk; try contradiction.
    2: { apply unfit. cbn. now rewrite Hk. }
    destruct x, a; try contradiction; try (apply unfit; cbn; now rewrite Hk).
    cbn in Hi. subst s0.
    eapply by_call; [cbn [call_for]; rewrite Hk; reflexivity|apply above_PublicFromHex; [now apply curve_ready_grow|apply made_net|apply low0]|apply pub_back|panic].
  - (* AddressOf *)
    pose proof (held_at _ _ _ i HK) as Hi. cbn [reply].
    destruct (nth_error q i) as [a|], (nth_error k i) as [x|] eqn:Hk; try contradiction.
    2: { apply unfit. cbn. now rewrite Hk. }
    destruct x, a; try contradiction; try (apply unfit; cbn; now rewrite Hk).
    eapply (by_call _ _ _ _ (Address p c)); [cbn [call_for]; rewrite Hk; reflexivity| | |panic].
    + apply (above_Address E L v (Some p)); cbn [heap made]; [now apply is_pub_grow|apply low0].
    + intros [t|e] h vs Ho H; cbn in H; rewrite Ho.
      * destruct H as (w & -> & ->). eexists _, _. repeat split.
      * subst vs. eexists _, _. repeat split.
Qed.

End WithE.

Section Determined.
Context (E : curve_params -> ecdsa_lib) (L : limits).
(** the calls leave no choice *)
Lemma ends_fun f args s r r' : ends_above E L f args s r -> ends_above E L f args s r' -> r = r'.
Proof. intros (N & H) (M & H'). rewrite <- (H (N + M)%nat), <- (H' (N + M)%nat) by lia. reflexivity. Qed.

Lemma steps_fun k s r x s1 y s2 : steps_on E L k s r x s1 -> steps_on E L k s r y s2 -> x = y /\ s1 = s2.
Proof.
  unfold steps_on. destruct (call_for k (heap s) r) as [c|]; [|intros [-> ->] [-> ->]; auto].
  intros (vs & H & T) (vs' & H' & T'). pose proof (ends_fun _ _ _ _ _ H H') as [= -> ->].
  rewrite T in T'. injection T' as ->. auto.
Qed.
Lemma panics_steps k s r p x s1 : panics_on E L k s r p -> steps_on E L k s r x s1 -> False.
Proof.
  intros (c & s' & Hc & H). unfold steps_on. rewrite Hc. intros (vs & H' & _).
  now pose proof (ends_fun _ _ _ _ _ H H').
Qed.
Lemma panics_fun k s r p p' : panics_on E L k s r p -> panics_on E L k s r p' -> p = p'.
Proof.
  intros (c & s' & Hc & H) (c' & s'' & Hc' & H'). rewrite Hc in Hc'. injection Hc' as <-.
  now pose proof (ends_fun _ _ _ _ _ H H') as [= -> _].
Qed.

Ltac same_step H :=
  match goal with H' : steps_on _ _ _ _ _ _ _ |- _ =>
    tryif constr_eq H H' then fail else destruct (steps_fun _ _ _ _ _ _ _ H H') as [? ?]; subst
  end.

Lemma runs_fun k s rs k1 s1 : runs_on E L k s rs k1 s1 -> forall k2 s2, runs_on E L k s rs k2 s2 -> k1 = k2 /\ s1 = s2.
Proof.
  induction 1 as [|k s r rs x t k' s' H R IH]; intros k2 s2 H2; inversion H2; subst; auto.
  same_step H. auto.
Qed.
Lemma runs_dies k s rs k1 s1 : runs_on E L k s rs k1 s1 -> forall p, dies_on E L k s rs p -> False.
Proof.
  induction 1 as [|k s r rs x t k' s' H R IH]; intros p H2; inversion H2; subst.
  - eapply panics_steps; eauto.
  - same_step H. eauto.
Qed.
Lemma dies_fun k s rs p : dies_on E L k s rs p -> forall p', dies_on E L k s rs p' -> p = p'.
Proof.
  induction 1 as [k s r rs p H|k s r rs x t p H R IH]; intros p' H2; inversion H2; subst.
  - eapply panics_fun; eauto.
  - exfalso. eapply panics_steps; eauto.
  - exfalso. eapply panics_steps; eauto.
  - same_step H. auto.
Qed.
End Determined.

Section Unlimited.
Context (E : curve_params -> ecdsa_lib).
Notation E0 := (E secp256k1_params).

Lemma perform_follows k q s r : curve_ready (heap s) -> Forall2 (shows (heap s)) k q ->
  follows E (unbounded O) k s r (perform E0 q r (source s)).
Proof.
  intros HC HK. apply perform_follows_on; [reflexivity|exact HC|exact HK|].
  intros w _ v net s0 Hn. exact (answers_PrivateFromWIF E w v net s0 Hn).
Qed.

Lemma session_follows rs : forall k q s, curve_ready (heap s) -> Forall2 (shows (heap s)) k q ->
  match session E0 q rs (source s) with
  | Ret (q', rest) => exists k' s', runs E k s rs k' s' /\ source s' = rest /\ logged s' = logged s /\ Forall2 (shows (heap s')) k' q'
  | Panic p => dies E k s rs p
  end.
Proof.
  induction rs as [|r rs IH]; intros k q s HC HK; cbn [session].
  - exists k, s. split; [constructor|auto].
  - pose proof (perform_follows k q s r HC HK) as H.
    destruct (perform E0 q r (source s)) as [[a rest]|p]; cbn in H; [|now constructor].
    destruct H as (x & s1 & new & H1 & Hh & <- & Hl & Hs).
    specialize (IH (k ++ [x]) (q ++ [a]) s1). rewrite Hh in *.
    destruct (session E0 (q ++ [a]) rs (source s1)) as [[q' rest]|p].
    + destruct IH as (k' & s' & Hr & Hso & Hlo & Hk').
      * now apply curve_ready_grow.
      * apply Forall2_app; [now apply all_grow|]. constructor; [exact Hs|constructor].
      * exists k', s'. split; [econstructor; eauto|]. split; [exact Hso|]. split; [congruence|exact Hk'].
    + eapply dies_later; [exact H1|]. apply IH; [now apply curve_ready_grow|].
      apply Forall2_app; [now apply all_grow|]. constructor; [exact Hs|constructor].
Qed.

Lemma shows_carries h k q ms : Forall2 (shows h) k q -> Forall2 stands_for ms q -> Forall2 (carries h) k ms.
Proof.
  intros H. revert ms. induction H as [|x a k q Hx H IH]; intros ms HM; inversion HM; subst; constructor; auto.
  now exists a.
Qed.

Lemma run_meant rs s : ecdsa_contract E0 -> curve_ready (heap s) -> Forall sensible rs ->
  (forall ms rest, meant_all [] rs (source s) ms rest ->
     exists k s', runs E [] s rs k s' /\ Forall2 (carries (heap s')) k ms /\ source s' = rest /\ logged s' = logged s) /\
  ((forall ms rest, ~ meant_all [] rs (source s) ms rest) -> dies E [] s rs PRand).
Proof.
  intros HE HC HS. destruct (session_exact E0 HE rs (source s) HS) as (H1 & H2 & H3).
  pose proof (session_follows rs [] [] s HC (Forall2_nil _)) as F. split.
  - intros ms rest HM. destruct (H1 ms rest HM) as (q & Hq & HF). rewrite Hq in F.
    destruct F as (k & s' & Hr & Hso & Hlo & Hk). exists k, s'. split; [exact Hr|].
    split; [now apply (shows_carries _ _ q)|]. auto.
  - intros HN. destruct (session E0 [] rs (source s)) as [[q rest]|p] eqn:Q.
    + destruct (H2 q rest eq_refl) as (ms & HM & _). now apply HN in HM.
    + destruct (H3 p eq_refl) as [-> _]. exact F.
Qed.

End Unlimited.
