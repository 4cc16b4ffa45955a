(** * The heap programs that draw random bytes or write log lines *)

From Verif Require Import GoBase GoNum Sha256 Base58 GoRand Model GenFacts Heap HeapSem HeapWp HeapRules HeapFacts.
Local Open Scope Z_scope.
Local Opaque sha256 secp_P secp_N b58decode b58encode hex_decode hex_encode slice.

(** ** rand.Int *)

Definition draws (k : nat) (bl max : Z) (d : list byte) : option (Z * list byte) :=
  rand_loop (S (length d)) k bl max d.

Lemma draws_here k bl max bs d : length bs = k -> (rand_candidate bl bs <? max) = true ->
  draws k bl max (bs ++ d) = Some (rand_candidate bl bs, d).
Proof.
  intros Hl Hc. unfold draws. cbn [rand_loop].
  rewrite firstn_app, skipn_app, <- Hl, Nat.sub_diag, firstn_all, skipn_all, app_nil_r. cbn [firstn skipn app].
  rewrite app_length. destruct (Nat.ltb_spec (length bs + length d) (length bs)); [lia|].
  rewrite Hc. reflexivity.
Qed.
Lemma draws_skip k bl max bs d : (0 < k)%nat -> length bs = k -> (rand_candidate bl bs <? max) = false ->
  draws k bl max (bs ++ d) = draws k bl max d.
Proof.
  intros Hk Hl Hc. unfold draws at 1. cbn [rand_loop].
  rewrite firstn_app, skipn_app, <- Hl, Nat.sub_diag, firstn_all, skipn_all, app_nil_r. cbn [firstn skipn app].
  rewrite app_length. destruct (Nat.ltb_spec (length bs + length d) (length bs)); [lia|].
  rewrite Hc. apply rand_loop_fuel; lia.
Qed.
Lemma draws_fail k bl max bs : (length bs < k)%nat -> draws k bl max bs = None.
Proof. intros H. unfold draws. cbn [rand_loop]. destruct (Nat.ltb_spec (length bs) k); [reflexivity|lia]. Qed.

(** What a loop that stopped after [d] says about the value model. *)
Definition loop_result (F : omap) (n : addr) (k : nat) (bl max : Z) (fuel : nat) (own' : omap) (d : list byte)
  (o : outcome (option addr)) : Prop :=
  match o with
  | Ret (Some a) => a = n /\ own' n <> None /\ (length d >= 1)%nat /\
      exists v, look F own' n = Some (OInt v) /\ forall d2, draws k bl max (d ++ d2) = Some (v, d2)
  | Ret None => draws k bl max d = None
  | Panic e => e = PFuel /\ (fuel <= length d)%nat
  end.

Lemma rand_loop_heap F own0 n k bl max m fuel : (0 < k)%nat -> int_at (look F own0) (Some max) (Some m) ->
  look F own0 n = None -> forall own, keep F own0 own -> own n <> None -> forall tr lg,
  behaves F own tr lg (h_rand_loop fuel k bl n max) (fun own' tr' lg' o =>
    keep F own0 own' /\ exists d, tr' = tr ++ d /\ lg' = lg /\ loop_result F n k bl m fuel own' d o).
Proof.
  intros Hk Hm Nn. induction fuel as [|fuel IH]; intros own K On tr lg; cbn [h_rand_loop].
  - cbn. split; [exact K|]. exists []. rewrite app_nil_r. cbn. auto with arith.
  - cbn [behaves]. split; intros bs Hb.
    + apply b_SetZ; [exact On|]. set (c := rand_candidate bl bs).
      eapply b_read_int; [exists c; split; [at_tac|reflexivity]|]. cbn beta iota.
      assert (K1 : keep F own0 (oset own n (OInt c))) by keep_tac.
      eapply b_read_int; [eapply keep_int; [exact Hm|exact K1]|]. cbn beta iota.
      destruct (c <? m) eqn:Ec.
      * cbn [behaves]. split; [exact K1|]. exists bs. do 2 (split; [reflexivity|]). cbn [loop_result].
        split; [reflexivity|]. split; [own_tac|]. split; [lia|]. exists c. split; [at_tac|].
        intros d2. apply (draws_here k bl m); assumption.
      * eapply behaves_mono; [|apply (IH (oset own n (OInt c)) K1)]; [|own_tac].
        cbn beta. intros own' tr' lg' o (K' & d & -> & -> & R). split; [exact K'|]. exists (bs ++ d).
        rewrite app_assoc. do 2 (split; [reflexivity|]).
        destruct o as [[a|]|e]; cbn [loop_result] in *.
        -- destruct R as (-> & O' & Hd & v & Lv & Hv). split; [reflexivity|]. split; [exact O'|].
           split; [rewrite app_length; lia|]. exists v. split; [exact Lv|]. intros d2.
           rewrite <- app_assoc, draws_skip by assumption. apply Hv.
        -- rewrite draws_skip by assumption. exact R.
        -- rewrite app_length. destruct R. split; [assumption|lia].
    + split; [exact K|]. exists bs. do 2 (split; [reflexivity|]). cbn [loop_result]. apply (draws_fail k bl m bs Hb).
Qed.

Definition int_result (F own : omap) (max : Z) (fuel : nat) (own' : omap) (d : list byte) (l : list gostring)
  (o : outcome (option addr)) : Prop :=
  l = [] /\
  match o with
  | Ret (Some a) => look F own a = None /\ (length d >= 1)%nat /\
      exists v, look F own' a = Some (OInt v) /\ forall d2, rand_int max (d ++ d2) = Some (v, d2)
  | Ret None => rand_int max d = None
  | Panic e => e = PFuel /\ (fuel <= length d)%nat
  end.

Lemma rand_int_heap F own max m fuel : (bit_len (m - 1) =? 0) = false -> int_at (look F own) (Some max) (Some m) ->
  noisy F own (h_rand_int fuel max) (int_result F own m fuel).
Proof.
  intros Hb Hm tr lg. unfold h_rand_int. apply b_alloc; intros n Nn.
  eapply b_read_int; [eapply keep_int; [exact Hm|apply keep_new, Nn]|]. cbn beta iota zeta. rewrite Hb.
  assert (Hk : (0 < Z.to_nat ((bit_len (m - 1) + 7) / 8))%nat).
  { assert (0 <= bit_len (m - 1)) by (unfold bit_len; destruct (m - 1 <=? 0); [lia|pose proof (Z.log2_nonneg (m - 1)); lia]).
    apply Z.eqb_neq in Hb. assert (1 <= (bit_len (m - 1) + 7) / 8) by (apply Z.div_le_lower_bound; lia). lia. }
  eapply behaves_mono; [|apply (rand_loop_heap F own n _ _ max m fuel Hk Hm Nn)]; [|apply keep_new, Nn|own_tac].
  cbn beta. intros own' tr' lg' o (K & d & -> & -> & R). split; [exact K|]. exists d, []. rewrite app_nil_r.
  do 2 (split; [reflexivity|]). split; [reflexivity|].
  destruct o as [[a|]|e]; cbn [loop_result] in *.
  - destruct R as (-> & O' & Hd & v & Lv & Hv). do 2 (split; [assumption|]). exists v. split; [exact Lv|].
    intros d2. unfold rand_int. rewrite Hb. apply Hv.
  - unfold rand_int. rewrite Hb. exact R.
  - exact R.
Qed.

(** ** GeneratePrivateKey *)

Lemma generateRandomBigInt_heap F own fuel :
  noisy F own (h_generateRandomBigInt fuel) (fun own' d l o => l = [] /\
    match o with
    | Ret a => look F own a = None /\ (length d >= 1)%nat /\
        exists v, look F own' a = Some (OInt v) /\ forall d2, generateRandomBigInt (d ++ d2) = Ret (v, d2)
    | Panic e => (e = PRand /\ generateRandomBigInt d = Panic PRand) \/ (e = PFuel /\ (fuel <= length d)%nat)
    end).
Proof.
  intros tr lg. unfold h_generateRandomBigInt. apply b_alloc; intros z Nz. apply b_SetZ; [own_tac|].
  match goal with |- behaves F ?o _ _ _ _ => assert (K : keep F own o) by keep_tac;
    assert (Lz : int_at (look F o) (Some z) (Some rand_max)) by (eexists; split; [at_tac|reflexivity]) end.
  eapply b_noisy; [eapply (rand_int_heap F _ z rand_max); [vm_compute; reflexivity|exact Lz]|].
  intros own' d l o K' (-> & R). destruct o as [[a|]|e]; cbn [behaves].
  - destruct R as (Na & Hd & v & Lv & Hv). split; [eapply keep_trans; eassumption|]. exists d, [].
    do 3 (split; [reflexivity|]). fr_tac. split; [assumption|]. split; [assumption|]. exists v. split; [exact Lv|].
    intros d2. unfold generateRandomBigInt. rewrite Hv. reflexivity.
  - split; [eapply keep_trans; eassumption|]. exists d, []. do 3 (split; [reflexivity|]). left. split; [reflexivity|].
    unfold generateRandomBigInt. rewrite R. reflexivity.
  - split; [eapply keep_trans; eassumption|]. exists d, []. do 3 (split; [reflexivity|]). right. exact R.
Qed.

Lemma generate_unfold net rd : GeneratePrivateKey net rd =
  match generateRandomBigInt rd with
  | Panic e => Panic e
  | Ret (key, rd') =>
      if negb (len (bigIntToHex (Some key)) =? 64) then generate_fuel (length rd) net rd'
      else match PrivateFromHex (bigIntToHex (Some key)) net with
           | Panic e => Panic e
           | Ret (Err _) => generate_fuel (length rd) net rd'
           | Ret (Ok k) => Ret (PrivateKey (Some key) (Hex k) (WIF k) (KNetwork k), rd')
           end
  end.
Proof.
  unfold GeneratePrivateKey. cbn [generate_fuel]. unfold bind.
  destruct (generateRandomBigInt rd) as [[key rd']|e]; [|reflexivity].
  destruct (negb _); [reflexivity|]. destruct (PrivateFromHex _ _) as [[k|e]|e]; reflexivity.
Qed.

Definition gen_result (F own : omap) (net : ptr) (v : option network) (fuel : nat) (own' : omap) (d : list byte)
  (l : list gostring) (o : outcome addr) : Prop :=
  l = [] /\
  match o with
  | Ret a => exists k, GeneratePrivateKey v d = Ret (k, []) /\ new_priv F own net own' a k
  | Panic e => GeneratePrivateKey v d = Panic e \/ (e = PFuel /\ (fuel <= length d)%nat)
  end.

Lemma GeneratePrivateKey_heap F p v fuel : forall own, net_at (look F own) p v ->
  noisy F own (h_GeneratePrivateKey fuel p) (gen_result F own p v fuel).
Proof.
  induction fuel as [|fuel IH]; intros own Hn tr lg; cbn [h_GeneratePrivateKey].
  - cbn. split; [apply keep_refl|]. exists [], []. rewrite !app_nil_r. do 3 (split; [reflexivity|]). right. cbn. auto.
  - eapply b_noisy; [apply generateRandomBigInt_heap|]. intros own1 d l o K1 (-> & R). rewrite app_nil_r.
    destruct o as [key|e].
    2: { split; [exact K1|]. exists d, []. rewrite app_nil_r. do 3 (split; [reflexivity|]).
         destruct R as [(-> & R)|(-> & R)]; [left|right; auto]. rewrite generate_unfold, R. reflexivity. }
    destruct R as (Nk & Hd & z & Lz & Hz).
    pose proof (keep_net _ _ _ _ _ Hn K1) as Hn1.
    eapply b_bigIntToHex; [exists z; split; [exact Lz|reflexivity]|].
    assert (Again : forall own2, keep F own own2 ->
              (forall d2, GeneratePrivateKey v (d ++ d2) = generate_fuel (length (d ++ d2)) v d2) ->
              behaves F own2 (tr ++ d) lg (h_GeneratePrivateKey fuel p) (fun own' tr' lg' o =>
                keep F own own' /\ exists d0 l, tr' = tr ++ d0 /\ lg' = lg ++ l /\ gen_result F own p v (S fuel) own' d0 l o)).
    { intros own2 K2 Hu. eapply behaves_mono; [|apply (IH own2); exact (keep_net _ _ _ _ _ Hn K2)].
      cbn beta. intros own' tr' lg' o (K' & d2 & l & -> & -> & (-> & R)).
      split; [eapply keep_trans; eassumption|]. exists (d ++ d2), []. rewrite app_assoc, app_nil_r.
      do 3 (split; [reflexivity|]). specialize (Hu d2).
      rewrite (generate_fuel_more v d2 (length (d ++ d2)) (S (length d2))) in Hu by (rewrite ?app_length; lia).
      fold (GeneratePrivateKey v d2) in Hu. rewrite Hu. destruct o as [a|e].
      - destruct R as (k & Ek & Hk). exists k. split; [exact Ek|]. eapply new_priv_weaken; eassumption.
      - destruct R as [R|(R & R2)]; [left; exact R|right]. split; [exact R|]. rewrite app_length. lia. }
    destruct (negb (len (bigIntToHex (Some z)) =? 64)) eqn:El.
    { apply Again; [exact K1|]. intros d2. rewrite generate_unfold, Hz, El. reflexivity. }
    eapply b_quiet; [eapply PrivateFromHex_heap, Hn1|]. intros own2 o K2 R. unfold priv_result in R.
    pose proof (keep_trans _ _ _ _ K1 K2) as K12.
    destruct (PrivateFromHex (bigIntToHex (Some z)) v) as [[k|ek]|ek] eqn:Ep, o as [[a|e]|e]; try contradiction.
    + destruct R as (Na & Oa & kp & La & Ik & Nn). eapply b_read_priv; [exact La|]. cbn beta iota.
      apply b_write; [exact Oa|]. cbn [behaves]. pose proof (keep_none _ _ _ _ K1 Na) as Na0.
      assert (K3 : keep F own (oset own2 a (OPriv (Some key) (Hex k) (WIF k) p))) by keep_tac.
      split; [exact K3|]. exists d, []. rewrite app_nil_r. do 3 (split; [reflexivity|]).
      exists (PrivateKey (Some z) (Hex k) (WIF k) (KNetwork k)).
      split.
      { rewrite generate_unfold. rewrite <- (app_nil_r d) at 1. rewrite Hz, El, Ep. reflexivity. }
      split; [exact Na0|]. split; [own_tac|]. exists (Some key). split; [at_tac|].
      split.
      2: { cbn [KNetwork]. destruct p as [b|]; [|exact Nn]. destruct Nn as (m & Lm & Em). exists m. split; [|exact Em].
           rewrite look_oset_other; [exact Lm|]. intros ->. congruence. }
      exists z. split; [|reflexivity]. rewrite look_oset_other; [apply K2, Lz|]. intros ->. congruence.
    + apply Again; [exact K12|]. intros d2. rewrite generate_unfold, Hz, El, Ep. reflexivity.
    + split; [exact K12|]. exists d, []. rewrite app_nil_r. do 3 (split; [reflexivity|]). left.
      rewrite generate_unfold. rewrite <- (app_nil_r d) at 1. rewrite Hz, El, Ep. cbn in R. congruence.
Qed.

(** ** NewSeedFromMnemonic *)

Lemma nibbles_heap F : forall b own,
  noisy F own (h_nibbles b) (fun own' d l o => d = [] /\ (l, o) = nibbles b).
Proof.
  assert (H : forall n b, (length b <= n)%nat -> forall own,
    noisy F own (h_nibbles b) (fun own' d l o => d = [] /\ (l, o) = nibbles b)).
  2: { intros b. apply (H (length b)). lia. }
  induction n as [|n IH]; intros b Hb own tr lg.
  - destruct b; [|cbn in Hb; lia]. cbn. split; [apply keep_refl|]. exists [], []. rewrite !app_nil_r. auto.
  - assert (Hp : behaves F own tr lg (PPanic PIndex) (fun own' tr' lg' (o : outcome gostring) => keep F own own' /\
        exists d l, tr' = tr ++ d /\ lg' = lg ++ l /\ d = [] /\ (l, o) = ([], Panic PIndex))).
    { cbn. split; [apply keep_refl|]. exists [], []. rewrite !app_nil_r. auto. }
    destruct b as [|c1 [|c2 [|c3 [|c4 b]]]]; try exact Hp.
    { cbn. split; [apply keep_refl|]. exists [], []. rewrite !app_nil_r. auto. }
    clear Hp. cbn [h_nibbles nibbles behaves]. set (nb := [c1; c2; c3; c4]).
    assert (Hb' : (length b <= n)%nat) by (cbn in Hb; lia). specialize (IH b Hb').
    apply b_alloc; intros z Nz. apply b_SetString; [own_tac|].
    assert (Rest : forall own1 p, keep F own own1 -> int_at (look F own1) p (set_string2 nb) ->
      behaves F own1 tr (lg ++ [nb])
        (do hexa <- h_bigIntToHex p; do rest <- h_nibbles b; PRet (hexa ++ rest))
        (fun own' tr' lg' o => keep F own own' /\ exists d l, tr' = tr ++ d /\ lg' = lg ++ l /\ d = [] /\
           (l, o) = (let '(log, r) := nibbles b in
                     (nb :: log, let* hash := r in Ret (bigIntToHex (set_string2 nb) ++ hash))))).
    { intros own1 p K1 Hp. eapply b_bigIntToHex; [exact Hp|].
      eapply b_noisy; [apply IH|]. intros own2 d l o K2 (-> & El). rewrite app_nil_r.
      destruct (nibbles b) as [log r]. injection El as -> ->.
      pose proof (keep_trans _ _ _ _ K1 K2) as K.
      destruct r as [h|e]; cbn [behaves bind].
      all: split; [exact K|]; exists [], (nb :: log); rewrite app_nil_r, <- app_assoc; auto. }
    destruct (set_string2 nb) as [v|] eqn:Ev.
    + apply Rest; [keep_tac|]. exists v. split; [at_tac|reflexivity].
    + apply Rest; [keep_tac|]. reflexivity.
Qed.

Lemma NewSeedFromMnemonic_heap F own m pass p wl : words_at (look F own) p wl ->
  noisy F own (h_NewSeedFromMnemonic m pass p) (fun own' d l o => d = [] /\ (l, o) = NewSeedFromMnemonic m pass wl).
Proof.
  intros Hw tr lg. unfold h_NewSeedFromMnemonic, NewSeedFromMnemonic.
  eapply b_read_words; [exact Hw|].
  destruct (words_binary _ _) as [binary|].
  2: { cbn. split; [apply keep_refl|]. exists [], []. rewrite !app_nil_r. auto. }
  eapply b_noisy; [apply nibbles_heap|]. intros own1 d l o K1 (-> & El). rewrite app_nil_r.
  destruct (nibbles binary) as [log r]. injection El as -> ->.
  destruct r as [hash|e].
  2: { split; [exact K1|]. exists [], log. rewrite app_nil_r. auto. }
  assert (Stop : forall own' (o : outcome (result (option (list byte)))), keep F own own' ->
     keep F own own' /\ exists d l, tr = tr ++ d /\ lg ++ log = lg ++ l /\ d = [] /\ (l, o) = (log, o)).
  { intros own' o K. split; [exact K|]. exists [], log. rewrite app_nil_r. auto. }
  apply b_pure. destruct (slice hash (len hash - 2) (len hash)) as [ck|e]; [|apply Stop, K1].
  apply b_pure. destruct (slice hash 0 (len hash - 2)) as [body|e]; [|apply Stop, K1].
  destruct (hex_decode body) as [dec|e]; cbn [pbind_res]; [|apply Stop, K1].
  apply b_alloc; intros z Nz. apply b_SetZ; [own_tac|].
  pose proof (keep_none _ _ _ _ K1 Nz) as Nz0.
  eapply b_bigIntToHex; [eexists; split; [at_tac|reflexivity]|]. cbn zeta.
  apply b_pure. destruct (slice _ 0 2) as [h2|e]; [|apply Stop; keep_tac].
  destruct (negb (str_eqb h2 ck)); [apply Stop; keep_tac|].
  cbn [behaves]. split; [keep_tac|]. eexists [], _. split; [rewrite app_nil_r; reflexivity|].
  split; [|split; [reflexivity|]; reflexivity]. rewrite <- !app_assoc. reflexivity.
Qed.

(** ** NewMnemonic *)

Lemma phrase_loop_heap F n : forall i own b z p wl, int_at (look F own) b (Some z) -> words_at (look F own) p wl ->
  quiet F own (h_phrase_loop n i b p) (fun own' o => o = phrase_loop n i z (words_of wl)).
Proof.
  induction n as [|n IH]; intros i own b z p wl Hb Hw tr lg; cbn [h_phrase_loop phrase_loop]; [quit|].
  eapply b_read_int; [exact Hb|]. cbn beta iota.
  apply b_alloc; intros a Na. apply b_SetString; [own_tac|].
  destruct (set_string2 (bit_chars z i)) as [j|].
  - eapply b_read_int; [eexists; split; [at_tac|reflexivity]|]. cbn beta iota.
    match goal with |- behaves F ?o _ _ _ _ => assert (K1 : keep F own o) by keep_tac end.
    eapply b_read_words; [eapply keep_words; [exact Hw|exact K1]|].
    apply b_pure. destruct (index (words_of wl) j) as [w|e]; cbn [bind]; [|quit].
    eapply b_quiet; [apply (IH (i + 11) _ b z p wl); [eapply keep_int; [exact Hb|exact K1]|eapply keep_words; [exact Hw|exact K1]]|].
    cbn beta. intros own' o K' ->. pose proof (keep_trans _ _ _ _ K1 K').
    destruct (phrase_loop n (i + 11) z (words_of wl)) as [ws|e]; cbn [bind]; quit.
  - eapply b_read_int; [reflexivity|]. cbn beta iota. quit.
Qed.

Lemma pow_bit_len e : e = 128 \/ e = 160 \/ e = 192 \/ e = 224 \/ e = 256 -> (bit_len (2 ^ e - 1) =? 0) = false.
Proof. intros [->|[->|[->|[->| ->]]]]; reflexivity. Qed.
Lemma entropy_length_values w e : entropy_length w = Some e -> e = 128 \/ e = 160 \/ e = 192 \/ e = 224 \/ e = 256.
Proof. unfold entropy_length. repeat (destruct (_ =? _); [intros [= <-]; auto|]). discriminate. Qed.

Definition mnem_result (words : Z) (wl : wordlist) (fuel : nat) (d : list byte) (l : list gostring)
  (o : outcome (result gostring)) : Prop :=
  l = [] /\ ((o = NewMnemonic words wl d /\ mnemonic_rest words wl d = []) \/ (o = Panic PFuel /\ (fuel <= length d)%nat)).

Lemma NewMnemonic_heap F own words p wl fuel : words_at (look F own) p wl ->
  noisy F own (h_NewMnemonic fuel words p) (fun own' d l o => mnem_result words wl fuel d l o).
Proof.
  intros Hw tr lg. unfold h_NewMnemonic, mnem_result.
  destruct p as [pa|]; cbn in Hw.
  2: { subst wl. cbn. split; [apply keep_refl|]. exists [], []. rewrite !app_nil_r. auto 9. }
  destruct Hw as (lw & Lw & ->). unfold NewMnemonic, mnemonic_rest.
  destruct (entropy_length words) as [e|] eqn:Ee.
  2: { cbn. split; [apply keep_refl|]. exists [], []. rewrite !app_nil_r. auto 9. }
  pose proof (pow_bit_len e (entropy_length_values _ _ Ee)) as Hbl.
  apply b_alloc; intros np Nnp. apply b_alloc; intros ea Nea. fr_tac.
  eapply b_op; [own_tac|exists 2; split; [at_tac|reflexivity]|exists e; split; [at_tac|reflexivity]|]. cbn beta iota.
  match goal with |- behaves F ?o _ _ _ _ => remember o as own1 eqn:E1 end.
  assert (K1 : keep F own own1) by (rewrite E1; keep_tac).
  assert (L1 : int_at (look F own1) (Some np) (Some (2 ^ e))) by (rewrite E1; eexists; split; [at_tac|reflexivity]).
  clear E1.
  eapply b_noisy; [apply (rand_int_heap F own1 np (2 ^ e) fuel Hbl L1)|].
  intros own2 d l o K2 (-> & R). rewrite app_nil_r. pose proof (keep_trans _ _ _ _ K1 K2) as K12.
  assert (Stop : forall own' (o : outcome (result gostring)), keep F own own' ->
     (o = match rand_int (2 ^ e) d with
          | Some (entropy, _) => let* phrase := mnemonic_of_entropy e entropy lw in Ret (Ok phrase)
          | None => Ret (Err ERandRead)
          end /\ match rand_int (2 ^ e) d with Some (_, rest) => rest | None => [] end = [] \/ (o = Panic PFuel /\ (fuel <= length d)%nat)) ->
     keep F own own' /\ exists d' l, tr ++ d = tr ++ d' /\ lg = lg ++ l /\ l = [] /\
       (o = match rand_int (2 ^ e) d' with
          | Some (entropy, _) => let* phrase := mnemonic_of_entropy e entropy lw in Ret (Ok phrase)
          | None => Ret (Err ERandRead)
          end /\ match rand_int (2 ^ e) d' with Some (_, rest) => rest | None => [] end = [] \/ (o = Panic PFuel /\ (fuel <= length d')%nat))).
  { intros own' o' K Ho. split; [exact K|]. exists d, []. rewrite app_nil_r. auto. }
  destruct o as [[ent|]|e'].
  3: { apply Stop; [exact K12|]. right. destruct R as (-> & R). auto. }
  2: { apply Stop; [exact K12|]. left. rewrite R. auto. }
  destruct R as (Nent & Hd & v & Lv & Hv). specialize (Hv []). rewrite app_nil_r in Hv.
  rewrite Hv in Stop. unfold mnemonic_of_entropy in Stop. clear Hv.
  eapply b_read_int; [exists v; split; [exact Lv|reflexivity]|]. cbn beta iota zeta.
  apply b_alloc; intros ha Nha. apply b_SetZ; [own_tac|].
  eapply b_read_int; [eexists; split; [at_tac|reflexivity]|]. cbn beta iota.
  pose proof (keep_none _ _ _ _ K12 Nha) as Nha0.
  match goal with |- behaves F ?o _ _ _ _ => remember o as own3 eqn:E3 end.
  assert (K3 : keep F own2 own3) by (rewrite E3; keep_tac). clear E3.
  pose proof (keep_trans _ _ _ _ K12 K3) as K13. cbn zeta in Stop.
  apply b_pure. destruct (slice _ 0 (e / 32)) as [ck|e']; cbn [bind] in Stop; [|apply Stop; auto].
  eapply b_read_int; [exists v; split; [apply K3, Lv|reflexivity]|]. cbn beta iota zeta.
  set (b := pad_left (Z.to_nat e) (sprintf_b v) ++ ck) in *.
  apply b_alloc; intros za Nza. apply b_SetString; [own_tac|]. pose proof (keep_none _ _ _ _ K13 Nza) as Nza0.
  destruct (set_string2 b) as [bz|].
  2: { cbn [behaves]. apply Stop; [keep_tac|]. auto. }
  match goal with |- behaves F ?o _ _ _ _ => assert (K4 : keep F own o) by keep_tac end.
  eapply b_quiet; [apply (phrase_loop_heap F _ 0 _ (Some za) bz (Some pa) (Some lw));
    [eexists; split; [at_tac|reflexivity]|exists lw; split; [apply K4, Lw|reflexivity]]|].
  cbn beta. intros own' o K' ->. pose proof (keep_trans _ _ _ _ K4 K'). cbn [words_of].
  destruct (phrase_loop _ 0 bz lw) as [ws|e']; cbn [bind behaves] in *; apply Stop; auto.
Qed.
