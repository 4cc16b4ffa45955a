(** * Programs run on a machine whose ints have [bits] bits: proofs (C105) *)

From Coq Require Import String.
From Verif Require Import GoBase GoNum Sha256 Ripemd160 Base58 GoRand NumFacts HexFacts Base58Facts Model ModelPtr GoSyntax GoSource GoSem SpecSource.
From Verif Require Import SessionWitness SourceBase SourceAll Spec SpecFacts CombFacts CurveSpec EcdsaContract SpecSession Session SpecRun RunFacts SpecInts IntsFacts SpecRunInts.
Local Open Scope Z_scope.
Local Opaque sha256 ripemd160 secp_A secp_B secp_P secp_Gx secp_Gy secp_N secp_H set_string16 n256k1.

Lemma b58encode_len bs : (length (b58encode bs) <= 2 * length bs)%nat.
Proof.
  induction bs as [|b bs IH]; [cbn; lia|].
  destruct (Byte.byte_eq_dec b x00) as [->|Hb].
  - rewrite b58encode_lead1. cbn [length]. lia.
  - rewrite (b58encode_no_lead _ b bs eq_refl Hb), map_length.
    apply digits_length_le; [lia|]. pose proof (bytes_number_bound (b :: bs)) as H. rewrite bytes_number_set_bytes in H.
    split; [lia|]. eapply Z.lt_le_trans; [apply H|].
    rewrite Nat2Z.inj_mul, (Z.pow_mul_r 58) by lia. change (58 ^ Z.of_nat 2) with 3364.
    apply Z.pow_le_mono_l. lia.
Qed.

Lemma hex_text_len s bs : hex_text s bs -> (length s = 2 * length bs)%nat.
Proof. intros H. induction H; cbn [length]; lia. Qed.

Section Machine.
Context (E : curve_params -> ecdsa_lib) (bits : Z) (L : limits) (HM : ints_of bits L) (Hb : 32 <= bits).
Notation E0 := (E secp256k1_params).

Notation few := (few_bytes bits).

Lemma room : 2 ^ 28 <= 2 ^ (bits - 4) /\ 2 ^ (bits - 2) = 4 * 2 ^ (bits - 4).
Proof.
  split; [apply Z.pow_le_mono_r; lia|].
  replace (bits - 2) with (2 + (bits - 4)) by lia. rewrite Z.pow_add_r by lia. reflexivity.
Qed.

Lemma wif_len n v bs k : few (MPrivate n v bs) -> stands_for (MPrivate n v bs) (APrivate k) -> len (WIF k) < 2 ^ (bits - 2).
Proof.
  intros Hf (k' & Ek & _ & _ & _ & W & _). injection Ek as <-. apply base58check_encode in W. rewrite W.
  pose proof (b58encode_len ((v :: bs) ++ checksum4 (v :: bs))) as B.
  rewrite app_length, checksum4_length in B. cbn [length few_bytes] in *.
  destruct room as (R1 & R2). change (2 ^ 28) with 268435456 in R1. unfold len in *. lia.
Qed.

Lemma combined_few f n1 v1 b1 n2 v2 b2 m : combined f n1 v1 b1 n2 v2 b2 m -> few m.
Proof.
  intros [(_ & ->)|[(_ & _ & ->)|[(_ & _ & _ & ->)|(_ & _ & v & bs & _ & (t & S & T) & ->)]]]; try exact I.
  cbn [few_bytes]. apply hex_text_len in T. apply shortest_hex_sprintf in S. destruct S as (Hz & ->).
  assert (length (sprintf_x (f (bytes_number b1) (bytes_number b2) mod n256k1)) <= 64)%nat.
  { apply sprintf_x_length_le; [|lia]. split; [exact Hz|].
    assert (P : n256k1 <= 2 ^ 256) by (apply Z.leb_le; vm_compute; reflexivity).
    assert (Q : 0 < n256k1) by (apply Z.ltb_lt; vm_compute; reflexivity).
    pose proof (Z.mod_pos_bound (f (bytes_number b1) (bytes_number b2)) n256k1 Q).
    change (16 ^ Z.of_nat 64) with (2 ^ 256). lia. }
  destruct room as (R1 & _). change (2 ^ 28) with 268435456 in R1. unfold len. lia.
Qed.

Lemma meant_few h r rd m rest : Forall few h -> short_keys bits r -> meant_next h r rd m rest -> few m.
Proof.
  intros F Hs M. destruct room as (R1 & _). change (2 ^ 28) with 268435456 in R1.
  assert (A : forall i n v bs, nth_error h i = Some (MPrivate n v bs) -> len bs < 2 ^ (bits - 4)).
  { intros i n v bs Hi. apply nth_error_In in Hi. rewrite Forall_forall in F. exact (F _ Hi). }
  destruct r as [n|t n|t n|t n|i n|i n|i j|i j|i|i j c|i c|i n|i c]; cbn [meant_next meant short_keys] in *.
  - destruct M as (v & bs & _ & Hl & _ & ->). cbn [few_bytes]. unfold len. lia.
  - destruct M as (_ & v & bs & _ & T & ->). cbn [few_bytes]. apply hex_text_len in T. unfold len in *. lia.
  - destruct M as (_ & v & bs & T & ->). cbn [few_bytes].
    apply base58check_encode in T. assert (D : b58decode t = Ok ((v :: bs) ++ checksum4 (v :: bs))).
    { rewrite T. apply b58decode_encode. discriminate. }
    apply decoded_len in D. unfold len in *. rewrite hex_encode_length, app_length in D. cbn [length] in D. lia.
  - destruct M as (_ & c & x & y & bs & z & _ & _ & _ & ->). exact I.
  - destruct M as (_ & M). destruct (nth_error h i) as [[n0 v bs| | | | |]|] eqn:Hi; try (subst m; exact I).
    destruct M as (v' & _ & ->). exact (A _ _ _ _ Hi).
  - destruct M as (_ & M). destruct (nth_error h i) as [[n0 v bs| | | | |]|] eqn:Hi; subst m; try exact I. exact (A _ _ _ _ Hi).
  - destruct M as (_ & M). destruct (nth_error h i) as [[]|], (nth_error h j) as [[]|]; try (subst m; exact I).
    exact (combined_few _ _ _ _ _ _ _ _ M).
  - destruct M as (_ & M). destruct (nth_error h i) as [[]|], (nth_error h j) as [[]|]; try (subst m; exact I).
    exact (combined_few _ _ _ _ _ _ _ _ M).
  - destruct M as (_ & M). destruct (nth_error h i) as [[]|]; subst m; exact I.
  - destruct M as (_ & M). destruct (nth_error h i) as [[]|], (nth_error h j) as [[]|]; try (subst m; exact I).
    destruct M as [(_ & ->)|[(_ & _ & ->)|(_ & _ & ->)]]; exact I.
  - destruct M as (_ & M). destruct (nth_error h i) as [[]|]; subst m; exact I.
  - destruct M as (_ & M). destruct (nth_error h i) as [[]|]; subst m; exact I.
  - destruct M as (_ & M). destruct (nth_error h i) as [[]|]; subst m; exact I.
Qed.

Lemma stands_at_back h H i a : Forall2 stands_for h H -> nth_error H i = Some a ->
  exists m, nth_error h i = Some m /\ stands_for m a.
Proof.
  intros F. revert i. induction F as [|m' a' h H S F IH]; intros [|i] Hi; cbn in *; try discriminate; eauto.
  injection Hi as ->. eauto.
Qed.

Lemma wif_short h q r : Forall2 stands_for h q -> Forall few h -> short_keys bits r ->
  forall w, reads_wif q r w -> len w < 2 ^ (bits - 2).
Proof.
  intros S F Hs w Hw. destruct room as (R1 & R2). change (2 ^ 28) with 268435456 in R1.
  destruct r as [n|t n|t n|t n|i n|i n|i j|i j|i|i j c|i c|i n|i c]; cbn [reads_wif short_keys] in *; try contradiction.
  - subst w. lia.
  - destruct Hw as (k & Hk & ->). destruct (stands_at_back _ _ _ _ S Hk) as (m & Hm & Sm).
    assert (Fm : few m) by (apply nth_error_In in Hm; rewrite Forall_forall in F; auto).
    destruct m as [n0 v0 bs| | | | |]; cbn [stands_for] in Sm.
    + exact (wif_len _ _ _ _ Fm Sm).
    + destruct Sm as (x & y & Q & _). discriminate.
    + destruct Sm as (x & y & bs & t & Q & _). discriminate.
    + destruct Sm as (x & y & bs & p & t & Q & _). discriminate.
    + discriminate.
    + discriminate.
Qed.
Lemma wifs_work h q r : Forall2 stands_for h q -> Forall few h -> short_keys bits r ->
  forall w, reads_wif q r w -> wif_works E L w.
Proof.
  intros S F Hs w Hw v net s Hn. apply (ints_PrivateFromWIF E bits L HM w v net s Hb); [|exact Hn].
  exact (wif_short h q r S F Hs w Hw).
Qed.

Lemma session_follows_on rs : ecdsa_contract E0 -> forall h k q s, curve_ready (heap s) -> Forall2 (shows (heap s)) k q ->
  Forall2 stands_for h q -> Forall fine h -> Forall few h -> Forall sensible rs -> Forall (short_keys bits) rs ->
  match session E0 q rs (source s) with
  | Ret (q', rest) => exists k' s', runs_on E L k s rs k' s' /\ source s' = rest /\ logged s' = logged s /\ Forall2 (shows (heap s')) k' q'
  | Panic p => dies_on E L k s rs p
  end.
Proof.
  intros HE. induction rs as [|r rs IH]; intros h k q s HC HK HS HF HB Hr Hsh; cbn [session].
  - exists k, s. split; [constructor|auto].
  - inversion Hr as [|? ? Hr1 Hr2]; subst. inversion Hsh as [|? ? Hs1 Hs2]; subst.
    pose proof (perform_follows_on E L (proj1 HM) k q s r HC HK (wifs_work h q r HS HB Hs1)) as H.
    destruct (perform_total E0 h q r (source s) HS HF Hr1) as [(m & rest & M)|(Ep & _)].
    2:{ rewrite Ep in *. now constructor. }
    destruct (perform_forward E0 HE _ _ _ _ _ _ HS HF Hr1 M) as (a & Ea & Sa & Fa). rewrite Ea in *. cbn [follows] in H.
    destruct H as (x & s1 & new & H1 & Hh & <- & Hl & Hs).
    specialize (IH (h ++ [m]) (k ++ [x]) (q ++ [a]) s1). rewrite Hh in *.
    assert (P : Forall2 (shows (heap s ++ new)) (k ++ [x]) (q ++ [a])).
    { apply Forall2_app; [now apply all_grow|]. constructor; [exact Hs|constructor]. }
    specialize (IH ltac:(now apply curve_ready_grow) P ltac:(apply Forall2_app; auto) ltac:(apply Forall_app; auto)
                  ltac:(apply Forall_app; split; [exact HB|constructor; [exact (meant_few _ _ _ _ _ HB Hs1 M)|constructor]]) Hr2 Hs2).
    destruct (session E0 (q ++ [a]) rs (source s1)) as [[q' rest]|p].
    + destruct IH as (k' & s' & Hrun & Hso & Hlo & Hk'). exists k', s'.
      split; [econstructor; eauto|]. split; [exact Hso|]. split; [congruence|exact Hk'].
    + eapply dies_later; [exact H1|exact IH].
Qed.

Lemma run_meant_on rs s : ecdsa_contract E0 -> curve_ready (heap s) -> Forall sensible rs -> Forall (short_keys bits) rs ->
  (forall ms rest, meant_all [] rs (source s) ms rest ->
     exists k s', runs_on E L [] s rs k s' /\ Forall2 (carries (heap s')) k ms /\ source s' = rest /\ logged s' = logged s) /\
  ((forall ms rest, ~ meant_all [] rs (source s) ms rest) -> dies_on E L [] s rs PRand).
Proof.
  intros HE HC HS Hsh. destruct (session_exact E0 HE rs (source s) HS) as (H1 & H2 & H3).
  pose proof (session_follows_on rs HE [] [] [] s HC (Forall2_nil _) (Forall2_nil _) (Forall_nil _) (Forall_nil _) HS Hsh) as F. split.
  - intros ms rest Hm. destruct (H1 ms rest Hm) as (q & Hq & HF). rewrite Hq in F.
    destruct F as (k & s' & Hr & Hso & Hlo & Hk). exists k, s'. split; [exact Hr|].
    split; [now apply (shows_carries _ _ q)|]. auto.
  - intros HN. destruct (session E0 [] rs (source s)) as [[q rest]|p] eqn:Q.
    + destruct (H2 q rest eq_refl) as (ms & Hm & _). now apply HN in Hm.
    + destruct (H3 p eq_refl) as [-> _]. exact F.
Qed.

End Machine.

Section Two.
Context (E : curve_params -> ecdsa_lib) (bits1 : Z) (L1 : limits) (bits2 : Z) (L2 : limits) (rs : list request) (s : state).
Notation E0 := (E secp256k1_params).

Lemma same_story : ints_of bits1 L1 -> 32 <= bits1 -> ints_of bits2 L2 -> 32 <= bits2 ->
  ecdsa_contract E0 -> curve_ready (heap s) -> Forall sensible rs ->
  Forall (short_keys bits1) rs -> Forall (short_keys bits2) rs ->
  (forall k1 s1, runs_on E L1 [] s rs k1 s1 ->
     exists ms k2 s2, runs_on E L2 [] s rs k2 s2 /\ Forall2 (carries (heap s1)) k1 ms /\ Forall2 (carries (heap s2)) k2 ms /\
       source s2 = source s1 /\ logged s2 = logged s1) /\
  (forall p, dies_on E L1 [] s rs p -> dies_on E L2 [] s rs p).
Proof.
  intros M1 B1 M2 B2 HE HC HS S1 S2.
  destruct (run_meant_on E bits1 L1 M1 B1 rs s HE HC HS S1) as (R1 & D1).
  destruct (run_meant_on E bits2 L2 M2 B2 rs s HE HC HS S2) as (R2 & D2).
  destruct (session_exact E0 HE rs (source s) HS) as (_ & H2 & H3).
  destruct (session E0 [] rs (source s)) as [[q rest]|p0].
  - destruct (H2 q rest eq_refl) as (ms & Hm & _).
    destruct (R1 ms rest Hm) as (k1 & s1 & Hr1 & Hc1 & Hs1 & Hl1). destruct (R2 ms rest Hm) as (k2 & s2 & Hr2 & Hc2 & Hs2 & Hl2).
    split.
    + intros k s0 Hr. destruct (runs_fun E L1 _ _ _ _ _ Hr1 _ _ Hr) as (<- & <-). exists ms, k2, s2. repeat split; try assumption; congruence.
    + intros p Hd. exfalso. exact (runs_dies E L1 _ _ _ _ _ Hr1 p Hd).
  - destruct (H3 p0 eq_refl) as (_ & N). split.
    + intros k s0 Hr. exfalso. exact (runs_dies E L1 _ _ _ _ _ Hr PRand (D1 N)).
    + intros p Hd. rewrite (dies_fun E L1 _ _ _ _ Hd _ (D1 N)). exact (D2 N).
Qed.
End Two.

(** the example program *)
Lemma program_short : Forall (short_keys 32) program.
Proof. unfold program. repeat (apply Forall_cons; [first [exact I|vm_compute; reflexivity]|]). apply Forall_nil. Qed.
