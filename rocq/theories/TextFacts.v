(** * Facts about the texts the package returns, and about mistyped WIFs *)

From Coq Require Import Permutation.
From Verif Require Import GoBase GoNum Sha256 Ripemd160 Base58 GoRand Model SpecApi ModelLower Spec SpecMore SpecText.
From Verif Require Import NumFacts HexFacts Base58Facts SpecFacts PrivFacts GenFacts CombFacts PrivProps PubFacts Counting.
Local Open Scope Z_scope.
Local Opaque sha256 ripemd160 secp_P secp_N.

(** ** Characters *)

Lemma base58_text_chars bs s : base58_text bs s -> Forall (fun c => In c alphabet58) s.
Proof. intros H. apply base58_text_encode in H as ->. exact (b58encode_alphabet bs). Qed.

Lemma base58check_nonempty p s : base58check p s -> s <> [].
Proof.
  intros H. apply base58check_encode in H as ->. intros E. apply b58encode_nil in E.
  apply (f_equal (@length byte)) in E. rewrite app_length, checksum4_length in E. cbn in E. lia.
Qed.

Lemma produced_wif_chars k : produced k -> WIF k <> [] /\ Forall (fun c => In c alphabet58) (WIF k).
Proof.
  intros H. apply produced_wif_valid, CheckWIF_true_iff in H as [p H].
  split; [apply (base58check_nonempty p), H|apply (base58_text_chars _ _ H)].
Qed.

Lemma address_chars p c a : Address p c = Ret (Ok a) -> a <> [] /\ Forall (fun c => In c alphabet58) a.
Proof.
  intros H. destruct (PNetwork p) as [n|] eqn:En.
  - destruct (Address_success _ _ _ _ En H) as (v & s & bs & _ & _ & _ & K).
    split; [apply (base58check_nonempty _ _ K)|apply (base58_text_chars _ _ K)].
  - exfalso. unfold Address in H. destruct (Format p c) as [s|]; [|discriminate]. cbn [bind] in H.
    destruct (hex_decode s); [|discriminate]. cbn [bind_res] in H. rewrite En in H. discriminate.
Qed.

Lemma alphabet_ascii : forallb (fun c => b2z c <? 128) alphabet58 = true.
Proof. vm_compute. reflexivity. Qed.

Lemma produced_ascii k : produced k -> Forall (fun c => byte_number c < 128) (WIF k).
Proof.
  intros H. apply produced_wif_chars in H as [_ H]. eapply Forall_impl; [|exact H]. cbn beta. intros c Hc.
  pose proof alphabet_ascii as A. rewrite forallb_forall in A. apply A, Z.ltb_lt in Hc. exact Hc.
Qed.

(** Any lower-casing function that is right on ASCII texts. *)
Lemma lowered_lower_byte c d : lowered c d -> d = lower_byte c.
Proof.
  intros [(i & Hc & Hd)|[Hn ->]].
  - do 26 (destruct i as [|i]; [cbn in Hc, Hd; injection Hc as <-; injection Hd as <-; reflexivity|]).
    destruct i; cbn in Hc; discriminate.
  - destruct c; try reflexivity; exfalso; apply Hn; cbn; tauto.
Qed.

Lemma lowers_ascii_eq lower s : lowers_ascii lower -> Forall (fun c => byte_number c < 128) s -> lower s = to_lower s.
Proof.
  intros H Hs. specialize (H s Hs). revert H. generalize (lower s) as t. clear Hs.
  induction s as [|c s IH]; intros t H; inversion H as [|c' d s' t' Hc Ht]; subst; [reflexivity|].
  cbn [to_lower map]. f_equal; [apply lowered_lower_byte, Hc|apply IH, Ht].
Qed.

Lemma to_lower_lowers_ascii : lowers_ascii to_lower.
Proof.
  intros s _. induction s as [|c s IH]; cbn [to_lower map]; constructor; [|exact IH].
  destruct c; first [right; split; [cbn; intuition discriminate|reflexivity] | left;
    match goal with |- exists i, nth_error _ i = Some ?c /\ _ =>
        exists (Z.to_nat (b2z c - 65)); split; reflexivity end].
Qed.

Lemma any_lower lower a b : lowers_ascii lower -> produced a -> produced b ->
  AddPrivateKeys_lower lower a b = AddPrivateKeys a b /\
  MultiplyPrivateKeys_lower lower a b = MultiplyPrivateKeys a b.
Proof.
  intros Hl Ha Hb. unfold AddPrivateKeys_lower, MultiplyPrivateKeys_lower.
  rewrite (lowers_ascii_eq lower (WIF a)), (lowers_ascii_eq lower (WIF b)) by (try assumption; apply produced_ascii; assumption).
  split; reflexivity.
Qed.

(** ** Mistyped WIFs *)

Lemma foreign_character w : ~ Forall (fun c => In c alphabet58) w -> CheckWIF w = Ret false.
Proof.
  intros H. destruct (b58decode w) as [bs|e] eqn:E; [|apply (CheckWIF_invalid w e), E].
  exfalso. apply H. apply b58decode_ok in E as (<- & _ & _). exact (b58encode_alphabet bs).
Qed.

Lemma base58_text_check bs w : base58_text bs w -> CheckWIF w = Ret true -> exists p, bs = p ++ checksum4 p.
Proof.
  intros H K. apply CheckWIF_true_iff in K as [p K]. exists p. apply (base58_text_inj _ _ w H K).
Qed.

Lemma one_checksum p c d v w : length c = 4%nat -> length d = 4%nat -> base58_text (p ++ c) v -> base58_text (p ++ d) w ->
  CheckWIF v = Ret true -> CheckWIF w = Ret true -> v = w.
Proof.
  intros Lc Ld Hv Hw Cv Cw. apply (base58_text_check _ _ Hv) in Cv as [q Eq]. apply (base58_text_check _ _ Hw) in Cw as [r Er].
  assert (forall a b x y : list byte, a ++ x = b ++ y -> length x = length y -> a = b /\ x = y) as K.
  { clear. intros a b x y E L. assert (length a = length b) as La.
    { apply (f_equal (@length byte)) in E. rewrite !app_length in E. lia. }
    revert b E La; induction a as [|u a IH]; intros [|u' b] E La; try discriminate; [split; [reflexivity|exact E]|].
    injection E as -> E. injection La as La. destruct (IH b E La) as [-> ->]. auto. }
  apply K in Eq as [<- ->]; [|rewrite checksum4_length; exact Lc].
  apply K in Er as [<- ->]; [|rewrite checksum4_length; exact Ld].
  apply base58_text_encode in Hv, Hw. congruence.
Qed.

Lemma check_count n S c : all_streams (n + 4) S ->
  holds_for (fun bs => exists w, base58_text bs w /\ CheckWIF w = Ret true) S c -> Z.of_nat c = 256 ^ Z.of_nat n.
Proof.
  intros HS H. apply (holds_for_counted _ _ _ _ HS) in H. apply (counted_fun _ _ _ _ H). clear H.
  destruct (counted_all n) as (T & H1 & H2 & H3). exists (map (fun p => p ++ checksum4 p) T). split; [|split].
  - apply FinFun.Injective_map_NoDup; [|exact H1]. intros p q. apply app_checksum_inj.
  - intros bs. rewrite in_map_iff. split.
    + intros (p & <- & Hp). apply H2 in Hp as [Lp _]. rewrite app_length, checksum4_length, Lp. split; [reflexivity|].
      exists (b58encode (p ++ checksum4 p)). split; [apply base58_text_encode; reflexivity|].
      apply CheckWIF_true_iff. exists p. apply base58check_encode. reflexivity.
    + intros [Lb (w & Hw & Cw)]. apply (base58_text_check _ _ Hw) in Cw as [p ->]. exists p. split; [reflexivity|].
      apply H2. rewrite app_length, checksum4_length in Lb. split; [lia|exact I].
  - rewrite map_length. exact H3.
Qed.

(** The number of a Base58 text. *)
Lemma b58_value bs : exists ds, b58encode bs = map b58char ds /\ digits_ok 58 ds /\ valb 58 ds = bytes_number bs.
Proof.
  exists (convert 256 58 (map b2z bs)). split; [reflexivity|]. split.
  - apply convert_ok; try lia. apply digits_ok_bytes.
  - rewrite convert_valb by (try lia; apply digits_ok_bytes). symmetry. apply bytes_number_set_bytes.
Qed.

Lemma b58char_map_inj ds es : digits_ok 58 ds -> digits_ok 58 es -> map b58char ds = map b58char es -> ds = es.
Proof.
  intros Hd He E. pose proof (scan_b58_map ds Hd) as K. rewrite E, (scan_b58_map es He) in K. congruence.
Qed.

Lemma last_five_characters p q a t u : base58check p (a ++ t) -> base58check q (a ++ u) ->
  length t = length u -> (length t <= 5)%nat -> Z.abs (bytes_number p - bytes_number q) <= 1.
Proof.
  intros Hp Hq Hl H5. apply base58check_encode in Hp, Hq.
  destruct (b58_value (p ++ checksum4 p)) as (ds & E1 & O1 & V1).
  destruct (b58_value (q ++ checksum4 q)) as (es & E2 & O2 & V2).
  rewrite E1 in Hp. rewrite E2 in Hq. symmetry in Hp, Hq.
  apply map_eq_app in Hp as (d1 & d2 & -> & A1 & T1). apply map_eq_app in Hq as (e1 & e2 & -> & A2 & T2).
  apply digits_ok_app in O1 as [O1 O1']. apply digits_ok_app in O2 as [O2 O2'].
  assert (d1 = e1) as <- by (apply b58char_map_inj; congruence).
  rewrite valb_app in V1, V2. rewrite bytes_number_app, checksum4_length in V1, V2.
  assert (Ld : length d2 = length t) by (rewrite <- T1, map_length; reflexivity).
  assert (Le : length e2 = length t) by (rewrite Hl, <- T2, map_length; reflexivity).
  rewrite Ld in V1. rewrite Le in V2.
  pose proof (valb_bound 58 d2 ltac:(lia) O1') as B1. pose proof (valb_bound 58 e2 ltac:(lia) O2') as B2.
  rewrite Ld in B1. rewrite Le in B2.
  assert (P5 : 58 ^ Z.of_nat (length t) <= 58 ^ 5) by (apply Z.pow_le_mono_r; lia).
  pose proof (bytes_number_bound (checksum4 p)) as C1. pose proof (bytes_number_bound (checksum4 q)) as C2.
  rewrite checksum4_length in C1, C2.
  change (256 ^ Z.of_nat 4) with 4294967296 in *. change (58 ^ 5) with 656356768 in P5.
  set (A := valb 58 d1 * 58 ^ Z.of_nat (length t)) in *. lia.
Qed.

Lemma prefixed_value pre h bs z : hex_text (pre ++ h) bs -> hex_number h z ->
  exists v, bytes_number bs = v * 16 ^ Z.of_nat (length h) + z /\ (forall ds, scan fromhex pre = Some ds -> v = valb 16 ds).
Proof.
  intros H Hz. apply hex_text_decode in H. pose proof (proj1 (hex_number_scan _ _) Hz) as [Hne Hs].
  destruct (scan fromhex h) as [dh|] eqn:Eh; [|discriminate]. cbn in Hs. injection Hs as <-.
  assert (pre ++ h <> []) as N by (intros E; apply app_eq_nil in E as [_ E]; contradiction).
  pose proof (proj1 (hex_decode_scan _ _) H) as (ds & Hs & _).
  pose proof (set_string16_decode _ _ N H) as K. rewrite (set_string16_scan _ _ N Hs) in K.
  rewrite scan_app, Eh in Hs. destruct (scan fromhex pre) as [dp|]; [|discriminate]. injection Hs as <-.
  exists (valb 16 dp). split; [|congruence].
  rewrite bytes_number_set_bytes. assert (set_bytes bs = valb 16 (dp ++ dh)) as -> by congruence.
  rewrite valb_app, (scan_length _ _ _ Eh). reflexivity.
Qed.

Lemma last_five_keys g h n x y i j a t u : PrivateFromHex g (Some n) = Ret (Ok x) -> PrivateFromHex h (Some n) = Ret (Ok y) ->
  length g = length h -> Key x = Some i -> Key y = Some j ->
  WIF x = a ++ t -> WIF y = a ++ u -> length t = length u -> (length t <= 5)%nat -> Z.abs (i - j) <= 1.
Proof.
  intros Hx Hy L Kx Ky Wx Wy Lt H5.
  apply PrivateFromHex_success in Hx as (bs & Tx & Cx & _ & _ & Nx). apply PrivateFromHex_success in Hy as (cs & Ty & Cy & _ & _ & Ny).
  rewrite Kx in Nx. rewrite Ky in Ny. rewrite Wx in Cx. rewrite Wy in Cy.
  pose proof (last_five_characters _ _ _ _ _ Cx Cy Lt H5) as D.
  destruct (prefixed_value _ _ _ _ Tx Nx) as (v & Ev & Fv). destruct (prefixed_value _ _ _ _ Ty Ny) as (w & Ew & Fw).
  apply hex_text_decode, hex_decode_scan in Tx as (ds & Hs & _). rewrite scan_app in Hs.
  destruct (scan fromhex (PrivKeyPrefix n)) as [dp|]; [|discriminate].
  rewrite (Fv _ eq_refl) in Ev. rewrite (Fw _ eq_refl) in Ew. rewrite L in Ev. lia.
Qed.

(** Two valid texts, as the calls see them. *)
Lemma last_five_texts a t u : CheckWIF (a ++ t) = Ret true -> CheckWIF (a ++ u) = Ret true ->
  length t = length u -> (length t <= 5)%nat ->
  exists p q, base58check p (a ++ t) /\ base58check q (a ++ u) /\ Z.abs (bytes_number p - bytes_number q) <= 1.
Proof.
  intros Ht Hu L H5. apply CheckWIF_true_iff in Ht as [p Hp]. apply CheckWIF_true_iff in Hu as [q Hq].
  exists p, q. split; [exact Hp|]. split; [exact Hq|]. exact (last_five_characters p q a t u Hp Hq L H5).
Qed.
