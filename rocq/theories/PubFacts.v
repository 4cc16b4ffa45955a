(** * Public keys without curve arithmetic: lemmas behind C28, C30, C33-C36 *)

From Verif Require Import GoBase GoNum Sha256 Ripemd160 Base58 GoRand Model.
From Verif Require Import NumFacts HexFacts Base58Facts Spec SpecFacts PrivFacts GenFacts CombFacts.
From Coq Require Import ZifyBool ZifyNat ZifyN.
Local Open Scope Z_scope.
Local Opaque sha256 ripemd160.

(** ** Padded hex *)

Definition hex64 (z : Z) : gostring := pad_left 64 (sprintf_x z).

Lemma hex64_length z : 0 <= z < 2 ^ 256 -> length (hex64 z) = 64%nat.
Proof.
  intros H. unfold hex64. rewrite pad_left_length.
  pose proof (sprintf_x_length_le z 64). change (16 ^ Z.of_nat 64) with (2 ^ 256) in *. lia.
Qed.

Lemma hex64_lower z : 0 <= z -> lower_case_hex (hex64 z).
Proof.
  intros H. unfold hex64, pad_left. apply Forall_app. split.
  - apply Forall_forall. intros c Hc. apply repeat_spec in Hc. subst. left. reflexivity.
  - apply (proj1 (proj2 (shortest_hex_sprintf (sprintf_x z) z) (conj H eq_refl))).
Qed.

Lemma hex64_octets z : 0 <= z < 2 ^ 256 -> exists X, octets 32 z X /\ hex_decode (hex64 z) = Ok X.
Proof.
  intros H. pose proof (hex64_length z H) as Hl.
  destruct (proj2 (hex_decode_ok_iff (hex64 z))) as [X HX].
  { split; [rewrite Hl; reflexivity|]. apply pad_left_sprintf_x_hex. lia. }
  exists X. split; [|exact HX]. split.
  - apply hex_decode_length in HX. lia.
  - assert (hex64 z <> []) as Hne by (intros E; rewrite E in Hl; discriminate).
    pose proof (set_string16_decode _ _ Hne HX) as Hs. unfold hex64 in Hs.
    rewrite pad_left_sprintf_x_value in Hs by lia. rewrite bytes_number_set_bytes. congruence.
Qed.

(** Any 64-digit lower-case hex text is the padded form of its value. *)
Lemma hex64_of_text s z : length s = 64%nat -> lower_case_hex s -> hex_number s z -> hex64 z = s.
Proof.
  intros Hl Hc Hn.
  assert (Hz : 0 <= z < 2 ^ 256).
  { destruct Hn as (_ & ds & Hd & ->). rewrite number_valb.
    apply forall2_hex_scan in Hd as Hs.
    pose proof (valb_bound 16 (map Z.of_nat ds) ltac:(lia) (scan_hex_ok _ _ Hs)) as Hb.
    rewrite (scan_length _ _ _ Hs), Hl in Hb. exact Hb. }
  destruct (hex64_octets z Hz) as (X & [HXl HXn] & HX).
  destruct (proj2 (hex_decode_ok_iff s)) as [Y HY].
  { split; [rewrite Hl; reflexivity|]. apply lower_case_hex_is_hex, Hc. }
  assert (X = Y) as ->.
  { apply bytes_number_inj.
    - apply hex_decode_length in HY. lia.
    - rewrite HXn. apply (hex_number_fun s); [assumption|].
      apply hex_number_bytes; [intros ->; discriminate|apply hex_text_decode, HY]. }
  rewrite <- (lower_case_hex_lower _ (hex64_lower z ltac:(lia))), <- (hex_encode_decode _ _ HX).
  rewrite <- (lower_case_hex_lower _ Hc), <- (hex_encode_decode _ _ HY). reflexivity.
Qed.

(** ** Format *)

Lemma Format_uncompressed x y net :
  Format (PublicKey (Some x) (Some y) net) false = Ret (str "04" ++ hex64 x ++ hex64 y).
Proof. reflexivity. Qed.
Lemma Format_compressed x y net :
  Format (PublicKey (Some x) (Some y) net) true = Ret (str (if Z.even y then "02" else "03") ++ hex64 x).
Proof.
  unfold Format, big_bit. cbn [negb PX PY bigIntToHex]. rewrite Z.bit0_odd, <- Z.negb_even.
  destruct (Z.even y); reflexivity.
Qed.

(** C28 *)
Lemma Format_sec1 x y net c : 0 <= x < 2 ^ 256 -> 0 <= y < 2 ^ 256 ->
  exists s bs, Format (PublicKey (Some x) (Some y) net) c = Ret s /\ sec1 c x y bs /\
    hex_text s bs /\ lower_case_hex s /\ length s = (if c then 66%nat else 130%nat).
Proof.
  intros Hx Hy. destruct (hex64_octets x Hx) as (X & HX & EX).
  pose proof (hex64_length x Hx) as Lx. pose proof (hex64_length y Hy) as Ly.
  destruct c.
  - rewrite Format_compressed. exists (str (if Z.even y then "02" else "03") ++ hex64 x).
    exists ((if Z.even y then x02 else x03) :: X). split; [reflexivity|].
    split; [exists X; auto|]. split; [|split].
    + apply hex_text_decode.
      rewrite (hex_decode_app _ _ [if Z.even y then x02 else x03]) by (destruct (Z.even y); reflexivity).
      rewrite EX. reflexivity.
    + apply Forall_app. split; [|apply hex64_lower; lia].
      destruct (Z.even y); repeat (constructor; [cbn; tauto|]); constructor.
    + rewrite app_length, Lx. destruct (Z.even y); reflexivity.
  - rewrite Format_uncompressed. destruct (hex64_octets y Hy) as (Y & HY & EY).
    exists (str "04" ++ hex64 x ++ hex64 y), (x04 :: X ++ Y). split; [reflexivity|].
    split; [exists X; split; [assumption|exists Y; auto]|]. split; [|split].
    + apply hex_text_decode. rewrite (hex_decode_app _ _ [x04]) by reflexivity.
      rewrite (hex_decode_app _ _ _ EX), EY. reflexivity.
    + apply Forall_app. split; [|apply Forall_app; split; apply hex64_lower; lia].
      repeat (constructor; [cbn; tauto|]). constructor.
    + rewrite !app_length, Lx, Ly. reflexivity.
Qed.

Lemma sec1_fun c x y a b : sec1 c x y a -> sec1 c x y b -> a = b.
Proof.
  intros (X & HX & Ha) (X' & HX' & Hb). pose proof (octets_fun _ _ _ _ HX HX') as <-.
  destruct c; [congruence|]. destruct Ha as (Y & HY & ->), Hb as (Y' & HY' & ->).
  rewrite (octets_fun _ _ _ _ HY HY'). reflexivity.
Qed.

(** The encoding determines X, and Y (its parity when compressed). *)
Lemma sec1_inj c x y x' y' bs : sec1 c x y bs -> sec1 c x' y' bs ->
  x = x' /\ (if c then Z.even y = Z.even y' else y = y').
Proof.
  intros (X & [HXl HX] & Ha) (X' & [HXl' HX'] & Hb). destruct c.
  - rewrite Ha in Hb. injection Hb as Hp <-. split; [congruence|].
    destruct (Z.even y), (Z.even y'); try reflexivity; discriminate.
  - destruct Ha as (Y & [HYl HY] & Ha), Hb as (Y' & [HYl' HY'] & Hb). rewrite Ha in Hb.
    injection Hb as Hb. apply app_inj_1 in Hb as [<- <-]; [|congruence]. split; congruence.
Qed.

(** ** Parsing *)

Lemma set_string16_unfold c s :
  set_string16 (c :: s) =
  (if byte_eqb c x2d then option_map Z.opp (if s then None else option_map (valb 16) (scan fromhex s))
   else if byte_eqb c x2b then (if s then None else option_map (valb 16) (scan fromhex s))
   else option_map (valb 16) (scan fromhex (c :: s))).
Proof.
  assert (forall v, -1 * v = - v) as K1 by (intros; lia).
  assert (forall v, 1 * v = v) as K2 by (intros; lia).
  unfold set_string16, set_string. destruct (byte_eqb c x2d).
  - destruct s; [reflexivity|]. destruct (scan fromhex (b :: s)); cbn [option_map]; [rewrite K1|]; reflexivity.
  - destruct (byte_eqb c x2b).
    + destruct s; [reflexivity|]. destruct (scan fromhex (b :: s)); cbn [option_map]; [rewrite K2|]; reflexivity.
    + destruct (scan fromhex (c :: s)); cbn [option_map]; [rewrite K2|]; reflexivity.
Qed.

Lemma hex_number_scan s z : hex_number s z <-> s <> [] /\ option_map (valb 16) (scan fromhex s) = Some z.
Proof.
  rewrite hex_number_set_string. split.
  - intros (Hne & Hx & H). split; [assumption|]. apply scan_hex_iff in Hx as [ds Hs].
    rewrite (set_string16_scan _ _ Hne Hs) in H. rewrite Hs. exact H.
  - intros (Hne & H). destruct (scan fromhex s) as [ds|] eqn:Hs; [|discriminate].
    repeat split; [assumption|apply scan_hex_iff; eauto|]. rewrite (set_string16_scan _ _ Hne Hs). exact H.
Qed.

Lemma set_string16_signed s z : set_string16 s = Some z <-> signed_hex_number s z.
Proof.
  unfold signed_hex_number. destruct s as [|c s].
  { split; [discriminate|]. intros [[H _]|[(t & H & _)|(t & H & _)]]; [congruence|discriminate|discriminate]. }
  rewrite set_string16_unfold, hex_number_scan.
  destruct (byte_eqb c x2d) eqn:E1.
  { apply byte_eqb_eq in E1. subst c. split.
    - intros H. right; left. exists s. split; [reflexivity|]. apply hex_number_scan.
      destruct s as [|d s]; [discriminate|]. split; [discriminate|].
      destruct (option_map (valb 16) (scan fromhex (d :: s))) as [v|]; [|discriminate].
      cbn in H. injection H as H. f_equal. lia.
    - intros [[_ H]|[(t & [= <-] & H)|(t & H & _)]].
      + cbn in H. discriminate.
      + apply hex_number_scan in H as [Hne H]. destruct s as [|d s]; [congruence|]. rewrite H. cbn. f_equal. lia.
      + discriminate. }
  apply byte_eqb_neq in E1. destruct (byte_eqb c x2b) eqn:E2.
  { apply byte_eqb_eq in E2. subst c. split.
    - intros H. right; right. exists s. split; [reflexivity|]. apply hex_number_scan.
      destruct s as [|d s]; [discriminate|]. split; [discriminate|exact H].
    - intros [[_ H]|[(t & H & _)|(t & [= <-] & H)]].
      + cbn in H. discriminate.
      + discriminate.
      + apply hex_number_scan in H as [Hne H]. destruct s as [|d s]; [congruence|]. exact H. }
  apply byte_eqb_neq in E2. split.
  - intros H. left. split; [discriminate|exact H].
  - intros [[_ H]|[(t & H & _)|(t & H & _)]]; [exact H|congruence|congruence].
Qed.

Lemma set_string16_none s : set_string16 s = None <-> ~ exists z, signed_hex_number s z.
Proof.
  split.
  - intros H [z Hz]. apply set_string16_signed in Hz. congruence.
  - intros H. destruct (set_string16 s) as [z|] eqn:E; [|reflexivity].
    exfalso. apply H. exists z. apply set_string16_signed, E.
Qed.

Lemma slice_substring s lo hi : (lo <= hi <= length s)%nat ->
  slice s (Z.of_nat lo) (Z.of_nat hi) = Ret (substring s lo hi).
Proof.
  intros H. rewrite slice_ok by (unfold len; lia). unfold substring.
  rewrite Nat2Z.id. replace (Z.to_nat (Z.of_nat hi - Z.of_nat lo)) with (hi - lo)%nat by lia. reflexivity.
Qed.

Lemma slice_2_66 s : (66 <= length s)%nat -> slice s 2 66 = Ret (substring s 2 66).
Proof. intros H. apply (slice_substring s 2 66). lia. Qed.
Lemma slice_66_130 s : (130 <= length s)%nat -> slice s 66 130 = Ret (substring s 66 130).
Proof. intros H. apply (slice_substring s 66 130). lia. Qed.

Section Import.
Context (E : ecdsa_lib).

(** C33: the complete case analysis. *)
Lemma PublicFromHex_short s net : (length s < 2)%nat -> PublicFromHex E s net = Panic PSlice.
Proof.
  intros H. unfold PublicFromHex. rewrite slice_bad; [reflexivity|]. unfold len. lia.
Qed.

Lemma PublicFromHex_prefix (s : gostring) (net : option network) : (2 <= length s)%nat ->
  slice s 0 2 = Ret (substring s 0 2).
Proof. intros H. apply (slice_substring s 0 2). lia. Qed.

Lemma PublicFromHex_unsupported s net : (2 <= length s)%nat ->
  substring s 0 2 <> str "04" -> substring s 0 2 <> str "03" -> substring s 0 2 <> str "02" ->
  PublicFromHex E s net = Ret (Err EUnsupportedFormat).
Proof.
  intros Hl H4 H3 H2. unfold PublicFromHex. rewrite (PublicFromHex_prefix s net Hl). cbn [bind].
  apply str_eqb_neq in H4, H3, H2. rewrite H4, H3, H2. reflexivity.
Qed.

Lemma PublicFromHex_04_short s net : substring s 0 2 = str "04" -> (2 <= length s < 130)%nat ->
  PublicFromHex E s net = Panic PSlice.
Proof.
  intros Hp Hl. unfold PublicFromHex. rewrite (PublicFromHex_prefix s net) by lia. cbn [bind]. rewrite Hp.
  change (str_eqb (str "04") (str "04")) with true. cbv iota.
  destruct (Nat.lt_ge_cases (length s) 66).
  - rewrite slice_bad by (unfold len; lia). reflexivity.
  - rewrite (slice_2_66 s) by lia. cbn [bind].
    rewrite slice_bad by (unfold len; lia). reflexivity.
Qed.

Lemma PublicFromHex_04 s net : substring s 0 2 = str "04" -> (130 <= length s)%nat ->
  PublicFromHex E s net =
  Ret (Ok (PublicKey (set_string16 (substring s 2 66)) (set_string16 (substring s 66 130)) net)).
Proof.
  intros Hp Hl. unfold PublicFromHex. rewrite (PublicFromHex_prefix s net) by lia. cbn [bind]. rewrite Hp.
  change (str_eqb (str "04") (str "04")) with true. cbv iota.
  rewrite (slice_2_66 s), (slice_66_130 s) by lia. reflexivity.
Qed.

Lemma PublicFromHex_0203_short s net : substring s 0 2 = str "02" \/ substring s 0 2 = str "03" ->
  (2 <= length s < 66)%nat -> PublicFromHex E s net = Panic PSlice.
Proof.
  intros Hp Hl. unfold PublicFromHex. rewrite (PublicFromHex_prefix s net) by lia. cbn [bind].
  destruct Hp as [-> | ->]; cbn [str_eqb str String.list_byte_of_string byte_eqb]; 
  (rewrite slice_bad by (unfold len; lia)); reflexivity.
Qed.

(** The import of a compressed key once the x text is cut out. *)
Definition import_x (par : Z) (ox : option Z) (net : option network) : outcome (result public_key) :=
  match ox with
  | None => Panic PNil
  | Some px =>
      let '(y, onCurve) := lib_GetY E px in
      if negb onCurve then Ret (Err ENotOnSecp)
      else Ret (Ok (PublicKey (Some px) (Some (if y mod 2 =? par then y else lib_MultMod E y (-1))) net))
  end.

Lemma PublicFromHex_0203 s net b : substring s 0 2 = str (if b : bool then "02" else "03") -> (66 <= length s)%nat ->
  PublicFromHex E s net = import_x (if b then 0 else 1) (set_string16 (substring s 2 66)) net.
Proof.
  intros Hp Hl. unfold PublicFromHex. rewrite (PublicFromHex_prefix s net) by lia. cbn [bind]. rewrite Hp.
  destruct b.
  - change (str_eqb (str "02") (str "04")) with false.
    change (str_eqb (str "02") (str "03")) with false. change (str_eqb (str "02") (str "02")) with true.
    cbv iota. cbn [orb]. rewrite (slice_2_66 s) by lia. cbn [bind].
    unfold import_x, big_mod. destruct (set_string16 _) as [px|]; [|reflexivity].
    destruct (lib_GetY E px) as [y []]; [|reflexivity]. cbn [negb]. destruct (y mod 2 =? 0); reflexivity.
  - change (str_eqb (str "03") (str "04")) with false.
    change (str_eqb (str "03") (str "03")) with true. change (str_eqb (str "03") (str "02")) with false.
    cbv iota. cbn [orb]. rewrite (slice_2_66 s) by lia. cbn [bind].
    unfold import_x, big_mod. destruct (set_string16 _) as [px|]; [|reflexivity].
    destruct (lib_GetY E px) as [y []]; [|reflexivity]. cbn [negb]. destruct (y mod 2 =? 1); reflexivity.
Qed.

End Import.

Lemma substring_app_l s t lo hi : (hi <= length s)%nat -> substring (s ++ t) lo hi = substring s lo hi.
Proof.
  intros H. unfold substring. rewrite skipn_app, firstn_app, skipn_length.
  replace (hi - lo - (length s - lo))%nat with O by lia. cbn. apply app_nil_r.
Qed.

Lemma PublicFromHex_extra E s t net :
  (130 <= length s)%nat \/ ((66 <= length s)%nat /\ substring s 0 2 <> str "04") ->
  PublicFromHex E (s ++ t) net = PublicFromHex E s net.
Proof.
  intros Hl.
  assert (Hpre : substring (s ++ t) 0 2 = substring s 0 2) by (apply substring_app_l; lia).
  assert (Hlen : (length s <= length (s ++ t))%nat) by (rewrite app_length; lia).
  destruct (str_eqb (substring s 0 2) (str "04")) eqn:E4.
  - apply str_eqb_eq in E4. destruct Hl as [Hl|[_ Hl]]; [|contradiction].
    rewrite !PublicFromHex_04 by (congruence || lia). rewrite !substring_app_l by lia. reflexivity.
  - apply str_eqb_neq in E4. destruct (str_eqb (substring s 0 2) (str "02")) eqn:E2.
    + apply str_eqb_eq in E2. rewrite !(PublicFromHex_0203 E _ net true) by (congruence || lia).
      rewrite !substring_app_l by lia. reflexivity.
    + apply str_eqb_neq in E2. destruct (str_eqb (substring s 0 2) (str "03")) eqn:E3.
      * apply str_eqb_eq in E3. rewrite !(PublicFromHex_0203 E _ net false) by (congruence || lia).
        rewrite !substring_app_l by lia. reflexivity.
      * apply str_eqb_neq in E3. rewrite !PublicFromHex_unsupported by (congruence || lia). reflexivity.
Qed.

(** Splitting an exported key. *)
Lemma substring_mid (a b c : gostring) : substring (a ++ b ++ c) (length a) (length a + length b) = b.
Proof.
  unfold substring. rewrite skipn_app, skipn_all, Nat.sub_diag. cbn [skipn app].
  replace (length a + length b - length a)%nat with (length b) by lia.
  rewrite firstn_app, Nat.sub_diag, firstn_all. cbn. apply app_nil_r.
Qed.

(** C30 *)
Lemma uncompressed_round_trip E x y net net' s :
  0 <= x < 2 ^ 256 -> 0 <= y < 2 ^ 256 ->
  Format (PublicKey (Some x) (Some y) net) false = Ret s ->
  PublicFromHex E s net' = Ret (Ok (PublicKey (Some x) (Some y) net')).
Proof.
  intros Hx Hy H. rewrite Format_uncompressed in H.
  assert (s = str "04" ++ hex64 x ++ hex64 y) as -> by congruence. clear H.
  pose proof (hex64_length x Hx) as Lx. pose proof (hex64_length y Hy) as Ly.
  assert (Sx : substring (str "04" ++ hex64 x ++ hex64 y) 2 66 = hex64 x).
  { pose proof (substring_mid (str "04") (hex64 x) (hex64 y)) as K. rewrite Lx in K. exact K. }
  assert (Sy : substring (str "04" ++ hex64 x ++ hex64 y) 66 130 = hex64 y).
  { pose proof (substring_mid (str "04" ++ hex64 x) (hex64 y) []) as K.
    rewrite app_length, Lx, Ly, app_nil_r, <- app_assoc in K. exact K. }
  rewrite PublicFromHex_04; [|reflexivity|rewrite !app_length, Lx, Ly; cbn; lia].
  rewrite Sx, Sy. unfold hex64. rewrite !pad_left_sprintf_x_value by lia. reflexivity.
Qed.

Lemma substring_length s lo hi : (hi <= length s)%nat -> length (substring s lo hi) = (hi - lo)%nat.
Proof. intros H. unfold substring. rewrite firstn_length, skipn_length. lia. Qed.

Lemma substring_Forall (P : byte -> Prop) s lo hi : Forall P s -> Forall P (substring s lo hi).
Proof.
  intros H. unfold substring. rewrite <- (firstn_skipn lo s) in H. apply Forall_app in H as [_ H].
  rewrite <- (firstn_skipn (hi - lo) (skipn lo s)) in H. apply Forall_app in H as [H _]. exact H.
Qed.

Lemma skipn_skipn {A} a b (l : list A) : skipn a (skipn b l) = skipn (a + b) l.
Proof.
  revert a l. induction b as [|b IH]; intros a l; [rewrite Nat.add_0_r; reflexivity|].
  rewrite Nat.add_succ_r. destruct l; [apply skipn_nil|]. cbn [skipn]. apply IH.
Qed.

Lemma substring_split s lo mid hi : (lo <= mid <= hi)%nat ->
  substring s lo hi = substring s lo mid ++ substring s mid hi.
Proof.
  intros H. unfold substring. replace (hi - lo)%nat with ((mid - lo) + (hi - mid))%nat by lia.
  rewrite <- (firstn_skipn (mid - lo) (skipn lo s)) at 1.
  destruct (Nat.le_gt_cases (mid - lo) (length (skipn lo s))) as [Hle|Hgt].
  - rewrite firstn_app, firstn_all2 by (rewrite firstn_length; lia).
    rewrite firstn_length, Nat.min_l by assumption.
    replace (mid - lo + (hi - mid) - (mid - lo))%nat with (hi - mid)%nat by lia.
    rewrite skipn_skipn. replace (mid - lo + lo)%nat with mid by lia. reflexivity.
  - rewrite (skipn_all2 (skipn lo s)) by lia. rewrite app_nil_r.
    rewrite (skipn_all2 (n := mid)) by (rewrite skipn_length in Hgt; lia). rewrite firstn_nil, app_nil_r.
    rewrite firstn_all2; [reflexivity|]. rewrite firstn_length. lia.
Qed.

Lemma substring_all s : substring s 0 (length s) = s.
Proof. unfold substring. rewrite Nat.sub_0_r. cbn [skipn]. apply firstn_all. Qed.

Lemma hex_number_to_lower s z : hex_number s z -> hex_number (to_lower s) z.
Proof.
  rewrite !hex_number_set_string. intros (Hne & Hx & H). repeat split.
  - intros E. apply map_eq_nil in E. contradiction.
  - apply lower_case_hex_is_hex, lower_case_hex_to_lower, Hx.
  - rewrite set_string16_lower; assumption.
Qed.

Lemma hex64_to_lower s z : length s = 64%nat -> Forall is_hex s -> set_string16 s = Some z -> hex64 z = to_lower s.
Proof.
  intros Hl Hx Hs. apply hex64_of_text.
  - rewrite to_lower_length. exact Hl.
  - apply lower_case_hex_to_lower, Hx.
  - apply hex_number_to_lower, hex_number_set_string. repeat split; try assumption.
    intros ->; discriminate.
Qed.

Lemma uncompressed_import_export E s net bs :
  length s = 130%nat -> substring s 0 2 = str "04" -> hex_text s bs ->
  exists p s', PublicFromHex E s net = Ret (Ok p) /\ PNetwork p = net /\
    Format p false = Ret s' /\ lower_case_hex s' /\ equal_up_to_case s' s.
Proof.
  intros Hl Hp Ht. apply hex_text_decode in Ht.
  assert (Hx : Forall is_hex s) by (apply (hex_decode_ok_iff s); eauto).
  assert (H1 : Forall is_hex (substring s 2 66)) by (apply substring_Forall, Hx).
  assert (H2 : Forall is_hex (substring s 66 130)) by (apply substring_Forall, Hx).
  pose proof (substring_length s 2 66 ltac:(lia)) as L1.
  pose proof (substring_length s 66 130 ltac:(lia)) as L2. 
  change (66 - 2)%nat with 64%nat in L1. change (130 - 66)%nat with 64%nat in L2.
  destruct (set_string16_hex (substring s 2 66) ltac:(intros E0; rewrite E0 in L1; discriminate) H1) as (x & Ex & _).
  destruct (set_string16_hex (substring s 66 130) ltac:(intros E0; rewrite E0 in L2; discriminate) H2) as (y & Ey & _).
  rewrite PublicFromHex_04 by (assumption || lia). rewrite Ex, Ey.
  do 2 eexists. split; [reflexivity|]. split; [reflexivity|]. rewrite Format_uncompressed. split; [reflexivity|].
  rewrite (hex64_to_lower _ _ L1 H1 Ex), (hex64_to_lower _ _ L2 H2 Ey).
  assert (Es : str "04" ++ to_lower (substring s 2 66) ++ to_lower (substring s 66 130) = to_lower s).
  { rewrite <- (substring_all s) at 3. rewrite Hl. rewrite (substring_split s 0 2 130) by lia.
    rewrite (substring_split s 2 66 130) by lia. rewrite !to_lower_app, Hp. reflexivity. }
  rewrite Es. split.
  - apply lower_case_hex_to_lower, Hx.
  - apply equal_up_to_case_lower, to_lower_idem.
Qed.

(** ** Address *)

Lemma Address_eq p c s bs n v :
  Format p c = Ret s -> hex_decode s = Ok bs -> PNetwork p = Some n -> hex_decode (PubKeyHashPrefix n) = Ok v ->
  Address p c = Ret (Ok (b58encode ((v ++ hash160 bs) ++ checksum4 (v ++ hash160 bs)))).
Proof.
  intros Hf Hd Hn Hv. unfold Address. rewrite Hf. cbn [bind]. rewrite Hd. cbn [bind_res]. rewrite Hn.
  fold (hash160 bs).
  assert (Hext : hex_decode (PubKeyHashPrefix n ++ hex_encode (hash160 bs)) = Ok (v ++ hash160 bs)).
  { rewrite (hex_decode_app _ _ _ Hv), hex_decode_encode. reflexivity. }
  rewrite Hext. cbn [bind_res]. rewrite checksum_slice. cbn [bind].
  rewrite (hex_decode_app _ _ _ Hext), hex_decode_encode. reflexivity.
Qed.

(** C34 *)
Lemma Address_base58check x y n v c : 0 <= x < 2 ^ 256 -> 0 <= y < 2 ^ 256 ->
  hex_text (PubKeyHashPrefix n) v ->
  exists a bs, Address (PublicKey (Some x) (Some y) (Some n)) c = Ret (Ok a) /\ sec1 c x y bs /\
    base58check (v ++ hash160 bs) a /\ CheckWIF a = Ret true.
Proof.
  intros Hx Hy Hv. destruct (Format_sec1 x y (Some n) c Hx Hy) as (s & bs & Hf & Hs & Ht & _).
  apply hex_text_decode in Hv, Ht.
  eexists. exists bs. split; [apply (Address_eq _ _ _ _ n v Hf Ht eq_refl Hv)|]. split; [assumption|].
  split; [apply base58check_encode; reflexivity|].
  apply CheckWIF_true_iff. eexists. apply base58check_encode. reflexivity.
Qed.

Lemma hash160_length bs : length (hash160 bs) = 20%nat.
Proof. apply ripemd160_length. Qed.

(** ** Shape of addresses (C35) *)

Lemma b58_main_length h : length h = 24%nat -> (exists b, In b (firstn 20 h) /\ b <> x00) ->
  (25 <= length (b58encode h) <= 33)%nat.
Proof.
  intros Hl (b & Hin & Hb). unfold b58encode, convert.
  destruct (strip_lead 0 (map b2z h)) as [j body] eqn:E. apply strip_lead_spec in E as [Hh Hbody].
  rewrite map_length, app_length, repeat_length.
  assert (Hok : digits_ok 256 (repeat 0 j ++ body)) by (rewrite <- Hh; apply digits_ok_bytes).
  apply digits_ok_app in Hok as [_ Hok].
  assert (Hlen : (j + length body = 24)%nat).
  { apply (f_equal (@length Z)) in Hh. rewrite map_length, app_length, repeat_length in Hh. lia. }
  assert (Hj : (j < 20)%nat).
  { destruct (Nat.lt_ge_cases j 20) as [|Hge]; [assumption|exfalso]. apply Hb.
    assert (In (b2z b) (map b2z (firstn 20 h))) as Hin' by (apply in_map, Hin).
    rewrite <- firstn_map, Hh in Hin'.
    rewrite firstn_app, repeat_length in Hin'. replace (20 - j)%nat with O in Hin' by lia.
    cbn [firstn] in Hin'. rewrite app_nil_r in Hin'.
    assert (In (b2z b) (repeat 0 j)) as Hr.
    { rewrite <- (firstn_skipn 20 (repeat 0 j)). apply in_or_app. left. exact Hin'. }
    apply repeat_spec in Hr. apply b2z_inj. exact Hr. }
  assert (Hne : body <> []) by (intros ->; cbn in Hlen; lia).
  pose proof (valb_pos 256 body ltac:(lia) Hok Hbody Hne) as H1.
  pose proof (valb_bound 256 body ltac:(lia) Hok) as H2.
  set (m := length body) in *.
  assert (Hcmp : 58 ^ Z.of_nat m <= 256 ^ (Z.of_nat m - 1) /\ 256 ^ Z.of_nat m <= 58 ^ Z.of_nat (m + 9)).
  { assert (forallb (fun m => (58 ^ Z.of_nat m <=? 256 ^ (Z.of_nat m - 1)) && (256 ^ Z.of_nat m <=? 58 ^ Z.of_nat (m + 9)))
             (seq 5 20) = true) as K by (vm_compute; reflexivity).
    rewrite forallb_forall in K. specialize (K m). rewrite in_seq in K. specialize (K ltac:(lia)). lia. }
  assert (Hn0 : 0 < valb 256 body).
  { pose proof (Z.pow_pos_nonneg 58 (Z.of_nat m) ltac:(lia) ltac:(lia)). lia. }
  pose proof (digits_length_le 58 (valb 256 body) (m + 9) ltac:(lia) ltac:(lia)) as Hup.
  assert (Hlo : (m + 1 <= length (digits 58 (valb 256 body)))%nat).
  { pose proof (proj1 (digits_length 58 (valb 256 body) _ ltac:(lia) Hn0) eq_refl) as (_ & _ & Hlt).
    destruct (Nat.le_gt_cases (m + 1) (length (digits 58 (valb 256 body)))) as [|Hgt]; [assumption|exfalso].
    assert (58 ^ Z.of_nat (length (digits 58 (valb 256 body))) <= 58 ^ Z.of_nat m)
      by (apply Z.pow_le_mono_r; lia). lia. }
  lia.
Qed.

Lemma all_zero_or (l : list byte) : l = repeat x00 (length l) \/ exists b, In b l /\ b <> x00.
Proof.
  induction l as [|c l [IH|(b & Hb & Hn)]]; [left; reflexivity| |right; exists b; split; [right; assumption|assumption]].
  destruct (byte_eqb c x00) eqn:E.
  - apply byte_eqb_eq in E. subst. left. cbn. f_equal. exact IH.
  - apply byte_eqb_neq in E. right. exists c. split; [left; reflexivity|assumption].
Qed.

Lemma base58check_main_shape h a : length h = 20%nat -> base58check (x00 :: h) a ->
  (26 <= length a <= 34)%nat /\ hd_error a = Some x31.
Proof.
  intros Hl Ha. apply base58check_encode in Ha. rewrite Ha. cbn [app]. rewrite b58encode_lead1.
  split; [|reflexivity]. cbn [length].
  destruct (all_zero_or h) as [Hz|Hnz].
  - rewrite Hl in Hz. rewrite Hz.
    assert (length (b58encode (repeat x00 20 ++ checksum4 (x00 :: repeat x00 20))) = 26%nat) as ->
      by (vm_compute; reflexivity). lia.
  - pose proof (b58_main_length (h ++ checksum4 (x00 :: h))) as K.
    rewrite app_length, checksum4_length, Hl in K. specialize (K eq_refl).
    rewrite firstn_app, Hl, firstn_all2 in K by lia. cbn [Nat.sub firstn] in K. rewrite app_nil_r in K.
    specialize (K Hnz). lia.
Qed.

Lemma base58check_test_shape h a : length h = 20%nat -> base58check (x6f :: h) a ->
  length a = 34%nat /\ (hd_error a = Some x6d \/ hd_error a = Some x6e).
Proof.
  intros Hl Ha. apply base58check_encode in Ha. rewrite Ha. cbn [app].
  set (r := h ++ checksum4 (x6f :: h)).
  pose proof (bytes_number_cons x6f r) as Hn.
  pose proof (bytes_number_bound r) as Hb.
  assert (Hr : length r = 24%nat) by (unfold r; rewrite app_length, checksum4_length, Hl; reflexivity).
  rewrite Hr in *. change (byte_number x6f) with 111 in Hn.
  assert (44 * 58 ^ Z.of_nat 33 <= 111 * 256 ^ Z.of_nat 24) by (apply Z.leb_le; vm_compute; reflexivity).
  assert (112 * 256 ^ Z.of_nat 24 <= 46 * 58 ^ Z.of_nat 33) by (apply Z.leb_le; vm_compute; reflexivity).
  destruct (Z.lt_ge_cases (bytes_number (x6f :: r)) (45 * 58 ^ Z.of_nat 33)) as [Hlt|Hge].
  - destruct (b58_shape (x6f :: r) x6f r 44 33 eq_refl ltac:(discriminate) ltac:(lia) ltac:(lia)) as (t & -> & Ht).
    cbn. split; [lia|]. left. reflexivity.
  - destruct (b58_shape (x6f :: r) x6f r 45 33 eq_refl ltac:(discriminate) ltac:(lia) ltac:(lia)) as (t & -> & Ht).
    cbn. split; [lia|]. right. reflexivity.
Qed.

Lemma pub_prefix_main : hex_text (PubKeyHashPrefix MainNetwork) [x00].
Proof. apply hex_text_decode. reflexivity. Qed.
Lemma pub_prefix_test : hex_text (PubKeyHashPrefix TestNetwork) [x6f].
Proof. apply hex_text_decode. reflexivity. Qed.

(** Any address the package returns is base58check of prefix and a 20-byte hash. *)
Lemma Address_success p c a n : PNetwork p = Some n -> Address p c = Ret (Ok a) ->
  exists v s bs, hex_text (PubKeyHashPrefix n) v /\ Format p c = Ret s /\ hex_text s bs /\
    base58check (v ++ hash160 bs) a.
Proof.
  intros Hn H. pose proof H as K. unfold Address in K.
  destruct (Format p c) as [s|] eqn:Ef; [|discriminate]. cbn [bind] in K.
  destruct (hex_decode s) as [bs|] eqn:Ed; [|discriminate]. cbn [bind_res] in K. rewrite Hn in K.
  fold (hash160 bs) in K.
  destruct (hex_decode (PubKeyHashPrefix n ++ hex_encode (hash160 bs))) as [e|] eqn:Ee; [|discriminate].
  assert (exists v, hex_decode (PubKeyHashPrefix n) = Ok v) as [v Hv].
  { apply hex_decode_ok_iff. pose proof (hex_suffix_is_hex _ _ _ Ee) as [Hx _]. split; [|assumption].
    assert (exists x, hex_decode (PubKeyHashPrefix n ++ hex_encode (hash160 bs)) = Ok x) as Hok by eauto.
    apply hex_decode_ok_iff in Hok as [Hev _].
    rewrite app_length, hex_encode_length, Nat.even_add_mul_2 in Hev. exact Hev. }
  rewrite (Address_eq _ _ _ _ _ _ Ef Ed Hn Hv) in H. injection H as <-.
  exists v, s, bs. rewrite !hex_text_decode. repeat split; try assumption.
  apply base58check_encode. reflexivity.
Qed.

Lemma Address_main_shape p c a : PNetwork p = Some MainNetwork -> Address p c = Ret (Ok a) ->
  (26 <= length a <= 34)%nat /\ hd_error a = Some x31.
Proof.
  intros Hn H. destruct (Address_success _ _ _ _ Hn H) as (v & s & bs & Hv & _ & _ & Ha).
  rewrite (hex_text_fun _ _ _ Hv pub_prefix_main) in Ha.
  apply (base58check_main_shape (hash160 bs)); [apply hash160_length|exact Ha].
Qed.
Lemma Address_test_shape p c a : PNetwork p = Some TestNetwork -> Address p c = Ret (Ok a) ->
  length a = 34%nat /\ (hd_error a = Some x6d \/ hd_error a = Some x6e).
Proof.
  intros Hn H. destruct (Address_success _ _ _ _ Hn H) as (v & s & bs & Hv & _ & _ & Ha).
  rewrite (hex_text_fun _ _ _ Hv pub_prefix_test) in Ha.
  apply (base58check_test_shape (hash160 bs)); [apply hash160_length|exact Ha].
Qed.

(** ** Failures of Address (C36) *)

Lemma Format_outcome p c :
  (c = true /\ PY p = None /\ Format p c = Panic PNil) \/
  ((c = false \/ PY p <> None) /\ exists s, Format p c = Ret s).
Proof.
  unfold Format. destruct c; cbn [negb].
  - destruct (PY p) as [y|].
    + right. split; [right; discriminate|eauto].
    + left. auto.
  - right. split; [left; reflexivity|eauto].
Qed.

Lemma Address_outcome p c s n : Format p c = Ret s -> PNetwork p = Some n ->
  ((exists a, Address p c = Ret (Ok a)) <->
   (exists bs, hex_text s bs) /\ (exists v, hex_text (PubKeyHashPrefix n) v)) /\
  (forall e, Address p c <> Panic e).
Proof.
  intros Hf Hn. split.
  - split.
    + intros [a H]. destruct (Address_success _ _ _ _ Hn H) as (v & s' & bs & Hv & Hs & Ht & _).
      rewrite Hf in Hs. injection Hs as <-. eauto.
    + intros [[bs Hbs] [v Hv]]. apply hex_text_decode in Hbs, Hv.
      eexists. apply (Address_eq _ _ _ _ _ _ Hf Hbs Hn Hv).
  - intros e. unfold Address. rewrite Hf. cbn [bind]. destruct (hex_decode s) as [bs|]; [|discriminate].
    cbn [bind_res]. rewrite Hn. destruct (hex_decode (PubKeyHashPrefix n ++ _)) eqn:Ed; [|discriminate].
    cbn [bind_res]. rewrite checksum_slice. cbn [bind].
    match goal with |- context [hex_decode ?t] => destruct (hex_decode t) end; discriminate.
Qed.

(** Which exports are hex text: by sign, nil and number of digits. *)
Definition hexlen (z : Z) : nat := Nat.max 64 (length (sprintf_x z)).

Lemma bigIntToHex_is_hex o : Forall is_hex (pad_left 64 (bigIntToHex o)) <-> exists z, o = Some z /\ 0 <= z.
Proof.
  split.
  - intros H. destruct o as [z|].
    + exists z. split; [reflexivity|]. destruct (Z.lt_ge_cases z 0) as [Hneg|]; [exfalso|lia].
      unfold pad_left in H. apply Forall_app in H as [_ H]. cbn [bigIntToHex] in H.
      unfold sprintf_x, sprint_base in H. destruct (Z.ltb_spec z 0); [|lia].
      cbn [app] in H. inversion H as [|? ? Hc _]; subst. apply is_hex_fromhex in Hc as [d Hd]. discriminate Hd.
    + exfalso. unfold pad_left in H. apply Forall_app in H as [_ H]. inversion H as [|? ? Hc _]; subst.
      apply is_hex_fromhex in Hc as [d Hd]. discriminate Hd.
  - intros (z & -> & Hz). apply pad_left_sprintf_x_hex, Hz.
Qed.

Lemma Format_hex_uncompressed ox oy net s : Format (PublicKey ox oy net) false = Ret s ->
  ((exists bs, hex_text s bs) <->
   exists x y, ox = Some x /\ oy = Some y /\ 0 <= x /\ 0 <= y /\ Nat.even (hexlen x + hexlen y) = true).
Proof.
  unfold Format. cbn [negb PX PY]. intros H.
  assert (s = str "04" ++ pad_left 64 (bigIntToHex ox) ++ pad_left 64 (bigIntToHex oy)) as -> by congruence. clear H.
  assert (forall t, (exists bs, hex_text t bs) <-> (exists bs, hex_decode t = Ok bs)) as K.
  { intros t. split; intros [bs H]; exists bs; apply hex_text_decode, H. }
  rewrite K, hex_decode_ok_iff, !Forall_app, !bigIntToHex_is_hex, !app_length, !pad_left_length.
  change (length (str "04")) with 2%nat.
  rewrite (Nat.even_add 2). change (Nat.even 2) with true. split.
  - intros (Hev & _ & (x & -> & Hx) & (y & -> & Hy)). exists x, y. repeat split; try assumption.
    cbn [bigIntToHex] in Hev. unfold hexlen. destruct (Nat.even _); [reflexivity|discriminate].
  - intros (x & y & -> & -> & Hx & Hy & Hev). cbn [bigIntToHex]. unfold hexlen in Hev. rewrite Hev.
    split; [reflexivity|]. split; [|split; eauto].
    repeat (constructor; [apply is_hex_fromhex; eexists; reflexivity|]). constructor.
Qed.

Lemma Format_hex_compressed ox oy net s : Format (PublicKey ox oy net) true = Ret s ->
  ((exists bs, hex_text s bs) <-> exists x, ox = Some x /\ 0 <= x /\ Nat.even (hexlen x) = true).
Proof.
  unfold Format. cbn [negb PX PY]. destruct oy as [y|]; [|discriminate]. intros H.
  assert (s = (if big_bit y 0 =? 0 then str "02" else str "03") ++ pad_left 64 (bigIntToHex ox)) as -> by congruence. clear H.
  assert (forall t, (exists bs, hex_text t bs) <-> (exists bs, hex_decode t = Ok bs)) as K.
  { intros t. split; intros [bs H]; exists bs; apply hex_text_decode, H. }
  rewrite K, hex_decode_ok_iff, !Forall_app, !bigIntToHex_is_hex, !app_length, !pad_left_length.
  assert (length (if big_bit y 0 =? 0 then str "02" else str "03") = 2%nat) as -> by (destruct (_ =? _); reflexivity).
  rewrite (Nat.even_add 2). change (Nat.even 2) with true. split.
  - intros (Hev & _ & (x & -> & Hx)). exists x. repeat split; try assumption.
    cbn [bigIntToHex] in Hev. unfold hexlen. destruct (Nat.even _); [reflexivity|discriminate].
  - intros (x & -> & Hx & Hev). cbn [bigIntToHex]. unfold hexlen in Hev. rewrite Hev.
    split; [reflexivity|]. split; [|eauto]. destruct (big_bit y 0 =? 0);
    repeat (constructor; [apply is_hex_fromhex; eexists; reflexivity|]); constructor.
Qed.

(** Two addresses on main and test never coincide. *)
Lemma Address_main_test_differ p q c d a b : PNetwork p = Some MainNetwork -> PNetwork q = Some TestNetwork ->
  Address p c = Ret (Ok a) -> Address q d = Ret (Ok b) -> a <> b.
Proof.
  intros Hp Hq Ha Hb <-. apply (Address_main_shape _ _ _ Hp) in Ha as [_ Ha].
  apply (Address_test_shape _ _ _ Hq) in Hb as [_ [Hb|Hb]]; congruence.
Qed.

(** Equal addresses mean equal hashes (collision of HASH160 or the same key). *)
Lemma Address_injective_hash p q c d a n :
  PNetwork p = Some n -> PNetwork q = Some n -> Address p c = Ret (Ok a) -> Address q d = Ret (Ok a) ->
  exists s t bs bt, Format p c = Ret s /\ Format q d = Ret t /\ hex_text s bs /\ hex_text t bt /\ hash160 bs = hash160 bt.
Proof.
  intros Hp Hq Ha Hb.
  destruct (Address_success _ _ _ _ Hp Ha) as (v & s & bs & Hv & Hs & Ht & B1).
  destruct (Address_success _ _ _ _ Hq Hb) as (v' & t & bt & Hv' & Hs' & Ht' & B2).
  rewrite (hex_text_fun _ _ _ Hv' Hv) in B2. pose proof (base58check_inj _ _ _ B1 B2) as K.
  apply app_inv_head in K. exists s, t, bs, bt. auto.
Qed.

(** ** Shapes used by the property file *)

Lemma padded_hex_length_iff z n : padded_hex_length z n <-> 0 <= z /\ n = hexlen z.
Proof.
  unfold padded_hex_length, hexlen. split.
  - intros (s & Hs & ->). apply shortest_hex_sprintf in Hs as [Hz ->]. auto.
  - intros [Hz ->]. exists (sprintf_x z). split; [apply shortest_hex_sprintf; auto|reflexivity].
Qed.

Lemma PublicFromHex_uncompressed_result E s net : substring s 0 2 = str "04" -> (130 <= length s)%nat ->
  exists p, PublicFromHex E s net = Ret (Ok p) /\ PNetwork p = net /\
    (forall x, PX p = Some x <-> signed_hex_number (substring s 2 66) x) /\
    (forall y, PY p = Some y <-> signed_hex_number (substring s 66 130) y).
Proof.
  intros Hp Hl. rewrite (PublicFromHex_04 E s net Hp Hl). eexists. split; [reflexivity|].
  cbn [PNetwork PX PY]. split; [reflexivity|]. split; intros z; apply set_string16_signed.
Qed.

(** The prefix decides: complete list of panics. *)
Lemma PublicFromHex_compressed_bad E s net : substring s 0 2 = str "02" \/ substring s 0 2 = str "03" ->
  (66 <= length s)%nat -> (~ exists x, signed_hex_number (substring s 2 66) x) ->
  PublicFromHex E s net = Panic PNil.
Proof.
  intros Hp Hl Hx. apply set_string16_none in Hx.
  destruct Hp as [Hp|Hp]; [rewrite (PublicFromHex_0203 E s net true Hp Hl)|rewrite (PublicFromHex_0203 E s net false Hp Hl)];
  rewrite Hx; reflexivity.
Qed.

Lemma PublicFromHex_panic_iff E s net :
  (exists e, PublicFromHex E s net = Panic e) <->
  (length s < 2)%nat \/
  (substring s 0 2 = str "04" /\ (length s < 130)%nat) \/
  ((substring s 0 2 = str "02" \/ substring s 0 2 = str "03") /\
   ((length s < 66)%nat \/ ~ exists x, signed_hex_number (substring s 2 66) x)).
Proof.
  split.
  - intros [e H]. destruct (Nat.lt_ge_cases (length s) 2) as [|Hl]; [auto|].
    destruct (str_eqb (substring s 0 2) (str "04")) eqn:E4.
    { apply str_eqb_eq in E4. destruct (Nat.lt_ge_cases (length s) 130) as [|Hl']; [auto|].
      rewrite (PublicFromHex_04 E s net E4 Hl') in H. discriminate. }
    apply str_eqb_neq in E4.
    assert (Hc : forall b : bool, substring s 0 2 = str (if b then "02" else "03") ->
      (length s < 66)%nat \/ ~ exists x, signed_hex_number (substring s 2 66) x).
    { intros b Hb. destruct (Nat.lt_ge_cases (length s) 66) as [|Hl']; [auto|]. right.
      rewrite (PublicFromHex_0203 E s net b Hb Hl') in H. apply set_string16_none.
      destruct (set_string16 _) as [x|]; [|reflexivity]. unfold import_x in H.
      destruct (lib_GetY E x) as [y []]; discriminate. }
    destruct (str_eqb (substring s 0 2) (str "02")) eqn:E2.
    { apply str_eqb_eq in E2. right; right. split; [auto|]. apply (Hc true E2). }
    apply str_eqb_neq in E2. destruct (str_eqb (substring s 0 2) (str "03")) eqn:E3.
    { apply str_eqb_eq in E3. right; right. split; [auto|]. apply (Hc false E3). }
    apply str_eqb_neq in E3. rewrite (PublicFromHex_unsupported E s net Hl E4 E3 E2) in H. discriminate.
  - intros [Hl|[[Hp Hl]|[Hp [Hl|Hx]]]].
    + rewrite (PublicFromHex_short E s net Hl). eauto.
    + destruct (Nat.lt_ge_cases (length s) 2); [rewrite PublicFromHex_short by assumption; eauto|].
      rewrite PublicFromHex_04_short by (assumption || lia). eauto.
    + destruct (Nat.lt_ge_cases (length s) 2); [rewrite PublicFromHex_short by assumption; eauto|].
      rewrite PublicFromHex_0203_short by (assumption || lia). eauto.
    + destruct (Nat.lt_ge_cases (length s) 66) as [Hl|Hl].
      * destruct (Nat.lt_ge_cases (length s) 2); [rewrite PublicFromHex_short by assumption; eauto|].
        rewrite PublicFromHex_0203_short by (assumption || lia). eauto.
      * rewrite (PublicFromHex_compressed_bad E s net Hp Hl Hx). eauto.
Qed.

(** C36 in one statement per form. *)
Lemma Address_uncompressed_iff ox oy n :
  (exists a, Address (PublicKey ox oy (Some n)) false = Ret (Ok a)) <->
  (exists v, hex_text (PubKeyHashPrefix n) v) /\
  exists x y dx dy, ox = Some x /\ oy = Some y /\ padded_hex_length x dx /\ padded_hex_length y dy /\
    Nat.even (dx + dy) = true.
Proof.
  assert (Hf : exists s, Format (PublicKey ox oy (Some n)) false = Ret s) by (eexists; reflexivity).
  destruct Hf as [s Hf]. rewrite (proj1 (Address_outcome _ _ _ n Hf eq_refl)).
  rewrite (Format_hex_uncompressed _ _ _ _ Hf). split.
  - intros [(x & y & -> & -> & Hx & Hy & Hev) Hv]. split; [exact Hv|].
    exists x, y, (hexlen x), (hexlen y). rewrite !padded_hex_length_iff. auto 8.
  - intros [Hv (x & y & dx & dy & -> & -> & Hx & Hy & Hev)]. split; [|exact Hv].
    apply padded_hex_length_iff in Hx as [Hx ->], Hy as [Hy ->]. exists x, y. auto 8.
Qed.

Lemma Address_compressed_iff ox oy n :
  (exists a, Address (PublicKey ox oy (Some n)) true = Ret (Ok a)) <->
  (exists v, hex_text (PubKeyHashPrefix n) v) /\
  exists x y dx, ox = Some x /\ oy = Some y /\ padded_hex_length x dx /\ Nat.even dx = true.
Proof.
  destruct oy as [y|].
  - assert (Hf : exists s, Format (PublicKey ox (Some y) (Some n)) true = Ret s) by (eexists; reflexivity).
    destruct Hf as [s Hf]. rewrite (proj1 (Address_outcome _ _ _ n Hf eq_refl)).
    rewrite (Format_hex_compressed _ _ _ _ Hf). split.
    + intros [(x & -> & Hx & Hev) Hv]. split; [exact Hv|].
      exists x, y, (hexlen x). rewrite !padded_hex_length_iff. auto 8.
    + intros [Hv (x & y' & dx & -> & _ & Hx & Hev)]. split; [|exact Hv].
      apply padded_hex_length_iff in Hx as [Hx ->]. exists x. auto 8.
  - split.
    + intros [a H]. discriminate H.
    + intros [_ (x & y & dx & _ & H & _)]. discriminate H.
Qed.

Lemma Address_panic_iff p c :
  (exists e, Address p c = Panic e) <->
  (c = true /\ PY p = None) \/
  (PNetwork p = None /\ exists s bs, Format p c = Ret s /\ hex_text s bs).
Proof.
  split.
  - intros [e H]. destruct (Format_outcome p c) as [(Hc & Hy & _)|(_ & s & Hs)]; [auto|]. right.
    destruct (PNetwork p) as [n|] eqn:En.
    + exfalso. apply (proj2 (Address_outcome p c s n Hs En) e H).
    + split; [reflexivity|]. unfold Address in H. rewrite Hs in H. cbn [bind] in H.
      destruct (hex_decode s) as [bs|] eqn:Ed; [|discriminate]. exists s, bs.
      split; [exact Hs|]. apply hex_text_decode, Ed.
  - intros [[-> Hy]|[Hn (s & bs & Hs & Ht)]].
    + exists PNil. unfold Address, Format. rewrite Hy. reflexivity.
    + exists PNil. apply hex_text_decode in Ht. unfold Address. rewrite Hs. cbn [bind]. rewrite Ht. cbn [bind_res].
      rewrite Hn. reflexivity.
Qed.
