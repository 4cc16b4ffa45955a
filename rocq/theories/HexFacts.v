(** * Facts about hex encoding, SetString and Sprintf *)

From Verif Require Import GoBase GoNum NumFacts.
From Coq Require Import ZifyBool ZifyNat ZifyN.
Local Open Scope Z_scope.

(** Finite sweeps over integers, lifted to a universally quantified statement. *)
Lemma Zsweep (n : nat) (P : Z -> bool) :
  forallb (fun k => P (Z.of_nat k)) (seq 0 n) = true ->
  forall z, 0 <= z < Z.of_nat n -> P z = true.
Proof.
  intros H z Hz. rewrite forallb_forall in H.
  rewrite <- (Z2Nat.id z) by lia. apply H. apply in_seq. lia.
Qed.

Definition opt_eqb (a b : option Z) : bool :=
  match a, b with Some x, Some y => x =? y | None, None => true | _, _ => false end.
Lemma opt_eqb_eq a b : opt_eqb a b = true -> a = b.
Proof. destruct a, b; cbn; intros; try discriminate; [f_equal; lia|reflexivity]. Qed.

(** ** Hex digits *)

Lemma fromhex_hexchar d : 0 <= d < 16 -> fromhex (hexchar d) = Some d.
Proof.
  intros H. apply opt_eqb_eq. apply (Zsweep 16 (fun d => opt_eqb (fromhex (hexchar d)) (Some d))); [reflexivity|lia].
Qed.

Lemma fromhex_range c d : fromhex c = Some d -> 0 <= d < 16.
Proof.
  unfold fromhex. pose proof (b2z_range c).
  destruct ((48 <=? b2z c) && (b2z c <=? 57)) eqn:E1; [intros [= <-]; lia|].
  destruct ((97 <=? b2z c) && (b2z c <=? 102)) eqn:E2; [intros [= <-]; lia|].
  destruct ((65 <=? b2z c) && (b2z c <=? 70)) eqn:E3; [intros [= <-]; lia|discriminate].
Qed.

Lemma hexchar_fromhex c d : fromhex c = Some d -> hexchar d = lower_byte c.
Proof.
  intros H.
  assert (match fromhex c with Some d => byte_eqb (hexchar d) (lower_byte c) | None => true end = true) as K
    by (destruct c; reflexivity).
  rewrite H in K. apply byte_eqb_eq, K.
Qed.

Lemma fromhex_lower c : fromhex (lower_byte c) = fromhex c \/ fromhex c = None.
Proof. destruct c; vm_compute; auto. Qed.

Lemma fromhex_lower_some c d : fromhex c = Some d -> fromhex (lower_byte c) = Some d.
Proof. destruct (fromhex_lower c) as [H|H]; congruence. Qed.

Lemma lower_hexchar d : 0 <= d < 16 -> lower_byte (hexchar d) = hexchar d.
Proof.
  intros H. symmetry. apply hexchar_fromhex, fromhex_hexchar, H.
Qed.

Lemma lower_lower c : lower_byte (lower_byte c) = lower_byte c.
Proof. destruct c; reflexivity. Qed.
Lemma to_lower_idem s : to_lower (to_lower s) = to_lower s.
Proof. unfold to_lower. rewrite map_map. apply map_ext, lower_lower. Qed.
Lemma to_lower_length s : length (to_lower s) = length s.
Proof. apply map_length. Qed.
Lemma to_lower_app a b : to_lower (a ++ b) = to_lower a ++ to_lower b.
Proof. apply map_app. Qed.

Lemma hexchar_inj a b : 0 <= a < 16 -> 0 <= b < 16 -> hexchar a = hexchar b -> a = b.
Proof.
  intros Ha Hb H. apply fromhex_hexchar in Ha, Hb. rewrite H in Ha. congruence.
Qed.
Lemma map_hexchar_inj x y : digits_ok 16 x -> digits_ok 16 y -> map hexchar x = map hexchar y -> x = y.
Proof.
  revert y; induction x as [|a x IH]; intros [|b y] Hx Hy H; cbn in H; try discriminate; [reflexivity|].
  injection H as H1 H2. inversion Hx; inversion Hy; subst. f_equal; [apply hexchar_inj; auto|auto].
Qed.

(** ** scan *)

Lemma scan_app from a b :
  scan from (a ++ b) =
  match scan from a, scan from b with Some x, Some y => Some (x ++ y) | _, _ => None end.
Proof.
  induction a as [|c a IH]; cbn [scan app].
  - destruct (scan from b); reflexivity.
  - rewrite IH. destruct (from c); [|reflexivity].
    destruct (scan from a), (scan from b); reflexivity.
Qed.

Lemma scan_length from s ds : scan from s = Some ds -> length ds = length s.
Proof.
  revert ds; induction s as [|c s IH]; cbn [scan]; intros ds H.
  - injection H as <-. reflexivity.
  - destruct (from c), (scan from s); try discriminate. injection H as <-.
    cbn. f_equal. apply IH. reflexivity.
Qed.

Lemma scan_map_hexchar ds : digits_ok 16 ds -> scan fromhex (map hexchar ds) = Some ds.
Proof.
  induction 1 as [|d ds Hd _ IH]; [reflexivity|]. cbn [map scan].
  rewrite fromhex_hexchar, IH by assumption. reflexivity.
Qed.

Lemma scan_hex_ok s ds : scan fromhex s = Some ds -> digits_ok 16 ds.
Proof.
  revert ds; induction s as [|c s IH]; cbn [scan]; intros ds H.
  - injection H as <-. constructor.
  - destruct (fromhex c) eqn:E; [|discriminate]. destruct (scan fromhex s); [|discriminate].
    injection H as <-. constructor; [eapply fromhex_range, E|]. apply IH. reflexivity.
Qed.

Lemma scan_hex_lower s ds : scan fromhex s = Some ds -> map hexchar ds = to_lower s.
Proof.
  revert ds; induction s as [|c s IH]; cbn [scan]; intros ds H.
  - injection H as <-. reflexivity.
  - destruct (fromhex c) eqn:E; [|discriminate]. destruct (scan fromhex s); [|discriminate].
    injection H as <-. cbn. rewrite (hexchar_fromhex _ _ E), (IH _ eq_refl). reflexivity.
Qed.

Lemma scan_hex_to_lower s ds : scan fromhex s = Some ds -> scan fromhex (to_lower s) = Some ds.
Proof.
  intros H. rewrite <- (scan_hex_lower _ _ H). apply scan_map_hexchar, (scan_hex_ok _ _ H).
Qed.

(** Lower-casing never turns a non-hex character into a hex digit of a string we
    accept: the converse on strings made of ASCII hex digits of either case. *)
Lemma fromhex_of_lower c : fromhex (lower_byte c) = fromhex c.
Proof. destruct c; reflexivity. Qed.
Lemma scan_of_lower s : scan fromhex (to_lower s) = scan fromhex s.
Proof.
  induction s as [|c s IH]; [reflexivity|]. cbn [to_lower map scan]. rewrite fromhex_of_lower.
  fold (to_lower s). rewrite IH. reflexivity.
Qed.

(** ** hex_decode / hex_encode *)

(** The byte value of a pair of hex digits. *)
Fixpoint pairs (ds : list Z) : list byte :=
  match ds with
  | h :: l :: ds' => z2b (h * 16 + l) :: pairs ds'
  | _ => []
  end.

Lemma list_pair_ind {A} (P : list A -> Prop) :
  P [] -> (forall x, P [x]) -> (forall x y l, P l -> P (x :: y :: l)) -> forall l, P l.
Proof.
  intros H0 H1 H2.
  assert (forall l, P l /\ forall x, P (x :: l)) as H.
  { induction l as [|y l [IH1 IH2]]; split; auto. }
  intros l. apply H.
Qed.

Lemma hex_decode_scan s bs :
  hex_decode s = Ok bs <->
  exists ds, scan fromhex s = Some ds /\ Nat.even (length s) = true /\ bs = pairs ds.
Proof.
  revert bs; induction s as [|c|c1 c2 s IH] using list_pair_ind; intros bs; cbn [hex_decode scan].
  - split.
    + intros [= <-]. exists []. auto.
    + intros (ds & [= <-] & _ & ->). reflexivity.
  - split; [destruct (fromhex c); discriminate|]. intros (ds & _ & H & _). discriminate H.
  - split.
    + destruct (fromhex c1) as [h|]; [|discriminate].
      destruct (fromhex c2) as [l|]; [|discriminate].
      destruct (hex_decode s) as [r|] eqn:E; [|discriminate].
      intros [= <-]. destruct (proj1 (IH r) eq_refl) as (ds & Hs & Hev & ->).
      rewrite Hs. exists (h :: l :: ds). repeat split. exact Hev.
    + intros (ds & Hs & Hev & ->).
      destruct (fromhex c1) as [h|]; [|discriminate].
      destruct (fromhex c2) as [l|]; [|discriminate].
      destruct (scan fromhex s) as [ds'|] eqn:E; [|discriminate].
      injection Hs as <-.
      rewrite (proj2 (IH (pairs ds'))); [reflexivity|].
      exists ds'. repeat split. exact Hev.
Qed.

Lemma pairs_length ds : (2 * length (pairs ds) <= length ds <= 2 * length (pairs ds) + 1)%nat.
Proof. induction ds as [|x|x y ds IH] using list_pair_ind; cbn [pairs length]; lia. Qed.

Lemma hex_decode_length s bs : hex_decode s = Ok bs -> length s = (2 * length bs)%nat.
Proof.
  intros H. apply hex_decode_scan in H as (ds & Hs & Hev & ->).
  rewrite <- (scan_length _ _ _ Hs) in *. pose proof (pairs_length ds).
  apply Nat.even_spec in Hev as [m Hm]. lia.
Qed.

Lemma hex_encode_length bs : length (hex_encode bs) = (2 * length bs)%nat.
Proof. induction bs as [|b bs IH]; [reflexivity|]. unfold hex_encode in *. cbn [flat_map app length]. lia. Qed.

Lemma hex_encode_cons b bs :
  hex_encode (b :: bs) = hexchar (b2z b / 16) :: hexchar (b2z b mod 16) :: hex_encode bs.
Proof. reflexivity. Qed.

Lemma hex_encode_app a b : hex_encode (a ++ b) = hex_encode a ++ hex_encode b.
Proof. apply flat_map_app. Qed.

Lemma nibble_hi b : 0 <= b2z b / 16 < 16.
Proof. pose proof (b2z_range b). split; [apply Z.div_pos; lia|apply Z.div_lt_upper_bound; lia]. Qed.
Lemma nibble_lo b : 0 <= b2z b mod 16 < 16.
Proof. apply Z.mod_pos_bound. lia. Qed.
Lemma nibbles_byte b : z2b (b2z b / 16 * 16 + b2z b mod 16) = b.
Proof.
  replace (b2z b / 16 * 16 + b2z b mod 16) with (b2z b).
  - apply z2b_b2z.
  - pose proof (Z.div_mod (b2z b) 16 ltac:(lia)). lia.
Qed.

Lemma hex_decode_encode bs : hex_decode (hex_encode bs) = Ok bs.
Proof.
  induction bs as [|b bs IH]; [reflexivity|].
  rewrite hex_encode_cons. cbn [hex_decode].
  rewrite !fromhex_hexchar, IH by (apply nibble_hi || apply nibble_lo).
  rewrite nibbles_byte. reflexivity.
Qed.

Lemma hex_encode_inj a b : hex_encode a = hex_encode b -> a = b.
Proof.
  intros H. pose proof (hex_decode_encode a) as Ha. rewrite H, hex_decode_encode in Ha. congruence.
Qed.

Lemma hex_encode_decode s bs : hex_decode s = Ok bs -> hex_encode bs = to_lower s.
Proof.
  revert bs; induction s as [|c|c1 c2 s IH] using list_pair_ind; intros bs; cbn [hex_decode].
  - intros [= <-]. reflexivity.
  - destruct (fromhex c); discriminate.
  - destruct (fromhex c1) as [h|] eqn:E1; [|discriminate].
    destruct (fromhex c2) as [l|] eqn:E2; [|discriminate].
    destruct (hex_decode s) as [r|] eqn:E; [|discriminate].
    intros [= <-]. rewrite hex_encode_cons, (IH _ eq_refl).
    pose proof (fromhex_range _ _ E1). pose proof (fromhex_range _ _ E2).
    rewrite b2z_z2b by lia.
    replace ((h * 16 + l) / 16) with h by (apply Z.div_unique with l; lia).
    replace ((h * 16 + l) mod 16) with l by (apply Z.mod_unique with h; lia).
    rewrite (hexchar_fromhex _ _ E1), (hexchar_fromhex _ _ E2). reflexivity.
Qed.

Lemma hex_decode_app a b x : hex_decode a = Ok x ->
  hex_decode (a ++ b) = match hex_decode b with Ok y => Ok (x ++ y) | Err e => Err e end.
Proof.
  revert x; induction a as [|c|c1 c2 a IH] using list_pair_ind; intros x; cbn [hex_decode app].
  - intros [= <-]. destruct (hex_decode b); reflexivity.
  - destruct (fromhex c); discriminate.
  - destruct (fromhex c1) as [h|]; [|discriminate].
    destruct (fromhex c2) as [l|]; [|discriminate].
    destruct (hex_decode a) as [r|] eqn:E; [|discriminate].
    intros [= <-]. rewrite (IH _ eq_refl). destruct (hex_decode b); reflexivity.
Qed.

Lemma hex_decode_lower s bs : hex_decode s = Ok bs -> hex_decode (to_lower s) = Ok bs.
Proof. intros H. rewrite <- (hex_encode_decode _ _ H). apply hex_decode_encode. Qed.

Lemma hex_encode_lower bs : to_lower (hex_encode bs) = hex_encode bs.
Proof.
  pose proof (hex_decode_encode bs) as H. apply hex_encode_decode in H. congruence.
Qed.

(** [is_hex c]: an ASCII hex digit of either case; the independent description of
    what hex.DecodeString accepts. *)
Definition is_hex (c : byte) : Prop :=
  48 <= b2z c <= 57 \/ 97 <= b2z c <= 102 \/ 65 <= b2z c <= 70.

Lemma is_hex_fromhex c : is_hex c <-> exists d, fromhex c = Some d.
Proof.
  unfold is_hex, fromhex.
  destruct ((48 <=? b2z c) && (b2z c <=? 57)) eqn:E1; [split; [eauto|lia]|].
  destruct ((97 <=? b2z c) && (b2z c <=? 102)) eqn:E2; [split; [eauto|lia]|].
  destruct ((65 <=? b2z c) && (b2z c <=? 70)) eqn:E3; [split; [eauto|lia]|].
  split; [lia|intros [d Hd]; discriminate].
Qed.

Lemma scan_hex_iff s : Forall is_hex s <-> exists ds, scan fromhex s = Some ds.
Proof.
  induction s as [|c s IH]; cbn [scan].
  - split; [eauto|constructor].
  - split.
    + intros H. inversion H as [|? ? Hc Hs]; subst. apply is_hex_fromhex in Hc as [d Hd].
      apply IH in Hs as [ds Hds]. rewrite Hd, Hds. eauto.
    + intros [ds H]. destruct (fromhex c) eqn:E; [|discriminate].
      destruct (scan fromhex s); [|discriminate]. constructor.
      * apply is_hex_fromhex. eauto.
      * apply IH. eauto.
Qed.

Lemma hex_decode_ok_iff s :
  (exists bs, hex_decode s = Ok bs) <-> Nat.even (length s) = true /\ Forall is_hex s.
Proof.
  split.
  - intros [bs H]. apply hex_decode_scan in H as (ds & Hs & Hev & _). split; [assumption|].
    apply scan_hex_iff. eauto.
  - intros [Hev H]. apply scan_hex_iff in H as [ds Hs]. exists (pairs ds).
    apply hex_decode_scan. eauto.
Qed.

Lemma Forall_is_hex_map_hexchar ds : digits_ok 16 ds -> Forall is_hex (map hexchar ds).
Proof. intros H. apply scan_hex_iff. exists ds. apply scan_map_hexchar, H. Qed.
Lemma Forall_is_hex_encode bs : Forall is_hex (hex_encode bs).
Proof. apply (hex_decode_ok_iff (hex_encode bs)). exists bs. apply hex_decode_encode. Qed.

(** ** SetString *)

Lemma set_string_scan base from s ds :
  from x2d = None -> from x2b = None -> s <> [] -> scan from s = Some ds ->
  set_string base from s = Some (valb base ds).
Proof.
  intros Hm Hp Hne Hs. destruct s as [|c s]; [congruence|].
  unfold set_string.
  assert (Hd : from c <> None) by (cbn [scan] in Hs; destruct (from c); [discriminate|discriminate]).
  destruct (byte_eqb c x2d) eqn:E1; [apply byte_eqb_eq in E1; congruence|].
  destruct (byte_eqb c x2b) eqn:E2; [apply byte_eqb_eq in E2; congruence|].
  rewrite Hs. f_equal. ring.
Qed.

Lemma set_string16_scan s ds : s <> [] -> scan fromhex s = Some ds ->
  set_string16 s = Some (valb 16 ds).
Proof. apply set_string_scan; reflexivity. Qed.
Lemma set_string2_scan s ds : s <> [] -> scan frombin s = Some ds ->
  set_string2 s = Some (valb 2 ds).
Proof. apply set_string_scan; reflexivity. Qed.
Lemma set_string16_nil : set_string16 [] = None.
Proof. reflexivity. Qed.

Lemma set_string16_hex s : s <> [] -> Forall is_hex s -> exists n, set_string16 s = Some n /\ 0 <= n.
Proof.
  intros Hne H. apply scan_hex_iff in H as [ds Hs]. exists (valb 16 ds).
  split; [apply set_string16_scan; assumption|]. apply valb_nonneg; [lia|]. apply (scan_hex_ok _ _ Hs).
Qed.

Lemma set_string16_lower s : Forall is_hex s -> set_string16 (to_lower s) = set_string16 s.
Proof.
  intros H. destruct s as [|c s]; [reflexivity|].
  apply scan_hex_iff in H as [ds Hs].
  rewrite (set_string16_scan (c :: s) ds) by (assumption || discriminate).
  apply set_string16_scan; [discriminate|]. rewrite scan_of_lower. exact Hs.
Qed.

Lemma valb_pairs ds : digits_ok 16 ds -> Nat.even (length ds) = true ->
  valb 256 (map b2z (pairs ds)) = valb 16 ds.
Proof.
  induction ds as [|x|x y ds IH] using list_pair_ind; intros Hok Hev.
  - reflexivity.
  - discriminate.
  - cbn [pairs map]. inversion Hok as [|? ? Hx Hok']; subst. inversion Hok' as [|? ? Hy Hds]; subst.
    rewrite !valb_cons, IH by assumption. rewrite b2z_z2b by lia.
    rewrite map_length. cbn [length].
    assert (length ds = (2 * length (pairs ds))%nat) as Hl.
    { pose proof (pairs_length ds). apply Nat.even_spec in Hev as [m Hm]. cbn [length] in Hm. lia. }
    rewrite Hl. change 256 with (16 ^ 2).
    rewrite <- Z.pow_mul_r by lia.
    rewrite Nat2Z.inj_succ, Z.pow_succ_r by lia.
    replace (2 * Z.of_nat (length (pairs ds))) with (Z.of_nat (2 * length (pairs ds))) by lia.
    ring.
Qed.

Lemma set_string16_decode s bs : s <> [] -> hex_decode s = Ok bs ->
  set_string16 s = Some (set_bytes bs).
Proof.
  intros Hne H. apply hex_decode_scan in H as (ds & Hs & Hev & ->).
  rewrite (set_string16_scan _ _ Hne Hs). unfold set_bytes.
  rewrite valb_pairs; [reflexivity|apply (scan_hex_ok _ _ Hs)|].
  rewrite (scan_length _ _ _ Hs). exact Hev.
Qed.

Lemma set_bytes_bound bs : 0 <= set_bytes bs < 256 ^ Z.of_nat (length bs).
Proof.
  unfold set_bytes. pose proof (valb_bound 256 (map b2z bs) ltac:(lia) (digits_ok_bytes bs)) as H.
  rewrite map_length in H. exact H.
Qed.

(** ** Sprintf *)

Lemma unsigned_digits_ok b n : 2 <= b -> 0 <= n ->
  digits_ok b (unsigned_digits b n) /\ valb b (unsigned_digits b n) = n /\ unsigned_digits b n <> [].
Proof.
  intros Hb Hn. unfold unsigned_digits. destruct (Z.eqb_spec n 0) as [->|Hne].
  - repeat split; [repeat constructor; lia|discriminate].
  - repeat split.
    + apply digits_digits_ok; lia.
    + apply valb_digits; lia.
    + apply digits_nonempty; lia.
Qed.

Lemma sprint_base_nonneg b n : 0 <= n -> sprint_base b n = map hexchar (unsigned_digits b n).
Proof.
  intros Hn. unfold sprint_base. destruct (Z.ltb_spec n 0); [lia|].
  rewrite Z.abs_eq by assumption. reflexivity.
Qed.

Lemma sprintf_x_scan n : 0 <= n -> scan fromhex (sprintf_x n) = Some (unsigned_digits 16 n).
Proof.
  intros Hn. unfold sprintf_x. rewrite sprint_base_nonneg by assumption.
  apply scan_map_hexchar. apply unsigned_digits_ok; lia.
Qed.

Lemma sprintf_x_nonempty n : sprintf_x n <> [].
Proof.
  unfold sprintf_x, sprint_base. intros H. apply app_eq_nil in H as [_ H].
  apply map_eq_nil in H. revert H. apply (unsigned_digits_ok 16 (Z.abs n)); lia.
Qed.

Lemma set_string16_sprintf_x n : 0 <= n -> set_string16 (sprintf_x n) = Some n.
Proof.
  intros Hn. rewrite (set_string16_scan _ _ (sprintf_x_nonempty n) (sprintf_x_scan n Hn)).
  f_equal. apply unsigned_digits_ok; lia.
Qed.

Lemma sprintf_x_is_hex n : 0 <= n -> Forall is_hex (sprintf_x n).
Proof. intros Hn. apply scan_hex_iff. eexists. apply sprintf_x_scan, Hn. Qed.

Lemma sprintf_x_lower n : 0 <= n -> to_lower (sprintf_x n) = sprintf_x n.
Proof.
  intros Hn. rewrite <- (scan_hex_lower _ _ (sprintf_x_scan n Hn)).
  unfold sprintf_x. rewrite sprint_base_nonneg by assumption. reflexivity.
Qed.

Lemma sprintf_x_inj m n : 0 <= m -> 0 <= n -> sprintf_x m = sprintf_x n -> m = n.
Proof.
  intros Hm Hn H. apply set_string16_sprintf_x in Hm, Hn. rewrite H in Hm. congruence.
Qed.

(** Number of hex digits of a positive number. *)
Lemma sprintf_x_length n k : 0 < n ->
  (length (sprintf_x n) = k <-> (0 < k)%nat /\ 16 ^ (Z.of_nat k - 1) <= n < 16 ^ Z.of_nat k).
Proof.
  intros Hn. unfold sprintf_x. rewrite sprint_base_nonneg by lia. rewrite map_length.
  unfold unsigned_digits. destruct (Z.eqb_spec n 0); [lia|]. apply digits_length; lia.
Qed.
Lemma sprintf_x_0 : sprintf_x 0 = [char0].
Proof. reflexivity. Qed.
Lemma sprintf_x_length_le n k : 0 <= n < 16 ^ Z.of_nat k -> (0 < k)%nat -> (length (sprintf_x n) <= k)%nat.
Proof.
  intros Hn Hk. unfold sprintf_x. rewrite sprint_base_nonneg by lia. rewrite map_length.
  unfold unsigned_digits. destruct (Z.eqb_spec n 0); [cbn; lia|]. apply digits_length_le; lia.
Qed.

(** Zero padding. *)
Lemma pad_left_length k s : length (pad_left k s) = Nat.max k (length s).
Proof. unfold pad_left. rewrite app_length, repeat_length. lia. Qed.

Lemma pad_left_scan from k s ds : from char0 = Some 0 -> scan from s = Some ds ->
  scan from (pad_left k s) = Some (repeat 0 (k - length s) ++ ds).
Proof.
  intros H0 Hs. unfold pad_left. rewrite scan_app, Hs.
  replace (scan from (repeat char0 (k - length s))) with (Some (repeat 0 (k - length s))); [reflexivity|].
  induction (k - length s)%nat as [|m IH]; [reflexivity|]. cbn [repeat scan]. rewrite H0, <- IH. reflexivity.
Qed.

Lemma pad_left_ge k s : (k <= length s)%nat -> pad_left k s = s.
Proof. intros H. unfold pad_left. replace (k - length s)%nat with O by lia. reflexivity. Qed.

Lemma pad_left_sprintf_x_value k n : 0 <= n -> set_string16 (pad_left k (sprintf_x n)) = Some n.
Proof.
  intros Hn. erewrite set_string16_scan; [|  |apply pad_left_scan; [reflexivity|apply sprintf_x_scan, Hn]].
  - rewrite valb_lead0. f_equal. apply unsigned_digits_ok; lia.
  - unfold pad_left. intros H. apply app_eq_nil in H as [_ H]. revert H. apply sprintf_x_nonempty.
Qed.

Lemma pad_left_sprintf_x_hex k n : 0 <= n -> Forall is_hex (pad_left k (sprintf_x n)).
Proof. intros Hn. apply scan_hex_iff. eexists. apply pad_left_scan; [reflexivity|apply sprintf_x_scan, Hn]. Qed.

(** ** Slices *)

Lemma slice_ok {A} (s : list A) lo hi : 0 <= lo <= hi -> hi <= len s ->
  slice s lo hi = Ret (firstn (Z.to_nat (hi - lo)) (skipn (Z.to_nat lo) s)).
Proof.
  intros H1 H2. unfold slice, len in *.
  destruct ((0 <=? lo) && (lo <=? hi) && (hi <=? Z.of_nat (length s))) eqn:E; [reflexivity|lia].
Qed.
Lemma slice_bad {A} (s : list A) lo hi : ~ (0 <= lo <= hi /\ hi <= len s) -> slice s lo hi = Panic PSlice.
Proof.
  intros H. unfold slice, len in *.
  destruct ((0 <=? lo) && (lo <=? hi) && (hi <=? Z.of_nat (length s))) eqn:E; [lia|reflexivity].
Qed.
Lemma slice_prefix {A} (a b : list A) : slice (a ++ b) 0 (len a) = Ret a.
Proof.
  rewrite slice_ok; unfold len; rewrite ?app_length; try lia.
  f_equal. rewrite Z.sub_0_r, Nat2Z.id. cbn [Z.to_nat skipn]. rewrite firstn_app, Nat.sub_diag, firstn_all.
  cbn. apply app_nil_r.
Qed.
Lemma slice_suffix {A} (a b : list A) : slice (a ++ b) (len a) (len (a ++ b)) = Ret b.
Proof.
  rewrite slice_ok; unfold len; rewrite ?app_length; try lia.
  f_equal. rewrite Nat2Z.id, skipn_app, Nat.sub_diag, skipn_all. cbn [app skipn].
  replace (Z.to_nat (Z.of_nat (length a + length b) - Z.of_nat (length a))) with (length b) by lia.
  apply firstn_all.
Qed.
