(** * Random numbers and key generation: lemmas behind C13-C16, C50 *)

From Verif Require Import GoBase GoNum Sha256 Base58 GoRand Model.
From Verif Require Import NumFacts HexFacts Base58Facts Spec SpecFacts PrivFacts.
From Coq Require Import ZifyBool ZifyNat ZifyN.
Local Open Scope Z_scope.
Local Opaque sha256.

(** ** first_block *)

Lemma app_inj_1 {A} (a b x y : list A) : length a = length b -> a ++ x = b ++ y -> a = b /\ x = y.
Proof.
  revert b; induction a as [|c a IH]; intros [|d b] Hl H; cbn in *; try discriminate; [auto|].
  injection H as -> H. injection Hl as Hl. destruct (IH b Hl H) as [-> ->]. auto.
Qed.

Lemma app_block_inj (k : nat) (a b x y : list byte) :
  length a = k -> length b = k -> a ++ x = b ++ y -> a = b /\ x = y.
Proof.
  intros Ha Hb H. apply app_inj_1 in H; [assumption|congruence].
Qed.

Lemma first_block_fun k P rd v r v' r' :
  first_block k P rd v r -> first_block k P rd v' r' -> v = v' /\ r = r'.
Proof.
  intros H. revert v' r'. induction H as [b rest Hl Hg|b rd v rest Hl Hg H IH]; intros v' r' H'.
  - inversion H' as [b' r'' Hl' Hg' E|b' rd' v'' r'' Hl' Hg' H'' E]; subst.
    + destruct (app_block_inj _ _ _ _ _ Hl' eq_refl E) as [-> ->]. auto.
    + destruct (app_block_inj _ _ _ _ _ Hl' eq_refl E) as [-> ->]. contradiction.
  - inversion H' as [b' r'' Hl' Hg' E|b' rd' v'' r'' Hl' Hg' H'' E]; subst.
    + destruct (app_block_inj _ _ _ _ _ Hl' eq_refl E) as [-> ->]. contradiction.
    + destruct (app_block_inj _ _ _ _ _ Hl' eq_refl E) as [-> ->]. auto.
Qed.

Lemma first_block_ext k P Q rd v r : (forall z, P z <-> Q z) ->
  first_block k P rd v r -> first_block k Q rd v r.
Proof.
  intros HPQ. induction 1; [apply first_here|apply first_skip]; try assumption; rewrite <- HPQ; assumption.
Qed.

Lemma first_block_good k P rd v r : first_block k P rd v r -> P v.
Proof. induction 1; assumption. Qed.

Lemma first_block_and_here k (P Q : Z -> Prop) rd v r :
  first_block k P rd v r -> Q v -> first_block k (fun z => P z /\ Q z) rd v r.
Proof.
  induction 1 as [b rest Hl Hg|b rd v rest Hl Hg H IH]; intros HQ.
  - apply first_here; auto.
  - apply first_skip; [assumption|tauto|auto].
Qed.

Lemma first_block_and_skip k (P Q : Z -> Prop) rd v r v' r' :
  first_block k P rd v r -> ~ Q v ->
  first_block k (fun z => P z /\ Q z) r v' r' -> first_block k (fun z => P z /\ Q z) rd v' r'.
Proof.
  induction 1 as [b rest Hl Hg|b rd v rest Hl Hg H IH]; intros HQ K.
  - apply first_skip; [assumption|tauto|assumption].
  - apply first_skip; [assumption|tauto|auto].
Qed.

(** Conversely, the first block with both properties comes after the first with [P]. *)
Lemma first_block_and_inv k (P Q : Z -> Prop) rd v r v' r' :
  (forall z, P z \/ ~ P z) ->
  first_block k (fun z => P z /\ Q z) rd v' r' -> first_block k P rd v r ->
  (v' = v /\ r' = r /\ Q v) \/ (~ Q v /\ first_block k (fun z => P z /\ Q z) r v' r').
Proof.
  intros Hdec K H. induction H as [b rest Hl Hg|b rd v rest Hl Hg H IH].
  - inversion K as [b' r'' Hl' Hg' E|b' rd' v'' r'' Hl' Hg' K' E]; subst.
    + destruct (app_block_inj _ _ _ _ _ Hl' eq_refl E) as [-> ->]. left. tauto.
    + destruct (app_block_inj _ _ _ _ _ Hl' eq_refl E) as [-> ->]. right. tauto.
  - inversion K as [b' r'' Hl' Hg' E|b' rd' v'' r'' Hl' Hg' K' E]; subst.
    + destruct (app_block_inj _ _ _ _ _ Hl' eq_refl E) as [-> ->]. tauto.
    + destruct (app_block_inj _ _ _ _ _ Hl' eq_refl E) as [-> ->]. auto.
Qed.

Lemma first_block_weaken k (P Q : Z -> Prop) rd v r :
  (forall z, P z \/ ~ P z) -> first_block k (fun z => P z /\ Q z) rd v r ->
  exists v' r', first_block k P rd v' r'.
Proof.
  intros Hdec. induction 1 as [b rest Hl Hg|b rd v rest Hl Hg H (v' & r' & IH)].
  - do 2 eexists. apply first_here; tauto.
  - destruct (Hdec (bytes_number b)).
    + do 2 eexists. apply first_here; assumption.
    + do 2 eexists. apply first_skip; [assumption|assumption|apply IH].
Qed.

(** ** crypto/rand.Int *)

Lemma rand_candidate_full k b : length b = k -> rand_candidate (8 * Z.of_nat k) b = bytes_number b.
Proof.
  intros H. unfold rand_candidate. rewrite bytes_number_set_bytes. apply Z.mod_small.
  pose proof (set_bytes_bound b) as Hb. rewrite H in Hb.
  rewrite Z.pow_mul_r by lia. exact Hb.
Qed.

Lemma rand_loop_spec fuel k max rd : (0 < k)%nat -> (length rd < fuel)%nat ->
  match rand_loop fuel k (8 * Z.of_nat k) max rd with
  | Some (v, rest) => first_block k (fun z => z < max) rd v rest
  | None => forall v rest, ~ first_block k (fun z => z < max) rd v rest
  end.
Proof.
  intros Hk. revert rd; induction fuel as [|fuel IH]; intros rd Hf; [lia|]. cbn [rand_loop].
  destruct (Nat.ltb_spec (length rd) k) as [Hlt|Hge].
  - intros v rest H. inversion H; subst; rewrite app_length in Hlt; lia.
  - assert (Hl : length (firstn k rd) = k) by (rewrite firstn_length; lia).
    rewrite (rand_candidate_full k _ Hl). cbv zeta.
    assert (Hsplit : rd = firstn k rd ++ skipn k rd) by (symmetry; apply firstn_skipn).
    destruct (Z.ltb_spec (bytes_number (firstn k rd)) max) as [Hm|Hm].
    + rewrite Hsplit at 1. apply first_here; assumption.
    + specialize (IH (skipn k rd) ltac:(rewrite skipn_length; lia)).
      destruct (rand_loop fuel k (8 * Z.of_nat k) max (skipn k rd)) as [[v rest]|].
      * rewrite Hsplit. apply first_skip; [assumption|lia|assumption].
      * intros v rest H. rewrite Hsplit in H.
        inversion H as [b' r'' Hl' Hg' E|b' rd' v'' r'' Hl' Hg' K' E].
        -- apply app_inj_1 in E as [E _]; [|congruence]. rewrite E in Hg'. lia.
        -- apply app_inj_1 in E as [_ E]; [|congruence]. rewrite E in K'. apply (IH _ _ K').
Qed.

(** More fuel than bytes never changes the result: the bound is not observable. *)
Lemma rand_loop_fuel k bl max rd f g : (0 < k)%nat -> (length rd < f)%nat -> (length rd < g)%nat ->
  rand_loop f k bl max rd = rand_loop g k bl max rd.
Proof.
  intros Hk. revert rd g; induction f as [|f IH]; intros rd g Hf Hg; [lia|].
  destruct g as [|g]; [lia|]. cbn [rand_loop].
  destruct (Nat.ltb_spec (length rd) k); [reflexivity|].
  destruct (rand_candidate bl (firstn k rd) <? max); [reflexivity|].
  apply IH; rewrite skipn_length; lia.
Qed.

Lemma rand_int_spec max k rd : (0 < k)%nat -> bit_len (max - 1) = 8 * Z.of_nat k ->
  match rand_int max rd with
  | Some (v, rest) => first_block k (fun z => z < max) rd v rest
  | None => forall v rest, ~ first_block k (fun z => z < max) rd v rest
  end.
Proof.
  intros Hk Hb. unfold rand_int. rewrite Hb.
  destruct (Z.eqb_spec (8 * Z.of_nat k) 0); [lia|].
  replace (Z.to_nat ((8 * Z.of_nat k + 7) / 8)) with k.
  2:{ replace ((8 * Z.of_nat k + 7) / 8) with (Z.of_nat k); [lia|].
      apply Z.div_unique with 7; lia. }
  apply rand_loop_spec; [assumption|lia].
Qed.

Definition below_max (z : Z) : Prop := z < secp_N - 1.

Lemma below_max_dec z : below_max z \/ ~ below_max z.
Proof. unfold below_max. lia. Qed.

Lemma rand_max_N : rand_max = secp_N - 1.
Proof. reflexivity. Qed.

Lemma generateRandomBigInt_spec rd :
  match generateRandomBigInt rd with
  | Ret (v, rest) => first_block 32 below_max rd v rest
  | Panic p => p = PRand /\ forall v rest, ~ first_block 32 below_max rd v rest
  end.
Proof.
  unfold generateRandomBigInt. pose proof (rand_int_spec rand_max 32 rd ltac:(lia) ltac:(reflexivity)) as H.
  rewrite rand_max_N in *. destruct (rand_int (secp_N - 1) rd) as [[v rest]|].
  - exact H.
  - split; [reflexivity|exact H].
Qed.

Lemma first_block_range k P rd v r : first_block k P rd v r -> 0 <= v < 256 ^ Z.of_nat k.
Proof.
  induction 1 as [b rest Hl Hg|]; [|assumption]. rewrite <- Hl. apply bytes_number_bound.
Qed.

Lemma first_block_length k P rd v r : first_block k P rd v r ->
  exists m, (0 < m)%nat /\ length rd = (m * k + length r)%nat.
Proof.
  induction 1 as [b rest Hl Hg|b rd v rest Hl Hg H (m & Hm & IH)].
  - exists 1%nat. rewrite app_length. lia.
  - exists (S m). rewrite app_length. lia.
Qed.

(** ** GeneratePrivateKey *)

(** The secrets generation can produce. *)
Definition gen_range (z : Z) : Prop := 2 ^ 252 <= z <= secp_N - 2.
Definition gen_big (z : Z) : Prop := 2 ^ 252 <= z.

Lemma gen_range_split z : gen_range z <-> below_max z /\ gen_big z.
Proof. unfold gen_range, below_max, gen_big. lia. Qed.

Lemma sprintf_x_64 v : 0 <= v < 2 ^ 256 -> (length (sprintf_x v) = 64%nat <-> gen_big v).
Proof.
  intros Hv. unfold gen_big. destruct (Z.eq_dec v 0) as [->|Hne].
  - split; [discriminate|]. change (2 ^ 252 <= 0 -> length (sprintf_x 0) = 64%nat). lia.
  - rewrite sprintf_x_length by lia.
    change (16 ^ (Z.of_nat 64 - 1)) with (2 ^ 252). change (16 ^ Z.of_nat 64) with (2 ^ 256). lia.
Qed.

Lemma PrivateFromHex_prefix_even n h : Nat.even (length h) = true -> Forall is_hex h ->
  (exists k, PrivateFromHex h (Some n) = Ret (Ok k)) <-> exists bs, hex_text (PrivKeyPrefix n) bs.
Proof.
  intros Hev Hh. rewrite PrivateFromHex_accepts.
  assert (forall s, (exists bs, hex_text s bs) <-> (exists bs, hex_decode s = Ok bs)) as K.
  { intros s. split; intros [bs H]; exists bs; apply hex_text_decode, H. }
  rewrite !K, !hex_decode_ok_iff, app_length, Nat.even_add, Forall_app, Hev.
  destruct (Nat.even (length (PrivKeyPrefix n))); cbn; tauto.
Qed.

Section Gen.
Context (net : network).

(** With a usable prefix. *)
Lemma generate_fuel_spec bs fuel rd : hex_text (PrivKeyPrefix net) bs -> (length rd < fuel)%nat ->
  match generate_fuel fuel (Some net) rd with
  | Ret (k, rest) =>
      exists v, first_block 32 gen_range rd v rest /\ Key k = Some v /\ Hex k = sprintf_x v /\
                PrivateFromHex (sprintf_x v) (Some net) = Ret (Ok k)
  | Panic p => p = PRand /\ forall v rest, ~ first_block 32 gen_range rd v rest
  end.
Proof.
  intros Hbs. revert rd; induction fuel as [|fuel IH]; intros rd Hf; [lia|]. cbn [generate_fuel].
  pose proof (generateRandomBigInt_spec rd) as Hr.
  destruct (generateRandomBigInt rd) as [[v rd']|p].
  - pose proof (first_block_range _ _ _ _ _ Hr) as Hrange. change (256 ^ Z.of_nat 32) with (2 ^ 256) in Hrange.
    pose proof (sprintf_x_64 v Hrange) as H64. cbn [bind bigIntToHex].
    pose proof (first_block_length _ _ _ _ _ Hr) as (m & Hm & Hlen).
    unfold len. destruct (Z.eqb_spec (Z.of_nat (length (sprintf_x v))) 64) as [El|El]; cbn [negb].
    + assert (Hbig : gen_big v) by (apply H64; lia).
      destruct (proj2 (PrivateFromHex_prefix_even net (sprintf_x v)
                  ltac:(replace (length (sprintf_x v)) with 64%nat by lia; reflexivity)
                  (sprintf_x_is_hex v ltac:(lia))) (ex_intro _ _ Hbs)) as [k Hk].
      rewrite Hk. cbn [bind]. exists v.
      assert (Key k = Some v /\ Hex k = sprintf_x v) as [Hkey Hhex].
      { apply PrivateFromHex_success in Hk as (b & _ & _ & Hh & _ & Hz). split; [|assumption].
        destruct (Key k) as [z|]; [|exfalso; apply (sprintf_x_nonempty v Hz)].
        apply hex_number_set_string in Hz as (_ & _ & Hz).
        rewrite set_string16_sprintf_x in Hz by lia. congruence. }
      repeat split.
      * apply (first_block_ext _ _ _ _ _ _ (fun z => iff_sym (gen_range_split z))).
        apply first_block_and_here; assumption.
      * exact Hhex.
      * rewrite Hk. rewrite <- Hkey. destruct k; reflexivity.
    + assert (Hbig : ~ gen_big v) by (intros Hb; apply H64 in Hb; lia).
      specialize (IH rd' ltac:(lia)).
      destruct (generate_fuel fuel (Some net) rd') as [[k rest]|p].
      * destruct IH as (w & Hw & H). exists w. split; [|exact H].
        apply (first_block_ext _ _ _ _ _ _ (fun z => iff_sym (gen_range_split z))).
        apply (first_block_and_skip _ _ _ _ _ _ _ _ Hr Hbig).
        apply (first_block_ext _ _ _ _ _ _ gen_range_split Hw).
      * destruct IH as [-> IH]. split; [reflexivity|]. intros w rest Hw.
        apply (first_block_ext _ _ _ _ _ _ gen_range_split) in Hw.
        destruct (first_block_and_inv _ _ _ _ _ _ _ _ below_max_dec Hw Hr)
          as [(-> & -> & Hb)|(_ & Hw')]; [contradiction|].
        apply (IH w rest). apply (first_block_ext _ _ _ _ _ _ (fun z => iff_sym (gen_range_split z)) Hw').
  - destruct Hr as [-> Hr]. cbn [bind]. split; [reflexivity|]. intros v rest H.
    apply (first_block_ext _ _ _ _ _ _ gen_range_split) in H.
    apply first_block_weaken in H as (v' & r' & H); [|exact below_max_dec].
    apply (Hr _ _ H).
Qed.

(** With an unusable prefix every call retries until the source fails. *)
Lemma generate_fuel_bad fuel rd : (~ exists bs, hex_text (PrivKeyPrefix net) bs) -> (length rd < fuel)%nat ->
  generate_fuel fuel (Some net) rd = Panic PRand.
Proof.
  intros Hbs. revert rd; induction fuel as [|fuel IH]; intros rd Hf; [lia|]. cbn [generate_fuel].
  pose proof (generateRandomBigInt_spec rd) as Hr.
  destruct (generateRandomBigInt rd) as [[v rd']|p]; [|destruct Hr as [-> _]; reflexivity].
  pose proof (first_block_range _ _ _ _ _ Hr) as Hrange. change (256 ^ Z.of_nat 32) with (2 ^ 256) in Hrange.
  cbn [bind bigIntToHex].
  pose proof (first_block_length _ _ _ _ _ Hr) as (m & Hm & Hlen).
  unfold len. destruct (Z.eqb_spec (Z.of_nat (length (sprintf_x v))) 64) as [El|El]; cbn [negb].
  - destruct (PrivateFromHex_total (sprintf_x v) net) as [[k|e] Hk]; rewrite Hk; cbn [bind].
    + exfalso. apply Hbs.
      assert (Hev : Nat.even (length (sprintf_x v)) = true)
        by (replace (length (sprintf_x v)) with 64%nat by lia; reflexivity).
      assert (Hv0 : 0 <= v) by (clear - Hrange; lia).
      apply (proj1 (PrivateFromHex_prefix_even net _ Hev (sprintf_x_is_hex v Hv0))). eauto.
    + apply IH. lia.
  - apply IH. lia.
Qed.

End Gen.

Lemma generate_fuel_more net rd f g : (length rd < f)%nat -> (length rd < g)%nat ->
  generate_fuel f net rd = generate_fuel g net rd.
Proof.
  revert rd g; induction f as [|f IH]; intros rd g Hf Hg; [lia|].
  destruct g as [|g]; [lia|]. cbn [generate_fuel].
  pose proof (generateRandomBigInt_spec rd) as Hr.
  destruct (generateRandomBigInt rd) as [[v rd']|p]; [|reflexivity]. cbn [bind].
  pose proof (first_block_length _ _ _ _ _ Hr) as (m & Hm & Hlen).
  rewrite (IH rd' g) by lia. reflexivity.
Qed.

Lemma generate_not_fuel net rd : GeneratePrivateKey net rd <> Panic PFuel.
Proof.
  unfold GeneratePrivateKey.
  assert (forall f r, (length r < f)%nat -> generate_fuel f net r <> Panic PFuel) as K.
  { induction f as [|f IH]; intros r Hf; [lia|]. cbn [generate_fuel].
    pose proof (generateRandomBigInt_spec r) as Hr.
    destruct (generateRandomBigInt r) as [[v r']|p]; [|destruct Hr as [-> _]; discriminate]. cbn [bind].
    pose proof (first_block_length _ _ _ _ _ Hr) as (m & Hm & Hlen).
    destruct (negb _); [apply IH; lia|].
    destruct net as [n|]; [|discriminate].
    destruct (PrivateFromHex_total (bigIntToHex (Some v)) n) as [[k|e] Hk]; rewrite Hk; cbn [bind]; [discriminate|].
    apply IH. lia. }
  apply K. lia.
Qed.

Lemma GeneratePrivateKey_fuel net rd f : (length rd < f)%nat ->
  generate_fuel f net rd = GeneratePrivateKey net rd /\ GeneratePrivateKey net rd <> Panic PFuel.
Proof.
  intros H. split; [apply generate_fuel_more; lia|apply generate_not_fuel].
Qed.

Lemma GeneratePrivateKey_spec net bs rd : hex_text (PrivKeyPrefix net) bs ->
  match GeneratePrivateKey (Some net) rd with
  | Ret (k, rest) =>
      exists v, first_block 32 gen_range rd v rest /\ Key k = Some v /\ Hex k = sprintf_x v /\
                PrivateFromHex (sprintf_x v) (Some net) = Ret (Ok k)
  | Panic p => p = PRand /\ forall v rest, ~ first_block 32 gen_range rd v rest
  end.
Proof. intros H. apply (generate_fuel_spec net bs); [assumption|lia]. Qed.

Lemma GeneratePrivateKey_bad net rd : (~ exists bs, hex_text (PrivKeyPrefix net) bs) ->
  GeneratePrivateKey (Some net) rd = Panic PRand.
Proof. intros H. apply generate_fuel_bad; [assumption|lia]. Qed.

Lemma GeneratePrivateKey_nil rd r : GeneratePrivateKey None rd <> Ret r.
Proof.
  unfold GeneratePrivateKey. generalize (S (length rd)) as f. intros f. revert rd.
  induction f as [|f IH]; intros rd; cbn [generate_fuel]; [discriminate|].
  destruct (generateRandomBigInt rd) as [[v rd']|p]; [|discriminate]. cbn [bind].
  destruct (negb _); [apply IH|discriminate].
Qed.

(** Any success, for any network argument. *)
Lemma GeneratePrivateKey_success net rd k rest : GeneratePrivateKey net rd = Ret (k, rest) ->
  exists n v, net = Some n /\ first_block 32 gen_range rd v rest /\ Key k = Some v /\ Hex k = sprintf_x v /\
    PrivateFromHex (sprintf_x v) (Some n) = Ret (Ok k).
Proof.
  intros H. destruct net as [n|]; [|exfalso; apply (GeneratePrivateKey_nil _ _ H)].
  destruct (hex_decode (PrivKeyPrefix n)) as [bs|e] eqn:E.
  - pose proof (GeneratePrivateKey_spec n bs rd (proj2 (hex_text_decode _ _) E)) as K.
    rewrite H in K. destruct K as (v & K). exists n, v. split; [reflexivity|exact K].
  - rewrite GeneratePrivateKey_bad in H; [discriminate|].
    intros [bs Hbs]. apply hex_text_decode in Hbs. congruence.
Qed.

(** Every number of the range has a 32-byte block. *)
Lemma octets_exist k n : 0 <= n < 256 ^ Z.of_nat k -> exists bs, octets k n bs.
Proof.
  intros Hn. set (ds := digits 256 n).
  assert (Hl : (length ds <= k)%nat) by (apply digits_length_le; lia).
  exists (map z2b (repeat 0 (k - length ds) ++ ds)). split.
  - rewrite map_length, app_length, repeat_length. lia.
  - rewrite bytes_number_set_bytes. unfold set_bytes. rewrite map_b2z_z2b.
    + rewrite valb_lead0. apply valb_digits; lia.
    + apply digits_ok_app. split; [apply digits_ok_repeat0; lia|apply digits_digits_ok; lia].
Qed.

Lemma octets_fun k n a b : octets k n a -> octets k n b -> a = b.
Proof. intros [H1 H2] [H3 H4]. apply bytes_number_inj; congruence. Qed.
