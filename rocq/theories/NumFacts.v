(** * Facts about bytes and positional numerals *)

From Verif Require Import GoBase GoNum.
From Coq Require Import ZifyBool ZifyNat ZifyN.
Local Open Scope Z_scope.

(** ** Bytes *)

Lemma b2z_range (b : byte) : 0 <= b2z b < 256.
Proof. unfold b2z. pose proof (Byte.to_N_bounded b). lia. Qed.

Lemma z2b_b2z (b : byte) : z2b (b2z b) = b.
Proof.
  unfold z2b. rewrite Z.mod_small by apply b2z_range.
  unfold b2z. rewrite N2Z.id, Byte.of_to_N. reflexivity.
Qed.

Lemma b2z_z2b_mod (z : Z) : b2z (z2b z) = z mod 256.
Proof.
  unfold z2b.
  pose proof (Z.mod_pos_bound z 256 ltac:(lia)) as Hb.
  destruct (Byte.of_N (Z.to_N (z mod 256))) eqn:E.
  - apply Byte.to_of_N in E. unfold b2z. rewrite E. lia.
  - apply Byte.of_N_None_iff in E. lia.
Qed.

Lemma b2z_z2b (z : Z) : 0 <= z < 256 -> b2z (z2b z) = z.
Proof. intros H. rewrite b2z_z2b_mod. apply Z.mod_small, H. Qed.

Lemma b2z_inj (a b : byte) : b2z a = b2z b -> a = b.
Proof. intros H. rewrite <- (z2b_b2z a), <- (z2b_b2z b), H. reflexivity. Qed.

Lemma z2b_inj (a b : Z) : 0 <= a < 256 -> 0 <= b < 256 -> z2b a = z2b b -> a = b.
Proof. intros Ha Hb H. rewrite <- (b2z_z2b a), <- (b2z_z2b b), H by assumption. reflexivity. Qed.

Lemma byte_eqb_eq (a b : byte) : byte_eqb a b = true <-> a = b.
Proof.
  unfold byte_eqb. split; intros H.
  - apply Byte.byte_dec_bl, H.
  - apply Byte.byte_dec_lb, H.
Qed.
Lemma byte_eqb_refl (a : byte) : byte_eqb a a = true.
Proof. apply byte_eqb_eq. reflexivity. Qed.
Lemma byte_eqb_neq (a b : byte) : byte_eqb a b = false <-> a <> b.
Proof.
  rewrite <- byte_eqb_eq. destruct (byte_eqb a b); split; congruence.
Qed.
Lemma byte_eqb_sym (a b : byte) : byte_eqb a b = byte_eqb b a.
Proof.
  destruct (byte_eqb a b) eqn:E, (byte_eqb b a) eqn:F; try reflexivity.
  - apply byte_eqb_eq in E. subst. rewrite byte_eqb_refl in F. discriminate.
  - apply byte_eqb_eq in F. subst. rewrite byte_eqb_refl in E. discriminate.
Qed.

Lemma str_eqb_eq (a b : gostring) : str_eqb a b = true <-> a = b.
Proof.
  revert b; induction a as [|x a IH]; intros [|y b]; cbn [str_eqb]; split; intros H;
    try discriminate; try reflexivity.
  - apply andb_true_iff in H as [H1 H2]. apply byte_eqb_eq in H1. apply IH in H2. congruence.
  - injection H as -> ->. rewrite byte_eqb_refl. apply IH. reflexivity.
Qed.
Lemma str_eqb_refl (a : gostring) : str_eqb a a = true.
Proof. apply str_eqb_eq. reflexivity. Qed.
Lemma str_eqb_neq (a b : gostring) : str_eqb a b = false <-> a <> b.
Proof. rewrite <- str_eqb_eq. destruct (str_eqb a b); split; congruence. Qed.
Lemma str_eqb_sym (a b : gostring) : str_eqb a b = str_eqb b a.
Proof.
  destruct (str_eqb a b) eqn:E, (str_eqb b a) eqn:F; try reflexivity.
  - apply str_eqb_eq in E. subst. rewrite str_eqb_refl in F. discriminate.
  - apply str_eqb_eq in F. subst. rewrite str_eqb_refl in E. discriminate.
Qed.

Lemma map_b2z_inj (a b : list byte) : map b2z a = map b2z b -> a = b.
Proof.
  revert b; induction a as [|x a IH]; intros [|y b] H; cbn in H; try discriminate; [reflexivity|].
  injection H as H1 H2. apply b2z_inj in H1. apply IH in H2. congruence.
Qed.
Lemma map_z2b_b2z (a : list byte) : map z2b (map b2z a) = a.
Proof. rewrite map_map. rewrite <- (map_id a) at 2. apply map_ext, z2b_b2z. Qed.

(** ** Positional numerals *)

Definition digits_ok (b : Z) (ds : list Z) : Prop := Forall (fun d => 0 <= d < b) ds.
Definition no_lead0 (ds : list Z) : Prop := match ds with d :: _ => d <> 0 | [] => True end.

Lemma map_b2z_z2b (a : list Z) : digits_ok 256 a -> map b2z (map z2b a) = a.
Proof.
  intros H. rewrite map_map. rewrite <- (map_id a) at 2. apply map_ext_in.
  intros d Hd. apply b2z_z2b. unfold digits_ok in H. rewrite Forall_forall in H. auto.
Qed.
Lemma digits_ok_bytes (bs : list byte) : digits_ok 256 (map b2z bs).
Proof. apply Forall_map. apply Forall_forall. intros x _. apply b2z_range. Qed.

Lemma digits_ok_app b x y : digits_ok b (x ++ y) <-> digits_ok b x /\ digits_ok b y.
Proof. apply Forall_app. Qed.
Lemma digits_ok_repeat0 b n : 0 < b -> digits_ok b (repeat 0 n).
Proof. intros Hb. induction n; cbn; constructor; [lia|assumption]. Qed.

Lemma fold_valb b ds a :
  fold_left (fun a d => a * b + d) ds a = a * b ^ Z.of_nat (length ds) + valb b ds.
Proof.
  unfold valb. revert a; induction ds as [|d ds IH]; intros a.
  - cbn. lia.
  - cbn [fold_left length]. rewrite IH, (IH (0 * b + d)).
    rewrite Nat2Z.inj_succ, Z.pow_succ_r by lia. ring.
Qed.

Lemma valb_nil b : valb b [] = 0.
Proof. reflexivity. Qed.
Lemma valb_cons b d ds : valb b (d :: ds) = d * b ^ Z.of_nat (length ds) + valb b ds.
Proof. unfold valb at 1. cbn [fold_left]. rewrite fold_valb. ring. Qed.
Lemma valb_app b x y : valb b (x ++ y) = valb b x * b ^ Z.of_nat (length y) + valb b y.
Proof. unfold valb at 1. rewrite fold_left_app, fold_valb. reflexivity. Qed.
Lemma valb_snoc b x d : valb b (x ++ [d]) = valb b x * b + d.
Proof. unfold valb. rewrite fold_left_app. reflexivity. Qed.
Lemma valb_repeat0 b n : valb b (repeat 0 n) = 0.
Proof.
  induction n; [reflexivity|]. cbn [repeat]. rewrite valb_cons, IHn. ring.
Qed.
Lemma valb_lead0 b n ds : valb b (repeat 0 n ++ ds) = valb b ds.
Proof. rewrite valb_app, valb_repeat0. ring. Qed.

Lemma valb_bound b ds : 2 <= b -> digits_ok b ds -> 0 <= valb b ds < b ^ Z.of_nat (length ds).
Proof.
  intros Hb. induction ds as [|d ds IH] using rev_ind; intros H.
  - cbn. lia.
  - apply digits_ok_app in H as [H1 H2]. inversion H2 as [|? ? Hd _]; subst.
    rewrite valb_snoc, app_length, Nat2Z.inj_add. cbn [length].
    rewrite Z.pow_add_r by lia. change (Z.of_nat 1) with 1. rewrite Z.pow_1_r.
    specialize (IH H1). nia.
Qed.

Lemma valb_nonneg b ds : 2 <= b -> digits_ok b ds -> 0 <= valb b ds.
Proof. intros. apply valb_bound; assumption. Qed.

Lemma valb_pos b ds : 2 <= b -> digits_ok b ds -> no_lead0 ds -> ds <> [] ->
  b ^ (Z.of_nat (length ds) - 1) <= valb b ds.
Proof.
  intros Hb Hok Hl Hne. destruct ds as [|d ds]; [congruence|].
  cbn in Hl. inversion Hok as [|? ? Hd Hds]; subst.
  rewrite valb_cons. pose proof (valb_bound b ds Hb Hds).
  cbn [length]. replace (Z.of_nat (S (length ds)) - 1) with (Z.of_nat (length ds)) by lia.
  pose proof (Z.pow_pos_nonneg b (Z.of_nat (length ds))). nia.
Qed.

(** Two numerals of equal length and value are equal. *)
Lemma valb_inj_len b x y : 2 <= b -> digits_ok b x -> digits_ok b y ->
  length x = length y -> valb b x = valb b y -> x = y.
Proof.
  intros Hb. revert y. induction x as [|d x IH] using rev_ind; intros y Hx Hy Hl Hv.
  - destruct y; [reflexivity|discriminate].
  - destruct y as [|e y] using rev_ind; [rewrite app_length in Hl; cbn in Hl; lia|clear IHy].
    rewrite !app_length in Hl. cbn in Hl.
    rewrite !valb_snoc in Hv.
    apply digits_ok_app in Hx as [Hx Hd], Hy as [Hy He].
    inversion Hd as [|? ? Hd' _]; inversion He as [|? ? He' _]; subst.
    assert (valb b x = valb b y) by nia.
    assert (d = e) by nia.
    f_equal; [apply IH; [assumption|assumption|lia|assumption]|congruence].
Qed.

(** Two canonical numerals of equal value are equal. *)
Lemma valb_inj_canon b x y : 2 <= b -> digits_ok b x -> digits_ok b y ->
  no_lead0 x -> no_lead0 y -> valb b x = valb b y -> x = y.
Proof.
  intros Hb Hx Hy Lx Ly Hv. apply (valb_inj_len b); try assumption.
  assert (Hlen : forall u v, digits_ok b u -> digits_ok b v -> no_lead0 u -> valb b u = valb b v ->
                  (length u <= length v)%nat).
  { intros u v Hu Hv' Lu E. destruct (Nat.le_gt_cases (length u) (length v)) as [|Hgt]; [assumption|exfalso].
    assert (Hne : u <> []) by (intros ->; cbn in Hgt; lia).
    pose proof (valb_pos b u Hb Hu Lu Hne) as H1.
    pose proof (valb_bound b v Hb Hv') as H2.
    assert (b ^ Z.of_nat (length v) <= b ^ (Z.of_nat (length u) - 1)) by (apply Z.pow_le_mono_r; lia).
    lia. }
  apply Nat.le_antisymm; apply Hlen; auto.
Qed.

(** *** digits *)

Lemma digits_fuel_acc f b n acc : digits_fuel f b n acc = digits_fuel f b n [] ++ acc.
Proof.
  revert n acc; induction f as [|f IH]; intros n acc; cbn [digits_fuel]; [reflexivity|].
  destruct (n <=? 0); [reflexivity|].
  rewrite IH, (IH _ [_]). rewrite <- app_assoc. reflexivity.
Qed.

Lemma digits_fuel_spec b f : 2 <= b -> forall n, 0 <= n < 2 ^ Z.of_nat f ->
  valb b (digits_fuel f b n []) = n /\ digits_ok b (digits_fuel f b n []) /\
  no_lead0 (digits_fuel f b n []).
Proof.
  intros Hb. induction f as [|f IH]; intros n Hn.
  - cbn in *. repeat split; [lia|constructor].
  - cbn [digits_fuel]. destruct (Z.leb_spec n 0) as [H0|H0].
    + cbn. repeat split; [lia|constructor].
    + rewrite digits_fuel_acc.
      rewrite Nat2Z.inj_succ, Z.pow_succ_r in Hn by lia.
      assert (Hq : 0 <= n / b < 2 ^ Z.of_nat f).
      { split; [apply Z.div_pos; lia|]. apply Z.div_lt_upper_bound; nia. }
      destruct (IH _ Hq) as (Hv & Hok & Hl).
      rewrite valb_snoc, Hv. repeat split.
      * rewrite (Z.div_mod n b) at 3 by lia. ring.
      * apply digits_ok_app. split; [assumption|]. constructor; [|constructor].
        apply Z.mod_pos_bound. lia.
      * destruct (digits_fuel f b (n / b) []) as [|d ds] eqn:E.
        -- cbn in Hv |- *. pose proof (Z.div_mod n b ltac:(lia)). nia.
        -- exact Hl.
Qed.

Lemma digits_fuel_ok b n : 2 <= b -> 0 <= n ->
  valb b (digits b n) = n /\ digits_ok b (digits b n) /\ no_lead0 (digits b n).
Proof.
  intros Hb Hn. apply digits_fuel_spec; [assumption|]. split; [assumption|].
  rewrite Nat2Z.inj_succ, Z2Nat.id by apply Z.log2_nonneg.
  destruct (Z.eq_dec n 0) as [->|Hne]; [cbn; lia|].
  apply Z.log2_spec. lia.
Qed.

Lemma valb_digits b n : 2 <= b -> 0 <= n -> valb b (digits b n) = n.
Proof. intros. apply digits_fuel_ok; assumption. Qed.
Lemma digits_digits_ok b n : 2 <= b -> 0 <= n -> digits_ok b (digits b n).
Proof. intros. apply digits_fuel_ok; assumption. Qed.
Lemma digits_no_lead0 b n : 2 <= b -> 0 <= n -> no_lead0 (digits b n).
Proof. intros. apply digits_fuel_ok; assumption. Qed.

Lemma digits_valb b ds : 2 <= b -> digits_ok b ds -> no_lead0 ds -> digits b (valb b ds) = ds.
Proof.
  intros Hb Hok Hl. apply (valb_inj_canon b); try assumption.
  - apply digits_digits_ok; [assumption|]. apply valb_nonneg; assumption.
  - apply digits_no_lead0; [assumption|]. apply valb_nonneg; assumption.
  - apply valb_digits; [assumption|]. apply valb_nonneg; assumption.
Qed.

Lemma digits_0 b : digits b 0 = [].
Proof. reflexivity. Qed.

Lemma digits_nonempty b n : 2 <= b -> 0 < n -> digits b n <> [].
Proof.
  intros Hb Hn E. pose proof (valb_digits b n Hb ltac:(lia)) as H. rewrite E in H. cbn in H. lia.
Qed.

(** The number of digits. *)
Lemma digits_length b n k : 2 <= b -> 0 < n ->
  (length (digits b n) = k <-> (0 < k)%nat /\ b ^ (Z.of_nat k - 1) <= n < b ^ Z.of_nat k).
Proof.
  intros Hb Hn.
  pose proof (digits_nonempty b n Hb Hn) as Hne.
  pose proof (digits_fuel_ok b n Hb ltac:(lia)) as (Hv & Hok & Hl).
  pose proof (valb_pos b _ Hb Hok Hl Hne) as H1.
  pose proof (valb_bound b _ Hb Hok) as H2. rewrite Hv in H1, H2.
  assert (Hlen : (0 < length (digits b n))%nat) by (destruct (digits b n); [congruence|cbn; lia]).
  split.
  - intros <-. split; [assumption|]. split; [assumption|]. apply H2.
  - intros (Hk & Hk1 & Hk2).
    assert (~ (length (digits b n) < k)%nat).
    { intros Hlt. assert (b ^ Z.of_nat (length (digits b n)) <= b ^ (Z.of_nat k - 1))
        by (apply Z.pow_le_mono_r; lia). lia. }
    assert (~ (k < length (digits b n))%nat).
    { intros Hlt. assert (b ^ Z.of_nat k <= b ^ (Z.of_nat (length (digits b n)) - 1))
        by (apply Z.pow_le_mono_r; lia). lia. }
    lia.
Qed.

Lemma digits_length_le b n k : 2 <= b -> 0 <= n < b ^ Z.of_nat k -> (length (digits b n) <= k)%nat.
Proof.
  intros Hb Hn. destruct (Z.eq_dec n 0) as [->|Hne]; [rewrite digits_0; cbn; lia|].
  destruct (Nat.le_gt_cases (length (digits b n)) k) as [|Hgt]; [assumption|exfalso].
  pose proof (proj1 (digits_length b n (length (digits b n)) Hb ltac:(lia)) eq_refl) as (_ & H & _).
  assert (b ^ Z.of_nat k <= b ^ (Z.of_nat (length (digits b n)) - 1)) by (apply Z.pow_le_mono_r; lia).
  lia.
Qed.

(** Any numeral is its leading zeros followed by the canonical digits. *)
Lemma pad_digits b ds : 2 <= b -> digits_ok b ds ->
  ds = repeat 0 (length ds - length (digits b (valb b ds))) ++ digits b (valb b ds).
Proof.
  intros Hb Hok.
  pose proof (valb_bound b ds Hb Hok) as Hbd.
  pose proof (digits_length_le b _ _ Hb Hbd) as Hle.
  apply (valb_inj_len b); try assumption.
  - apply digits_ok_app. split; [apply digits_ok_repeat0; lia|]. apply digits_digits_ok; lia.
  - rewrite app_length, repeat_length. lia.
  - rewrite valb_lead0, valb_digits by lia. reflexivity.
Qed.

(** The digit list of fixed length [k]. *)
Lemma pad_digits_unique b k ds : 2 <= b -> digits_ok b ds -> length ds = k ->
  repeat 0 (k - length (digits b (valb b ds))) ++ digits b (valb b ds) = ds.
Proof. intros Hb Hok <-. symmetry. apply pad_digits; assumption. Qed.

(** Leading digit: value in terms of the first digit. *)
Lemma valb_first_digit b d ds : 2 <= b -> digits_ok b (d :: ds) ->
  d * b ^ Z.of_nat (length ds) <= valb b (d :: ds) < (d + 1) * b ^ Z.of_nat (length ds).
Proof.
  intros Hb H. inversion H as [|? ? Hd Hds]; subst.
  rewrite valb_cons. pose proof (valb_bound b ds Hb Hds). nia.
Qed.
