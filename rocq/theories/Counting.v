(** * Counting random streams: how often key generation fails, what phrases come out *)

From Coq Require Import Permutation.
From Verif Require Import GoBase GoNum Sha256 GoRand Model Spec SpecMore SpecFacts GenFacts Uniform MnemFacts MnemProps SeedFacts.
Local Open Scope Z_scope.
Local Opaque secp_N.

(** [c] streams of length [L] satisfy [f]. *)
Definition counted (L : nat) (f : list byte -> Prop) (c : Z) : Prop :=
  exists T, NoDup T /\ (forall rd, In rd T <-> length rd = L /\ f rd) /\ Z.of_nat (length T) = c.

Lemma counted_fun L f c d : counted L f c -> counted L f d -> c = d.
Proof.
  intros (T & H1 & H2 & <-) (U & H3 & H4 & <-). f_equal. apply Permutation_length, NoDup_Permutation; try assumption.
  intros a. rewrite H2, H4. reflexivity.
Qed.

Lemma counted_ext L (f g : list byte -> Prop) c : (forall rd, length rd = L -> f rd <-> g rd) -> counted L f c -> counted L g c.
Proof.
  intros E (T & H1 & H2 & <-). exists T. split; [assumption|]. split; [|reflexivity].
  intros rd. rewrite H2. split; intros [Hl H]; (split; [exact Hl|]); apply (E rd Hl), H.
Qed.

Lemma holds_for_counted L S f c : all_streams L S -> holds_for f S c -> counted L f (Z.of_nat c).
Proof.
  intros [_ HS] (T & H1 & H2 & <-). exists T. split; [assumption|]. split; [|reflexivity].
  intros rd. rewrite H2, HS. reflexivity.
Qed.

Lemma counted_or L (f g : list byte -> Prop) c d : (forall rd, length rd = L -> f rd -> ~ g rd) ->
  counted L f c -> counted L g d -> counted L (fun rd => f rd \/ g rd) (c + d).
Proof.
  intros D (T & H1 & H2 & <-) (U & H3 & H4 & <-). exists (T ++ U). split; [|split].
  - apply NoDup_app'; [assumption..|]. intros x Hx Hy. apply H2 in Hx as [Hl Hx]. apply H4 in Hy as [_ Hy].
    apply (D x Hl Hx Hy).
  - intros rd. rewrite in_app_iff, H2, H4. tauto.
  - rewrite app_length. lia.
Qed.

Lemma counted_prod K L (f g : list byte -> Prop) c d : counted K f c -> counted L g d ->
  counted (K + L) (fun rd => f (firstn K rd) /\ g (skipn K rd)) (c * d).
Proof.
  intros (T & H1 & H2 & <-) (U & H3 & H4 & <-). exists (flat_map (fun b => map (app b) U) T). split; [|split].
  - assert (HT : forall b, In b T -> length b = K) by (intros b Hb; apply H2, Hb). clear H2.
    induction H1 as [|b T Hb H1 IH]; cbn [flat_map]; [constructor|]. apply NoDup_app'.
    + apply FinFun.Injective_map_NoDup; [|assumption]. intros x y E. apply app_inv_head in E. exact E.
    + apply IH. intros b' Hb'. apply HT. right. exact Hb'.
    + intros x Hx Hy. apply in_map_iff in Hx as (u & <- & _). apply in_flat_map in Hy as (b' & Hb' & Hy).
      apply in_map_iff in Hy as (u' & E & _). apply (f_equal (firstn K)) in E.
      pose proof (HT b (or_introl eq_refl)) as L1. pose proof (HT b' (or_intror Hb')) as L2.
      rewrite !firstn_app, L1, L2, Nat.sub_diag, (firstn_all2 b), (firstn_all2 b') in E by lia.
      cbn in E. rewrite !app_nil_r in E. subst b'. contradiction.
  - intros rd. rewrite in_flat_map. split.
    + intros (b & Hb & Hx). apply in_map_iff in Hx as (u & <- & Hu).
      apply H2 in Hb as [Lb Fb]. apply H4 in Hu as [Lu Gu].
      rewrite app_length, firstn_app, skipn_app, firstn_all2, skipn_all2, Lb, Nat.sub_diag by lia.
      cbn [firstn skipn app]. rewrite app_nil_r. split; [lia|]. split; assumption.
    + intros (Hl & Hf & Hg). exists (firstn K rd). split.
      * apply H2. split; [rewrite firstn_length; lia|exact Hf].
      * apply in_map_iff. exists (skipn K rd). split; [apply firstn_skipn|]. apply H4.
        split; [rewrite skipn_length; lia|exact Hg].
  - assert (length (flat_map (fun b => map (app b) U) T) = length T * length U)%nat as ->; [|lia].
    clear. induction T as [|b T IH]; [reflexivity|]. cbn [flat_map length]. rewrite app_length, map_length, IH. lia.
Qed.

(** Blocks whose value lies in an interval. *)
Lemma counted_interval_nat k lo n : 0 <= lo -> lo + Z.of_nat n <= 256 ^ Z.of_nat k ->
  counted k (fun b => lo <= bytes_number b < lo + Z.of_nat n) (Z.of_nat n).
Proof.
  intros Hlo. induction n as [|n IH]; intros H.
  - exists []. split; [constructor|]. split; [|reflexivity]. intros rd. cbn. split; [intros []|lia].
  - destruct (IH ltac:(lia)) as (T & H1 & H2 & H3).
    destruct (octets_exist k (lo + Z.of_nat n)) as (b & Lb & Vb); [lia|].
    exists (b :: T). split; [|split].
    + constructor; [|assumption]. rewrite H2. lia.
    + intros rd. cbn [In]. rewrite H2. split.
      * intros [<-|[Hl Hr]]; [split; [exact Lb|lia]|split; [exact Hl|lia]].
      * intros [Hl Hr]. destruct (Z.eq_dec (bytes_number rd) (lo + Z.of_nat n)) as [E|E]; [left|right; split; [exact Hl|lia]].
        apply bytes_number_inj; congruence.
    + cbn [length]. lia.
Qed.

Lemma counted_interval k lo hi : 0 <= lo <= hi -> hi <= 256 ^ Z.of_nat k ->
  counted k (fun b => lo <= bytes_number b < hi) (hi - lo).
Proof.
  intros H1 H2. pose proof (counted_interval_nat k lo (Z.to_nat (hi - lo)) ltac:(lia)) as C.
  rewrite !Z2Nat.id in C by lia. replace (lo + (hi - lo)) with hi in C by lia. apply C, H2.
Qed.

Lemma counted_all k : counted k (fun _ => True) (256 ^ Z.of_nat k).
Proof.
  pose proof (counted_interval k 0 (256 ^ Z.of_nat k) ltac:(pose proof (Z.pow_nonneg 256 (Z.of_nat k)); lia) ltac:(lia)) as C.
  rewrite Z.sub_0_r in C. revert C. apply counted_ext. intros rd Hl. split; [trivial|]. intros _.
  rewrite <- Hl. apply bytes_number_bound.
Qed.

(** ** Key generation *)

Definition good_blocks : Z := secp_N - 1 - 2 ^ 252.
Definition bad_blocks : Z := 2 ^ 256 - good_blocks.

Lemma good_range : 2 ^ 252 <= secp_N - 1 <= 2 ^ 256.
Proof. Local Transparent secp_N. unfold secp_N. lia. Qed.
Local Opaque secp_N.
Lemma pow_256_32 : 256 ^ Z.of_nat 32 = 2 ^ 256.
Proof. reflexivity. Qed.

Lemma gen_range_dec z : gen_range z \/ ~ gen_range z.
Proof. unfold gen_range. lia. Qed.

Lemma counted_bad : counted 32 (fun b => ~ gen_range (bytes_number b)) bad_blocks.
Proof.
  pose proof good_range as G.
  replace bad_blocks with ((2 ^ 252 - 0) + (2 ^ 256 - (secp_N - 1))) by (unfold bad_blocks, good_blocks; ring).
  eapply counted_ext; [|apply counted_or; [|apply (counted_interval 32 0 (2 ^ 252)); rewrite ?pow_256_32; lia
                                            |apply (counted_interval 32 (secp_N - 1) (2 ^ 256)); rewrite ?pow_256_32; lia]].
  - intros rd Hl. pose proof (bytes_number_bound rd) as B. rewrite Hl, pow_256_32 in B. unfold gen_range. cbn beta. lia.
  - intros rd Hl. cbn beta. lia.
Qed.

Lemma no_block_short rd v rest : (length rd < 32)%nat -> ~ first_block 32 gen_range rd v rest.
Proof. intros H K. inversion K as [b r Hb|b r v' r' Hb]; subst; rewrite app_length in H; lia. Qed.

Lemma first_block_split rd v : (32 <= length rd)%nat ->
  ((exists rest, first_block 32 gen_range rd v rest) <->
   gen_range (bytes_number (firstn 32 rd)) /\ v = bytes_number (firstn 32 rd) \/
   ~ gen_range (bytes_number (firstn 32 rd)) /\ exists rest, first_block 32 gen_range (skipn 32 rd) v rest).
Proof.
  intros Hl. split.
  - intros [rest K]. inversion K as [b r Hb G|b r v' r' Hb G K']; subst;
      rewrite firstn_app, skipn_app, firstn_all2, skipn_all2, Hb, Nat.sub_diag by lia;
      cbn [firstn skipn app]; rewrite app_nil_r; [left; auto|right; eauto].
  - assert (L1 : length (firstn 32 rd) = 32%nat) by (rewrite firstn_length; lia).
    intros [[G ->]|[G [rest K]]].
    + exists (skipn 32 rd). rewrite <- (firstn_skipn 32 rd) at 1. apply first_here; assumption.
    + exists rest. rewrite <- (firstn_skipn 32 rd). apply first_skip; assumption.
Qed.

Lemma counted_fail m r : (r < 32)%nat ->
  counted (32 * m + r) (fun rd => ~ exists v rest, first_block 32 gen_range rd v rest)
    (bad_blocks ^ Z.of_nat m * 256 ^ Z.of_nat r).
Proof.
  intros Hr. induction m as [|m IH].
  - replace (bad_blocks ^ Z.of_nat 0 * 256 ^ Z.of_nat r) with (256 ^ Z.of_nat r) by (rewrite Z.pow_0_r; ring).
    rewrite Nat.mul_0_r, Nat.add_0_l. eapply counted_ext; [|apply counted_all].
    intros rd Hl. split; [|trivial]. intros _ (v & rest & K). apply (no_block_short rd v rest); [lia|exact K].
  - replace (32 * S m + r)%nat with (32 + (32 * m + r))%nat by lia.
    replace (bad_blocks ^ Z.of_nat (S m) * 256 ^ Z.of_nat r)
      with (bad_blocks * (bad_blocks ^ Z.of_nat m * 256 ^ Z.of_nat r))
      by (rewrite Nat2Z.inj_succ, Z.pow_succ_r by lia; ring).
    eapply counted_ext; [|apply (counted_prod 32 (32 * m + r)); [apply counted_bad|exact IH]].
    intros rd Hl. cbn beta. split.
    + intros [B F] (v & rest & K). destruct (proj1 (first_block_split rd v ltac:(lia)) (ex_intro _ rest K)) as [[G _]|[_ [r' K']]].
      * contradiction.
      * apply F. eauto.
    + intros F. split.
      * intros G. apply F. exists (bytes_number (firstn 32 rd)).
        apply first_block_split; [lia|]. left. auto.
      * intros (v & rest & K). destruct (gen_range_dec (bytes_number (firstn 32 rd))) as [G|G].
        -- apply F. exists (bytes_number (firstn 32 rd)). apply first_block_split; [lia|]. left. auto.
        -- apply F. exists v. apply first_block_split; [lia|]. right. eauto.
Qed.

Fixpoint hit_count (m : nat) : Z :=
  match m with O => 0 | S m' => (2 ^ 256) ^ Z.of_nat m' + bad_blocks * hit_count m' end.

Lemma hit_count_closed m : good_blocks * hit_count m = (2 ^ 256) ^ Z.of_nat m - bad_blocks ^ Z.of_nat m.
Proof.
  induction m as [|m IH]; [cbn; ring|].
  rewrite Nat2Z.inj_succ, !Z.pow_succ_r by lia. cbn [hit_count]. rewrite Z.mul_add_distr_l.
  replace (good_blocks * (bad_blocks * hit_count m)) with (bad_blocks * (good_blocks * hit_count m)) by ring.
  rewrite IH. replace good_blocks with (2 ^ 256 - bad_blocks) by (unfold bad_blocks; ring). ring.
Qed.

Lemma pow_split m r : 256 ^ Z.of_nat (32 * m + r) = (2 ^ 256) ^ Z.of_nat m * 256 ^ Z.of_nat r.
Proof.
  rewrite Nat2Z.inj_add, Z.pow_add_r, Nat2Z.inj_mul, Z.pow_mul_r, pow_256_32 by lia. reflexivity.
Qed.

Lemma counted_hit v m r : gen_range v -> (r < 32)%nat ->
  counted (32 * m + r) (fun rd => exists rest, first_block 32 gen_range rd v rest)
    (hit_count m * 256 ^ Z.of_nat r).
Proof.
  intros Gv Hr. induction m as [|m IH].
  - exists []. split; [constructor|]. split; [|reflexivity]. intros rd. split; [intros []|].
    intros [Hl [rest K]]. apply (no_block_short rd v rest ltac:(lia) K).
  - replace (32 * S m + r)%nat with (32 + (32 * m + r))%nat by lia.
    replace (hit_count (S m) * 256 ^ Z.of_nat r)
      with ((v + 1 - v) * 256 ^ Z.of_nat (32 * m + r) + bad_blocks * (hit_count m * 256 ^ Z.of_nat r))
      by (rewrite pow_split; cbn [hit_count]; ring).
    pose proof good_range as G. assert (Hv : 0 <= v <= v + 1 /\ v + 1 <= 2 ^ 256) by (unfold gen_range in Gv; lia).
    eapply counted_ext; [|apply counted_or;
      [|apply (counted_prod 32 (32 * m + r)); [apply (counted_interval 32 v (v + 1)); rewrite ?pow_256_32; lia|apply counted_all]
       |apply (counted_prod 32 (32 * m + r)); [apply counted_bad|exact IH]]].
    + intros rd Hl. cbn beta. rewrite (first_block_split rd v) by lia. split.
      * intros [[K _]|K]; [left|right; exact K]. assert (bytes_number (firstn 32 rd) = v) as -> by lia. auto.
      * intros [[_ ->]|K]; [left|right; exact K]. split; [lia|trivial].
    + intros rd Hl [K _] [B _]. assert (bytes_number (firstn 32 rd) = v) as E by lia. rewrite E in B. contradiction.
Qed.

Lemma generate_failure_count n bs m r S c : hex_text (PrivKeyPrefix n) bs -> (r < 32)%nat ->
  all_streams (32 * m + r) S ->
  holds_for (fun rd => exists e, GeneratePrivateKey (Some n) rd = Panic e) S c ->
  Z.of_nat c = (2 ^ 256 - (secp_N - 1 - 2 ^ 252)) ^ Z.of_nat m * 256 ^ Z.of_nat r.
Proof.
  intros Hn Hr HS H. apply (holds_for_counted _ _ _ _ HS) in H.
  apply (counted_fun _ _ _ _ H). eapply counted_ext; [|apply (counted_fail m r Hr)].
  intros rd _. cbn beta. pose proof (generate_outcomes (Some n) rd) as [H1 H2]. split.
  - intros F. rewrite (H2 F). eauto.
  - intros [e E] K. destruct (proj1 (H1 K) (ex_intro _ bs Hn)) as (k & rest & E'). congruence.
Qed.

Lemma generate_hit_count n bs v m r S c : hex_text (PrivKeyPrefix n) bs -> (r < 32)%nat ->
  2 ^ 252 <= v <= secp_N - 2 -> all_streams (32 * m + r) S ->
  holds_for (fun rd => exists k rest, GeneratePrivateKey (Some n) rd = Ret (k, rest) /\ Key k = Some v) S c ->
  (secp_N - 1 - 2 ^ 252) * Z.of_nat c =
  ((2 ^ 256) ^ Z.of_nat m - (2 ^ 256 - (secp_N - 1 - 2 ^ 252)) ^ Z.of_nat m) * 256 ^ Z.of_nat r.
Proof.
  intros Hn Hr Gv HS H. apply (holds_for_counted _ _ _ _ HS) in H.
  assert (Z.of_nat c = hit_count m * 256 ^ Z.of_nat r) as ->.
  { apply (counted_fun _ _ _ _ H). eapply counted_ext; [|apply (counted_hit v m r Gv Hr)].
    intros rd _. symmetry. apply (generates_iff n bs v rd Hn). }
  fold good_blocks. fold bad_blocks. rewrite Z.mul_assoc, hit_count_closed. reflexivity.
Qed.

(** ** Phrases *)

Lemma counted_prefix e L : counted (length e + L) (fun rd => firstn (length e) rd = e) (256 ^ Z.of_nat L).
Proof.
  replace (256 ^ Z.of_nat L) with (1 * 256 ^ Z.of_nat L) by ring.
  eapply counted_ext; [|apply (counted_prod (length e) L (fun b => b = e) (fun _ => True)); [|apply counted_all]].
  - intros rd _. cbn beta. tauto.
  - exists [e]. split; [repeat constructor; intros []|]. split; [|reflexivity].
    intros rd. cbn. split; [intros [<-|[]]; auto|intros [_ ->]; auto].
Qed.

Lemma mnemonic_count k l L S s c : (4 <= k <= 8)%nat ->
  NoDup (firstn 2048 l) -> Forall (fun w => ~ In x20 w) (firstn 2048 l) ->
  all_streams (4 * k + L) S ->
  holds_for (fun rd => NewMnemonic (Z.of_nat (3 * k)) (Some l) rd = Ret (Ok s)) S c ->
  c = 0%nat \/ Z.of_nat c = 256 ^ Z.of_nat L.
Proof.
  intros Hk Hd Hs HS H. pose proof H as (T & _ & HT & Lc).
  destruct T as [|rd0 T]; [left; symmetry; exact Lc|right]. clear Lc.
  destruct (proj1 (HT rd0) (or_introl eq_refl)) as [Hin H0]. apply HS in Hin. clear HT.
  apply (holds_for_counted _ _ _ _ HS) in H. apply (counted_fun _ _ _ _ H).
  assert (Le : length (firstn (4 * k) rd0) = (4 * k)%nat) by (rewrite firstn_length; lia).
  pose proof (counted_prefix (firstn (4 * k) rd0) L) as C. rewrite Le in C. revert C.
  apply counted_ext. intros rd Hl.
  assert (Lr : length (firstn (4 * k) rd) = (4 * k)%nat) by (rewrite firstn_length; lia).
  rewrite <- (firstn_skipn (4 * k) rd0) in H0. split.
  - intros E. rewrite <- (firstn_skipn (4 * k) rd), E.
    rewrite (NewMnemonic_prefix k l _ _ (skipn (4 * k) rd0) Hk Le). exact H0.
  - intros E. rewrite <- (firstn_skipn (4 * k) rd) in E.
    apply (NewMnemonic_injective k l _ _ _ _ s Hk Hd Hs Lr Le E H0).
Qed.

(** ** Several keys in a row *)

Fixpoint blocks_give (vs : list Z) (rd : list byte) : Prop :=
  match vs with
  | [] => True
  | v :: vs' => exists rest, first_block 32 gen_range rd v rest /\ blocks_give vs' rest
  end.

Lemma draw_iff n bs vs : hex_text (PrivKeyPrefix n) bs -> forall rd,
  (exists ks rest, draw (GeneratePrivateKey (Some n)) (length vs) rd = Ret (ks, rest) /\ map Key ks = map Some vs)
  <-> blocks_give vs rd.
Proof.
  intros Hn. induction vs as [|v vs IH]; intros rd; cbn [length draw blocks_give].
  - split; [trivial|]. intros _. exists [], rd. auto.
  - pose proof (GeneratePrivateKey_spec n bs rd Hn) as G. split.
    + intros (ks & rest & E & K). destruct (GeneratePrivateKey (Some n) rd) as [[k rd']|p]; [|discriminate].
      cbn [bind] in E. destruct (draw _ _ rd') as [[ks' rest']|p] eqn:D; [|discriminate].
      injection E as <- <-. cbn [map] in K. injection K as K1 K2. destruct G as (v' & G & Gk & _).
      exists rd'. split; [congruence|]. apply IH. eauto.
    + intros (rest & F & B). apply IH in B as (ks & rest' & D & K).
      destruct (GeneratePrivateKey (Some n) rd) as [[k rd']|p].
      * destruct G as (v' & G & Gk & _). destruct (first_block_fun _ _ _ _ _ _ _ F G) as [-> ->].
        cbn [bind]. rewrite D. cbn [bind]. exists (k :: ks), rest'. split; [reflexivity|]. cbn [map]. congruence.
      * destruct G as [_ G]. exfalso. apply (G _ _ F).
Qed.

Lemma blocks_give_split v vs rd : (32 <= length rd)%nat ->
  (blocks_give (v :: vs) rd <->
   (v <= bytes_number (firstn 32 rd) < v + 1 /\ gen_range v) /\ blocks_give vs (skipn 32 rd) \/
   ~ gen_range (bytes_number (firstn 32 rd)) /\ blocks_give (v :: vs) (skipn 32 rd)).
Proof.
  intros Hl. cbn [blocks_give]. split.
  - intros (rest & K & B). inversion K as [b r Hb G|b r v' r' Hb G K']; subst;
      rewrite firstn_app, skipn_app, firstn_all2, skipn_all2, Hb, Nat.sub_diag by lia;
      cbn [firstn skipn app]; rewrite app_nil_r; [left|right; eauto].
    split; [split; [lia|exact G]|exact B].
  - assert (L1 : length (firstn 32 rd) = 32%nat) by (rewrite firstn_length; lia).
    intros [[[V G] B]|[G (rest & K & B)]].
    + exists (skipn 32 rd). split; [|exact B]. assert (v = bytes_number (firstn 32 rd)) as E by lia.
      rewrite E in G |- *. rewrite <- (firstn_skipn 32 rd) at 1. apply first_here; assumption.
    + exists rest. split; [|exact B]. rewrite <- (firstn_skipn 32 rd). apply first_skip; assumption.
Qed.

Fixpoint draw_count (m j : nat) : Z :=
  match m, j with
  | _, O => (2 ^ 256) ^ Z.of_nat m
  | O, S _ => 0
  | S m', S j' => draw_count m' j' + bad_blocks * draw_count m' j
  end.

Lemma counted_draw m r : (r < 32)%nat -> forall vs, Forall gen_range vs ->
  counted (32 * m + r) (blocks_give vs) (draw_count m (length vs) * 256 ^ Z.of_nat r).
Proof.
  intros Hr. induction m as [|m IH]; intros vs Hv.
  - destruct vs as [|v vs]; cbn [length draw_count].
    + rewrite <- pow_split. apply counted_all.
    + exists []. split; [constructor|]. split; [|reflexivity]. intros rd. split; [intros []|].
      intros [Hl (rest & K & _)]. apply (no_block_short rd v rest ltac:(lia) K).
  - destruct vs as [|v vs]; cbn [length draw_count].
    + rewrite <- pow_split. apply counted_all.
    + inversion Hv as [|v' vs' Gv Gvs]; subst.
      pose proof good_range as G. assert (Hv' : 0 <= v <= v + 1 /\ v + 1 <= 2 ^ 256) by (unfold gen_range in Gv; lia).
      replace (32 * S m + r)%nat with (32 + (32 * m + r))%nat by lia.
      replace ((draw_count m (length vs) + bad_blocks * draw_count m (S (length vs))) * 256 ^ Z.of_nat r)
        with ((v + 1 - v) * (draw_count m (length vs) * 256 ^ Z.of_nat r) +
              bad_blocks * (draw_count m (length (v :: vs)) * 256 ^ Z.of_nat r)) by (cbn [length]; ring).
      eapply counted_ext; [|apply counted_or;
        [|apply (counted_prod 32 (32 * m + r)); [apply (counted_interval 32 v (v + 1)); rewrite ?pow_256_32; lia|apply IH, Gvs]
         |apply (counted_prod 32 (32 * m + r)); [apply counted_bad|apply (IH (v :: vs) Hv)]]].
      * intros rd Hl. rewrite blocks_give_split by lia. cbn beta. tauto.
      * intros rd Hl [K _] [B _]. assert (bytes_number (firstn 32 rd) = v) as E by lia. rewrite E in B. contradiction.
Qed.

Lemma sequences_not_favoured n bs L S vs ws c d : hex_text (PrivKeyPrefix n) bs -> all_streams L S ->
  length vs = length ws ->
  Forall (fun v => 2 ^ 252 <= v <= secp_N - 2) vs -> Forall (fun v => 2 ^ 252 <= v <= secp_N - 2) ws ->
  holds_for (fun rd => exists ks rest,
    draw (GeneratePrivateKey (Some n)) (length vs) rd = Ret (ks, rest) /\ map Key ks = map Some vs) S c ->
  holds_for (fun rd => exists ks rest,
    draw (GeneratePrivateKey (Some n)) (length ws) rd = Ret (ks, rest) /\ map Key ks = map Some ws) S d ->
  c = d.
Proof.
  intros Hn HS Hl Hv Hw H1 H2. apply Nat2Z.inj.
  apply (holds_for_counted _ _ _ _ HS) in H1. apply (holds_for_counted _ _ _ _ HS) in H2.
  pose proof (Nat.div_mod L 32 ltac:(lia)) as D. pose proof (Nat.mod_upper_bound L 32 ltac:(lia)) as R.
  transitivity (draw_count (L / 32) (length vs) * 256 ^ Z.of_nat (L mod 32)).
  - apply (counted_fun _ _ _ _ H1). eapply counted_ext; [|rewrite D at 1; apply (counted_draw _ _ R vs Hv)].
    intros rd _. symmetry. apply (draw_iff n bs vs Hn rd).
  - rewrite Hl. apply (counted_fun L (blocks_give ws)).
    + rewrite D at 1. apply (counted_draw _ _ R ws Hw).
    + eapply counted_ext; [|exact H2]. intros rd _. apply (draw_iff n bs ws Hn rd).
Qed.

(** The keys drawn one after the other are the usable blocks in order. *)
Lemma draw_length n j rd ks rest : draw (GeneratePrivateKey (Some n)) j rd = Ret (ks, rest) -> length ks = j.
Proof.
  revert rd ks rest; induction j as [|j IH]; intros rd ks rest; cbn [draw].
  - intros E. injection E as <- <-. reflexivity.
  - destruct (GeneratePrivateKey (Some n) rd) as [[k rd']|p]; [|discriminate]. cbn [bind].
    destruct (draw _ j rd') as [[ks' r']|p] eqn:D; [|discriminate]. cbn [bind]. intros E. injection E as <- <-.
    cbn [length]. f_equal. apply (IH _ _ _ D).
Qed.

(** ** Accepted phrases *)

Lemma related_list {A B} (R : A -> B -> Prop) (D : list A) : NoDup D -> (forall a, In a D -> exists b, R a b) ->
  (forall a a' b, In a D -> In a' D -> R a b -> R a' b -> a = a') ->
  exists T, NoDup T /\ length T = length D /\ (forall b, In b T -> exists a, In a D /\ R a b) /\
    (forall a, In a D -> exists b, R a b /\ In b T).
Proof.
  intros HD. induction HD as [|a D Ha HD IH]; intros Hex Hinj.
  - exists []. split; [constructor|]. split; [reflexivity|]. split; [intros b []|intros a []].
  - destruct IH as (T & T1 & T2 & T3 & T4).
    { intros a' H. apply Hex. right. exact H. }
    { intros x y b Hx Hy. apply Hinj; right; assumption. }
    destruct (Hex a (or_introl eq_refl)) as [b Hb]. exists (b :: T). split; [|split; [|split]].
    + constructor; [|exact T1]. intros Hin. destruct (T3 b Hin) as (a' & Ha' & Hb').
      assert (a = a') as <- by (apply (Hinj a a' b); [left; reflexivity|right; exact Ha'|assumption..]). contradiction.
    + cbn. congruence.
    + intros b' [<-|Hb']; [exists a; split; [left; reflexivity|exact Hb]|].
      destruct (T3 b' Hb') as (a' & Ha' & K). exists a'. split; [right; exact Ha'|exact K].
    + intros a' [<-|Ha']; [exists b; split; [exact Hb|left; reflexivity]|].
      destruct (T4 a' Ha') as (b' & K & Hb'). exists b'. split; [exact K|right; exact Hb'].
Qed.

Lemma phrase_bits_exist l n B : (2048 <= length l)%nat -> length B = (11 * n)%nat ->
  exists ws, phrase_bits l ws B /\ length ws = n.
Proof.
  intros Hl HB. destruct (chunk_indices_bits n B HB) as [E F].
  assert (exists ws, Forall2 (fun w i => (i < 2048)%nat /\ nth_error l i = Some w) ws (chunk_indices n B)) as [ws Hws].
  { clear - F Hl. induction F as [|i is Hi _ [ws IH]]; [exists []; constructor|].
    destruct (nth_error l i) as [w|] eqn:Ew; [|apply nth_error_None in Ew; lia].
    exists (w :: ws). constructor; auto. }
  exists ws. split; [exists (chunk_indices n B); auto|].
  rewrite <- (chunk_indices_length n B). apply (Forall2_length _ _ _ Hws).
Qed.

Lemma phrase_bits_words_fun l ws ws' B : phrase_bits l ws B -> phrase_bits l ws' B -> ws = ws'.
Proof.
  intros (is & H & ->) (js & K & E).
  assert (F1 : Forall (fun i => (i < 2048)%nat) is) by (clear - H; induction H as [|w i ws is [Hi _] _ IH]; constructor; auto).
  assert (F2 : Forall (fun i => (i < 2048)%nat) js) by (clear - K; induction K as [|w i ws is [Hi _] _ IH]; constructor; auto).
  assert (length is = length js) as El.
  { apply (f_equal (@length bool)) in E.
    assert (forall is, length (flat_map index_bits is) = (11 * length is)%nat) as LL.
    { clear. induction is as [|i is IH]; [reflexivity|]. cbn [flat_map length]. rewrite app_length, index_bits_length, IH. lia. }
    rewrite !LL in E. lia. }
  assert (is = js) as <- by (rewrite <- (chunk_indices_flat is F1), <- (chunk_indices_flat js F2), El, E; reflexivity).
  clear - H K. revert ws' K; induction H as [|w i ws is [_ Hw] _ IH]; intros ws' K; inversion K as [|w' i' ws'' is' [_ Hw'] K']; subst; [reflexivity|].
  f_equal; [congruence|]. apply IH, K'.
Qed.

Lemma phrase_bits_fun l ws B B' : NoDup l -> phrase_bits l ws B -> phrase_bits l ws B' -> B = B'.
Proof.
  intros Hd (is & H & ->) (js & K & ->). f_equal. revert js K; induction H as [|w i ws is [_ Hw] _ IH]; intros js K;
    inversion K as [|w' j ws' js' [_ Hj] K']; subst; [reflexivity|].
  f_equal; [|apply IH, K']. apply (proj1 (NoDup_nth_error l) Hd); [apply nth_error_Some; congruence|congruence].
Qed.

Lemma spaced_exists ws : ws <> [] -> Forall (fun w => ~ In x20 w) ws -> exists m, spaced ws m.
Proof.
  intros Hne H. induction H as [|w ws Hw H IH]; [congruence|]. destruct ws as [|w' ws].
  - exists w. constructor. exact Hw.
  - destruct IH as [m Hm]; [discriminate|]. exists (w ++ x20 :: m). constructor; assumption.
Qed.

Lemma bits_inj a b : length a = length b -> bits a = bits b -> a = b.
Proof. intros L E. apply bytes_number_inj; [exact L|]. rewrite <- !bits_val, E. reflexivity. Qed.

Local Opaque sha256.
Lemma accepted_count k l p S c : (0 < k)%nat -> proper_list l -> all_phrases l (8 * k) S ->
  holds_for (fun ws => exists m, spaced ws m /\
    exists log r, NewSeedFromMnemonic m p (Some l) = (log, Ret (Ok r))) S c ->
  256 * Z.of_nat c = 2048 ^ Z.of_nat (8 * k).
Proof.
  intros Hk (Ll & Hd & Hw) [HS HS'] H.
  set (R := fun d ws => exists ch, hd_error (sha256 d) = Some ch /\ phrase_bits l ws (bits (d ++ [ch]))).
  destruct (related_list R (streams (11 * k - 1))) as (T & T1 & T2 & T3 & T4).
  - apply streams_all.
  - intros d Hin. apply (proj2 (streams_all _)) in Hin. pose proof (sha256_length d) as Ls.
    destruct (sha256 d) as [|ch h] eqn:Es; [discriminate|].
    destruct (phrase_bits_exist l (8 * k) (bits (d ++ [ch]))) as (ws & Hp & _);
      [lia|rewrite bits_length, app_length; cbn [length]; lia|].
    exists ws, ch. rewrite Es. auto.
  - intros d d' ws H1 H2 (c1 & E1 & P1) (c2 & E2 & P2). apply (proj2 (streams_all _)) in H1, H2.
    pose proof (phrase_bits_fun l ws _ _ Hd P1 P2) as E. apply bits_inj in E; [|rewrite !app_length; cbn [length]; lia].
    apply app_inj_1 in E as [E _]; [exact E|congruence].
  - assert (c = length T) as ->.
    { apply (holds_for_fun _ _ _ _ H). exists T. split; [exact T1|]. split; [|reflexivity]. intros ws. split.
      - intros Hin. destruct (T3 ws Hin) as (d & Hd' & ch & Ec & Hp). apply (proj2 (streams_all _)) in Hd'.
        pose proof (phrase_bits_length _ _ _ Hp) as Lw. rewrite bits_length, app_length in Lw. cbn [length] in Lw.
        assert (Lws : length ws = (8 * k)%nat) by lia.
        assert (Fin : Forall (fun w => In w l) ws).
        { destruct Hp as (is & Hf & _). clear - Hf. induction Hf as [|w i ws is [_ Hi] _ IH]; constructor; [|exact IH].
          apply nth_error_In in Hi. exact Hi. }
        split; [apply HS'; auto|].
        assert (Fsp : Forall (fun w => ~ In x20 w) ws).
        { rewrite Forall_forall in Fin |- *. rewrite Forall_forall in Hw. intros w Hin'. apply Hw, Fin, Hin'. }
        destruct (spaced_exists ws) as [m Hm]; [intros ->; cbn in Lws; lia|exact Fsp|].
        exists m. split; [exact Hm|]. apply (NewSeed_accepts_iff m p l Hd ltac:(lia)). exists ws, d, ch. auto.
      - intros [Hin (m & Hm & Hacc)]. apply HS' in Hin as [Lws _].
        apply (NewSeed_accepts_iff m p l Hd ltac:(lia)) in Hacc as (ws' & d & ch & Hm' & Hp & Hc).
        pose proof (spaced_fun _ _ _ Hm Hm') as <-.
        pose proof (phrase_bits_length _ _ _ Hp) as Lw. rewrite bits_length, app_length, Lws in Lw. cbn [length] in Lw.
        destruct (T4 d) as (ws' & (ch' & Hc' & Hp') & Hin'); [apply streams_all; lia|].
        assert (ch = ch') as <- by congruence. rewrite (phrase_bits_words_fun l ws ws' _ Hp Hp'). exact Hin'. }
    rewrite T2. destruct (counted_all (11 * k - 1)) as (U & U1 & U2 & U3).
    assert (length (streams (11 * k - 1)) = length U) as ->.
    { apply Permutation_length, NoDup_Permutation; [apply streams_all|exact U1|].
      intros d. rewrite (proj2 (streams_all _)), U2. tauto. }
    rewrite U3. rewrite <- Z.pow_succ_r by lia. change 2048 with (2 ^ 11). change 256 with (2 ^ 8).
    rewrite <- !Z.pow_mul_r by lia. f_equal. lia.
Qed.

(** The number of streams, and the vanishing share of failures. *)
Lemma all_streams_length L S : all_streams L S -> Z.of_nat (length S) = 256 ^ Z.of_nat L.
Proof.
  intros [H1 H2]. apply (counted_fun L (fun _ => True)); [|apply counted_all].
  exists S. split; [exact H1|]. split; [|reflexivity]. intros rd. rewrite H2. tauto.
Qed.

Lemma fifteen_bad : 0 <= bad_blocks /\ 15 * bad_blocks <= 2 ^ 256.
Proof. Local Transparent secp_N. unfold bad_blocks, good_blocks, secp_N. lia. Qed.
Local Opaque secp_N.

Lemma generate_failures_vanish n bs m r S c : hex_text (PrivKeyPrefix n) bs -> (r < 32)%nat ->
  all_streams (32 * m + r) S ->
  holds_for (fun rd => exists e, GeneratePrivateKey (Some n) rd = Panic e) S c ->
  15 ^ Z.of_nat m * Z.of_nat c <= Z.of_nat (length S).
Proof.
  intros Hn Hr HS H. rewrite (generate_failure_count n bs m r S c Hn Hr HS H), (all_streams_length _ _ HS), pow_split.
  fold good_blocks. fold bad_blocks. rewrite Z.mul_assoc, <- Z.pow_mul_l.
  apply Z.mul_le_mono_nonneg_r; [apply Z.pow_nonneg; lia|]. apply Z.pow_le_mono_l. pose proof fifteen_bad. lia.
Qed.

(** Word sequences can be listed. *)
Fixpoint phrases (l : list gostring) (n : nat) : list (list gostring) :=
  match n with O => [[]] | S m => flat_map (fun w => map (cons w) (phrases l m)) (nodup (list_eq_dec Byte.byte_eq_dec) l) end.
Lemma all_phrases_exist l n : exists S, all_phrases l n S.
Proof.
  exists (phrases l n). induction n as [|n [IH1 IH2]]; cbn [phrases].
  - split; [repeat constructor; auto|]. intros [|w ws]; cbn; split; intuition (try discriminate; auto).
  - split.
    + generalize (NoDup_nodup (list_eq_dec Byte.byte_eq_dec) l). generalize (nodup (list_eq_dec Byte.byte_eq_dec) l).
      induction 1 as [|w k Hw Hk IH]; cbn [flat_map]; [constructor|]. apply NoDup_app'; [|assumption|].
      * apply FinFun.Injective_map_NoDup; [|assumption]. intros x y E. congruence.
      * intros x Hx K. apply in_map_iff in Hx as (x' & <- & _). apply in_flat_map in K as (w' & Hw' & K).
        apply in_map_iff in K as (y & E & _). injection E as -> ->. contradiction.
    + intros ws. rewrite in_flat_map. split.
      * intros (w & Hw & K). apply nodup_In in Hw. apply in_map_iff in K as (x & <- & K). apply IH2 in K as [K1 K2].
        cbn. split; [congruence|]. constructor; assumption.
      * destruct ws as [|w ws]; [intros [E _]; discriminate|]. intros [E F]. injection E as E. inversion F; subst.
        exists w. split; [apply nodup_In; assumption|]. apply in_map, IH2. auto.
Qed.
