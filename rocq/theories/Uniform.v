(** * No generated key is favoured; every outcome of key generation *)

From Coq Require Import Permutation.
From Verif Require Import GoBase NumFacts GoNum GoRand Model Spec SpecMore SpecFacts GenFacts.
Local Open Scope Z_scope.

(** ** Exchanging two block values in a stream *)

Section Swap.
Context (bv bw : list byte) (Hv : length bv = 32%nat) (Hw : length bw = 32%nat) (Hne : bytes_number bv <> bytes_number bw).
Let v := bytes_number bv.
Let w := bytes_number bw.

Definition swap_block (b : list byte) : list byte :=
  if bytes_number b =? v then bw else if bytes_number b =? w then bv else b.

Fixpoint swap_blocks (fuel : nat) (rd : list byte) : list byte :=
  match fuel with
  | O => rd
  | S f => if (length rd <? 32)%nat then rd
           else swap_block (firstn 32 rd) ++ swap_blocks f (skipn 32 rd)
  end.

Lemma swap_block_length b : length b = 32%nat -> length (swap_block b) = 32%nat.
Proof. intros H. unfold swap_block. destruct (_ =? _); [exact Hw|]. destruct (_ =? _); assumption. Qed.

Lemma swap_block_twice b : length b = 32%nat -> swap_block (swap_block b) = b.
Proof.
  intros H. unfold swap_block at 2. destruct (Z.eqb_spec (bytes_number b) v) as [E|E].
  - unfold swap_block. fold w. destruct (Z.eqb_spec w v); [exfalso; apply Hne; symmetry; assumption|].
    rewrite Z.eqb_refl. apply bytes_number_inj; [congruence|symmetry; exact E].
  - destruct (Z.eqb_spec (bytes_number b) w) as [E'|E'].
    + unfold swap_block. fold v. rewrite Z.eqb_refl. apply bytes_number_inj; [congruence|symmetry; exact E'].
    + unfold swap_block. destruct (Z.eqb_spec (bytes_number b) v); [contradiction|].
      destruct (Z.eqb_spec (bytes_number b) w); [contradiction|reflexivity].
Qed.

Lemma swap_blocks_length f rd : length (swap_blocks f rd) = length rd.
Proof.
  revert rd. induction f as [|f IH]; intros rd; cbn [swap_blocks]; [reflexivity|].
  destruct (Nat.ltb_spec (length rd) 32); [reflexivity|].
  rewrite app_length, swap_block_length, IH, skipn_length by (rewrite firstn_length; lia). lia.
Qed.

Lemma swap_blocks_twice f rd : swap_blocks f (swap_blocks f rd) = rd.
Proof.
  revert rd. induction f as [|f IH]; intros rd; [reflexivity|]. cbn [swap_blocks].
  destruct (Nat.ltb_spec (length rd) 32) as [H|H].
  - destruct (Nat.ltb_spec (length rd) 32); [reflexivity|lia].
  - assert (H1 : length (firstn 32 rd) = 32%nat) by (rewrite firstn_length; lia).
    pose proof (swap_block_length _ H1) as H2.
    destruct (Nat.ltb_spec (length (swap_block (firstn 32 rd) ++ swap_blocks f (skipn 32 rd))) 32) as [K|K];
      [rewrite app_length in K; lia|].
    rewrite firstn_app, skipn_app, H2, Nat.sub_diag, firstn_O, skipn_O, app_nil_r.
    rewrite firstn_all2, skipn_all2 by lia. cbn [app].
    rewrite swap_block_twice, IH by assumption. apply firstn_skipn.
Qed.

Lemma swap_first_block (good : Z -> Prop) rd z rest : good v -> good w -> first_block 32 good rd z rest ->
  forall f, (length rd <= f)%nat ->
  exists rest', first_block 32 good (swap_blocks f rd) (if z =? v then w else if z =? w then v else z) rest'.
Proof.
  intros Gv Gw. induction 1 as [b rest Hl Hg|b rd z rest Hl Hg H IH]; intros f Hf; rewrite app_length in Hf.
  - destruct f as [|f]; [lia|]. cbn [swap_blocks].
    destruct (Nat.ltb_spec (length (b ++ rest)) 32) as [K|K]; [rewrite app_length in K; lia|].
    rewrite firstn_app, Hl, Nat.sub_diag, firstn_O, app_nil_r, firstn_all2 by lia.
    exists (swap_blocks f (skipn 32 (b ++ rest))). unfold swap_block.
    destruct (_ =? v); [apply first_here; assumption|]. destruct (_ =? w); apply first_here; assumption.
  - destruct f as [|f]; [lia|]. cbn [swap_blocks].
    destruct (Nat.ltb_spec (length (b ++ rd)) 32) as [K|K]; [rewrite app_length in K; lia|].
    rewrite firstn_app, skipn_app, Hl, Nat.sub_diag, firstn_O, skipn_O, app_nil_r, firstn_all2, skipn_all2 by lia.
    cbn [app]. destruct (IH f ltac:(lia)) as [rest' E]. exists rest'.
    assert (swap_block b = b) as ->.
    { unfold swap_block. destruct (Z.eqb_spec (bytes_number b) v); [rewrite e in Hg; contradiction|].
      destruct (Z.eqb_spec (bytes_number b) w); [rewrite e in Hg; contradiction|reflexivity]. }
    apply first_skip; assumption.
Qed.
End Swap.

(** ** Counting *)

Lemma holds_for_fun {A} (f : A -> Prop) S n m : holds_for f S n -> holds_for f S m -> n = m.
Proof.
  intros (T & H1 & H2 & <-) (U & H3 & H4 & <-). apply Permutation_length, NoDup_Permutation; try assumption.
  intros a. rewrite H2, H4. reflexivity.
Qed.

Lemma holds_for_exists {A} (f : A -> Prop) S : NoDup S -> (forall a, f a \/ ~ f a) -> exists n, holds_for f S n.
Proof.
  intros HS Hf. enough (exists T, NoDup T /\ forall a, In a T <-> In a S /\ f a) as (T & H1 & H2)
    by (exists (length T), T; auto).
  induction HS as [|x S Hx HS (T & H1 & H2)].
  - exists []. split; [constructor|]. cbn. tauto.
  - destruct (Hf x) as [Hx'|Hx'].
    + exists (x :: T). split; [constructor; [rewrite H2; tauto|assumption]|].
      intros a. cbn. rewrite H2. split; intros K; intuition (subst; auto).
    + exists T. split; [assumption|]. intros a. cbn. rewrite H2. split; intros K; intuition (subst; tauto).
Qed.

Lemma holds_for_bijection {A} (f g : A -> Prop) S n (t : A -> A) :
  (forall a, In a S -> In (t a) S) -> (forall a, t (t a) = a) ->
  (forall a, In a S -> f a -> g (t a)) -> (forall a, In a S -> g a -> f (t a)) ->
  holds_for f S n -> holds_for g S n.
Proof.
  intros HS Ht Hfg Hgf (T & H1 & H2 & <-). exists (map t T). split; [|split].
  - apply FinFun.Injective_map_NoDup; [|assumption]. intros a b E. rewrite <- (Ht a), <- (Ht b), E. reflexivity.
  - intros a. rewrite in_map_iff. split.
    + intros (b & <- & Hb). apply H2 in Hb as [Hb Hf]. split; [apply HS, Hb|apply Hfg; assumption].
    + intros [Ha Hg]. exists (t a). split; [apply Ht|]. apply H2. split; [apply HS, Ha|apply Hgf; assumption].
  - apply map_length.
Qed.

(** ** Key generation *)

(** The stream [rd] makes GeneratePrivateKey return the number [v]. *)
Definition generates (n : network) (v : Z) (rd : list byte) : Prop :=
  exists k rest, GeneratePrivateKey (Some n) rd = Ret (k, rest) /\ Key k = Some v.

Lemma generates_iff n bs v rd : hex_text (PrivKeyPrefix n) bs ->
  generates n v rd <-> exists rest, first_block 32 gen_range rd v rest.
Proof.
  intros Hn. pose proof (GeneratePrivateKey_spec n bs rd Hn) as H. unfold generates. split.
  - intros (k & rest & E & Ek). rewrite E in H. destruct H as (v' & H & Ek' & _). exists rest.
    rewrite Ek in Ek'. injection Ek' as ->. exact H.
  - intros [rest Hr]. destruct (GeneratePrivateKey (Some n) rd) as [[k rest']|p].
    + destruct H as (v' & H & Ek & _). exists k, rest'. split; [reflexivity|].
      destruct (first_block_fun _ _ _ _ _ _ _ Hr H) as [-> _]. exact Ek.
    + destruct H as [_ H]. exfalso. apply (H _ _ Hr).
Qed.

Lemma generates_dec n v rd : generates n v rd \/ ~ generates n v rd.
Proof.
  unfold generates. destruct (GeneratePrivateKey (Some n) rd) as [[k rest]|p].
  - destruct (Key k) as [z|] eqn:Ek; [destruct (Z.eq_dec z v) as [->|Hne]|].
    + left. eauto.
    + right. intros (k' & r' & E & E'). injection E as <- <-. congruence.
    + right. intros (k' & r' & E & E'). injection E as <- <-. congruence.
  - right. intros (k' & r' & E & E'). discriminate.
Qed.

Lemma generates_swap n bs bv bw L v w rd : hex_text (PrivKeyPrefix n) bs ->
  octets 32 v bv -> octets 32 w bw -> v <> w -> gen_range v -> gen_range w -> length rd = L ->
  generates n v rd -> generates n w (swap_blocks bv bw L rd).
Proof.
  intros Hn [Lv Vv] [Lw Vw] Hne Gv Gw HL H. subst v w.
  apply (generates_iff n bs _ _ Hn) in H as [rest H]. apply (generates_iff n bs _ _ Hn).
  destruct (swap_first_block bv bw Lv Lw gen_range rd _ rest Gv Gw H L ltac:(lia)) as [rest' K].
  rewrite Z.eqb_refl in K. eauto.
Qed.

Lemma generates_swap' n bs bv bw L v w rd : hex_text (PrivKeyPrefix n) bs ->
  octets 32 v bv -> octets 32 w bw -> v <> w -> gen_range v -> gen_range w -> length rd = L ->
  generates n w rd -> generates n v (swap_blocks bv bw L rd).
Proof.
  intros Hn [Lv Vv] [Lw Vw] Hne Gv Gw HL H. subst v w.
  apply (generates_iff n bs _ _ Hn) in H as [rest H]. apply (generates_iff n bs _ _ Hn).
  destruct (swap_first_block bv bw Lv Lw gen_range rd _ rest Gv Gw H L ltac:(lia)) as [rest' K].
  destruct (Z.eqb_spec (bytes_number bw) (bytes_number bv)); [congruence|].
  rewrite Z.eqb_refl in K. eauto.
Qed.

Lemma no_key_favoured n bs L S v w c d : hex_text (PrivKeyPrefix n) bs -> all_streams L S ->
  2 ^ 252 <= v <= secp_N - 2 -> 2 ^ 252 <= w <= secp_N - 2 ->
  holds_for (fun rd => exists k rest, GeneratePrivateKey (Some n) rd = Ret (k, rest) /\ Key k = Some v) S c ->
  holds_for (fun rd => exists k rest, GeneratePrivateKey (Some n) rd = Ret (k, rest) /\ Key k = Some w) S d ->
  c = d.
Proof.
  intros Hn [HS HL] Gv Gw Hc Hd. destruct (Z.eq_dec v w) as [->|Hne]; [apply (holds_for_fun _ _ _ _ Hc Hd)|].
  destruct (octets_exist 32 v) as [bv Ov]; [change (256 ^ Z.of_nat 32) with (2 ^ 256); change secp_N with 0xFFFFFFFFFFFFFFFFFFFFFFFFFFFFFFFEBAAEDCE6AF48A03BBFD25E8CD0364141 in *; lia|].
  destruct (octets_exist 32 w) as [bw Ow]; [change (256 ^ Z.of_nat 32) with (2 ^ 256); change secp_N with 0xFFFFFFFFFFFFFFFFFFFFFFFFFFFFFFFEBAAEDCE6AF48A03BBFD25E8CD0364141 in *; lia|].
  apply (holds_for_fun (generates n w) S); [|exact Hd].
  destruct Ov as [Lv Vv], Ow as [Lw Vw].
  apply (holds_for_bijection (generates n v) (generates n w) S c (swap_blocks bv bw L)); [| | | |exact Hc].
  - intros a Ha. apply HL. rewrite swap_blocks_length by assumption. apply HL, Ha.
  - intros a. apply swap_blocks_twice; [assumption|assumption|congruence].
  - intros a Ha. apply (generates_swap n bs); try assumption; try (split; assumption). apply HL, Ha.
  - intros a Ha. apply (generates_swap' n bs); try assumption; try (split; assumption). apply HL, Ha.
Qed.

(** There is such a listing for every length, and the count exists. *)
Definition byte_list : list byte := map (fun i => z2b (Z.of_nat i)) (seq 0 256).

Lemma byte_list_all b : In b byte_list.
Proof.
  apply in_map_iff. exists (Z.to_nat (b2z b)). pose proof (b2z_range b). split.
  - rewrite Z2Nat.id by lia. apply z2b_b2z.
  - apply in_seq. lia.
Qed.
Lemma byte_list_nodup : NoDup byte_list.
Proof.
  apply NoDup_map_inv with (f := b2z).
  replace (map b2z byte_list) with (map Z.of_nat (seq 0 256)) by (vm_compute; reflexivity).
  apply FinFun.Injective_map_NoDup; [|apply seq_NoDup]. intros i j E. apply Nat2Z.inj, E.
Qed.

Lemma NoDup_app' {A} (a b : list A) : NoDup a -> NoDup b -> (forall x, In x a -> ~ In x b) -> NoDup (a ++ b).
Proof.
  intros Ha Hb H. induction Ha as [|x a Hx Ha IH]; [exact Hb|]. cbn. constructor.
  - rewrite in_app_iff. intros [K|K]; [contradiction|]. apply (H x); [left; reflexivity|exact K].
  - apply IH. intros y Hy. apply H. right. exact Hy.
Qed.

Fixpoint streams (L : nat) : list (list byte) :=
  match L with
  | O => [[]]
  | S m => flat_map (fun b => map (cons b) (streams m)) byte_list
  end.

Lemma streams_all L : all_streams L (streams L).
Proof.
  induction L as [|L [IH1 IH2]]; cbn [streams].
  - split; [repeat constructor; auto|]. intros [|b rd]; cbn; split; intuition (try discriminate; auto).
  - split.
    + generalize byte_list_nodup. generalize byte_list. induction 1 as [|b l Hb Hl IH]; cbn [flat_map]; [constructor|].
      apply NoDup_app'; [|assumption|].
      * apply FinFun.Injective_map_NoDup; [|assumption]. intros x y E. congruence.
      * intros x Hx K. apply in_map_iff in Hx as (x' & <- & _). apply in_flat_map in K as (b' & Hb' & K).
        apply in_map_iff in K as (y & E & _). injection E as -> ->. contradiction.
    + intros rd. rewrite in_flat_map. split.
      * intros (b & _ & K). apply in_map_iff in K as (x & <- & K). apply IH2 in K. cbn. congruence.
      * destruct rd as [|b rd]; [discriminate|]. intros E. injection E as E. exists b. split; [apply byte_list_all|].
        apply in_map, IH2, E.
Qed.

Lemma count_exists n L S v : all_streams L S ->
  exists c, holds_for (fun rd => exists k rest, GeneratePrivateKey (Some n) rd = Ret (k, rest) /\ Key k = Some v) S c.
Proof. intros [HS _]. apply holds_for_exists; [assumption|]. apply (generates_dec n v). Qed.

(** ** Every outcome *)

Lemma generate_nil_outcome fuel rd : (length rd < fuel)%nat ->
  generate_fuel fuel None rd = Panic PRand /\ (forall v rest, ~ first_block 32 gen_range rd v rest) \/
  generate_fuel fuel None rd = Panic PNil /\ (exists v rest, first_block 32 gen_range rd v rest).
Proof.
  revert rd; induction fuel as [|fuel IH]; intros rd Hf; [lia|]. cbn [generate_fuel].
  pose proof (generateRandomBigInt_spec rd) as Hr.
  destruct (generateRandomBigInt rd) as [[v rd']|p].
  - pose proof (first_block_range _ _ _ _ _ Hr) as Hrange. change (256 ^ Z.of_nat 32) with (2 ^ 256) in Hrange.
    cbn [bind]. unfold bigIntToHex. destruct (Z.eqb_spec (len (sprintf_x v)) 64) as [E|E]; cbn [negb].
    + right. split; [reflexivity|]. exists v, rd'.
      apply first_block_ext with (P := fun z => below_max z /\ gen_big z);
        [intros z; symmetry; apply gen_range_split|].
      apply first_block_and_here; [exact Hr|]. apply sprintf_x_64; [assumption|]. unfold len in E. lia.
    + assert (NB : ~ gen_big v) by (intros K; apply sprintf_x_64 in K; [unfold len in E; lia|assumption]).
      destruct (first_block_length _ _ _ _ _ Hr) as (m & Hm & Hlen).
      destruct (IH rd' ltac:(lia)) as [[K1 K2]|[K1 (v' & r' & K2)]].
      * left. split; [exact K1|]. intros v' r' H.
        apply first_block_ext with (Q := fun z => below_max z /\ gen_big z) in H; [|apply gen_range_split].
        destruct (first_block_and_inv _ _ _ _ _ _ _ _ below_max_dec H Hr) as [(-> & -> & B)|[_ B]]; [contradiction|].
        apply (K2 v' r'). apply first_block_ext with (P := fun z => below_max z /\ gen_big z);
          [intros z; symmetry; apply gen_range_split|exact B].
      * right. split; [exact K1|]. exists v', r'.
        apply first_block_ext with (P := fun z => below_max z /\ gen_big z);
          [intros z; symmetry; apply gen_range_split|].
        apply (first_block_and_skip _ _ _ _ _ _ _ _ Hr NB).
        apply first_block_ext with (P := gen_range); [apply gen_range_split|exact K2].
  - destruct Hr as [-> Hr]. left. split; [reflexivity|]. intros v r H.
    apply first_block_ext with (Q := fun z => below_max z /\ gen_big z) in H; [|apply gen_range_split].
    apply first_block_weaken in H as (v' & r' & H); [|exact below_max_dec]. apply (Hr _ _ H).
Qed.

Lemma generate_outcomes net rd :
  ((exists v rest, first_block 32 (fun z => 2 ^ 252 <= z <= secp_N - 2) rd v rest) ->
   match net with
   | None => GeneratePrivateKey net rd = Panic PNil
   | Some n => ((exists bs, hex_text (PrivKeyPrefix n) bs) -> exists k rest, GeneratePrivateKey net rd = Ret (k, rest)) /\
               ((~ exists bs, hex_text (PrivKeyPrefix n) bs) -> GeneratePrivateKey net rd = Panic PRand)
   end) /\
  ((~ exists v rest, first_block 32 (fun z => 2 ^ 252 <= z <= secp_N - 2) rd v rest) ->
   GeneratePrivateKey net rd = Panic PRand).
Proof.
  change (fun z => 2 ^ 252 <= z <= secp_N - 2) with gen_range. split.
  - intros (v & rest & H). destruct net as [n|].
    + split.
      * intros [bs Hn]. destruct (proj2 (generates_iff n bs v rd Hn) (ex_intro _ rest H)) as (k & r & E & _). eauto.
      * apply GeneratePrivateKey_bad.
    + unfold GeneratePrivateKey. destruct (generate_nil_outcome (S (length rd)) rd ltac:(lia)) as [[_ K]|[K _]]; [|exact K].
      exfalso. apply (K _ _ H).
  - intros H. destruct net as [n|].
    + destruct (hex_decode (PrivKeyPrefix n)) as [bs|e] eqn:E.
      * pose proof (GeneratePrivateKey_spec n bs rd (proj2 (hex_text_decode _ _) E)) as K.
        destruct (GeneratePrivateKey (Some n) rd) as [[k rest]|p].
        -- destruct K as (v & K & _). exfalso. eauto.
        -- destruct K as [-> _]. reflexivity.
      * apply GeneratePrivateKey_bad. intros [bs Hb]. apply hex_text_decode in Hb. congruence.
    + unfold GeneratePrivateKey. destruct (generate_nil_outcome (S (length rd)) rd ltac:(lia)) as [[K _]|[_ K]]; [exact K|].
      contradiction.
Qed.
