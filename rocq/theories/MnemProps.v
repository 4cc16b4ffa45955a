(** * Lemmas in the shape of properties C39-C43 *)

From Verif Require Import GoBase GoNum Sha256 Base58 GoRand Model.
From Verif Require Import NumFacts HexFacts Base58Facts Spec SpecFacts GenFacts CombFacts MnemFacts.
From Coq Require Import ZifyBool ZifyNat ZifyN.
Local Open Scope Z_scope.
Local Opaque sha256.

Lemma phrase_bits_fun l ws B B' : NoDup (firstn 2048 l) -> phrase_bits l ws B -> phrase_bits l ws B' -> B = B'.
Proof.
  intros Hnd (is & HF & ->) (js & HG & ->). f_equal.
  revert js HG. induction HF as [|w i ws is [Hi Hw] _ IH]; intros js HG; inversion HG as [|w' j ws' js' [Hj Hw'] HG' E1 E2]; subst; [reflexivity|].
  f_equal; [|apply IH; assumption].
  assert (Hfn : forall n, (n < 2048)%nat -> nth_error (firstn 2048 l) n = nth_error l n).
  { clear. generalize 2048%nat. intros m. revert l. induction m; intros l n Hn; [lia|].
    destruct l; [destruct n; reflexivity|]. destruct n; [reflexivity|]. cbn. apply IHm. lia. }
  apply (proj1 (NoDup_nth_error _) Hnd).
  - apply nth_error_Some. rewrite Hfn by exact Hi. congruence.
  - rewrite !Hfn by assumption. congruence.
Qed.

Lemma Forall2_length {A B} (R : A -> B -> Prop) l m : Forall2 R l m -> length l = length m.
Proof. induction 1; cbn; congruence. Qed.

Lemma phrase_bits_length l ws B : phrase_bits l ws B -> length B = (11 * length ws)%nat.
Proof. intros (is & HF & ->). rewrite flat_index_length. f_equal. symmetry. exact (Forall2_length _ _ _ HF). Qed.

Lemma phrase_bits_in l ws B : phrase_bits l ws B -> Forall (fun w => In w (firstn 2048 l)) ws.
Proof.
  intros (is & HF & _). induction HF as [|w i ws is [Hi Hw] _ IH]; constructor; [|exact IH].
  apply nth_error_split in Hw as (l1 & l2 & -> & Hl). rewrite firstn_app, Hl.
  apply in_or_app. right. destruct (2048 - i)%nat eqn:E; [lia|]. left. reflexivity.
Qed.

Lemma spaced_phrase l ws B : Forall (fun w => ~ In x20 w) (firstn 2048 l) -> phrase_bits l ws B -> ws <> [] ->
  spaced ws (join_space ws).
Proof.
  intros Hsp Hp Hne. apply spaced_join; [exact Hne|]. apply phrase_bits_in in Hp.
  rewrite Forall_forall in *. auto.
Qed.

Lemma spaced_fun ws ws' s : spaced ws s -> spaced ws' s -> ws = ws'.
Proof. rewrite !spaced_iff. congruence. Qed.

(** Words of a generated phrase, whatever way it is split. *)
Lemma NewMnemonic_words k l rd s : (4 <= k <= 8)%nat -> Forall (fun w => ~ In x20 w) (firstn 2048 l) ->
  NewMnemonic (Z.of_nat (3 * k)) (Some l) rd = Ret (Ok s) ->
  exists e rest ws, rd = e ++ rest /\ length e = (4 * k)%nat /\ (k <= length (hash_bits e))%nat /\
    spaced ws s /\ length ws = (3 * k)%nat /\ phrase_bits l ws (stream_bits k e).
Proof.
  intros Hk Hsp H. apply (NewMnemonic_success k l rd s Hk) in H as (e & rest & ws & -> & Le & Hs & Hp & ->).
  exists e, rest, ws. pose proof (phrase_bits_length _ _ _ Hp) as Hl.
  rewrite (stream_bits_length k e Le Hs) in Hl.
  assert (Lw : length ws = (3 * k)%nat) by lia.
  repeat (split; [try reflexivity; try assumption|]); try assumption.
  apply (spaced_phrase l ws _ Hsp Hp). intros ->. cbn in Lw. lia.
Qed.

(** C39 *)
Lemma NewMnemonic_total k l rd : (4 <= k <= 8)%nat -> (2048 <= length l)%nat ->
  Forall (fun w => ~ In x20 w) (firstn 2048 l) -> (4 * k <= length rd)%nat ->
  (k <= length (drop_zero_bits (bits (sha256 (drop_zero_bytes (firstn (4 * k) rd))))))%nat ->
  exists s ws, NewMnemonic (Z.of_nat (3 * k)) (Some l) rd = Ret (Ok s) /\ spaced ws s /\
    length ws = (3 * k)%nat /\ Forall (fun w => In w (firstn 2048 l)) ws.
Proof.
  intros Hk Hl Hsp Hrd Hs. set (e := firstn (4 * k) rd) in *.
  assert (Le : length e = (4 * k)%nat) by (unfold e; rewrite firstn_length; lia).
  change (k <= length (hash_bits e))%nat in Hs.
  pose proof (stream_bits_length k e Le Hs) as Ls.
  destruct (chunk_indices_bits (3 * k) _ Ls) as [_ Hlt].
  destruct (lookup_all_total l (chunk_indices (3 * k) (stream_bits k e))) as [ws Hws].
  { rewrite Forall_forall in *. intros i Hi. specialize (Hlt i Hi). eapply Nat.lt_le_trans; [exact Hlt|assumption]. }
  assert (HN : NewMnemonic (Z.of_nat (3 * k)) (Some l) rd = Ret (Ok (join_space ws))).
  { apply (NewMnemonic_success k l rd _ Hk). exists e, (skipn (4 * k) rd), ws.
    split; [symmetry; apply firstn_skipn|]. split; [exact Le|]. split; [exact Hs|]. split; [|reflexivity].
    apply (phrase_bits_chunks l ws _ (3 * k) Ls). exact Hws. }
  apply (phrase_bits_chunks l ws _ (3 * k) Ls) in Hws.
  pose proof (phrase_bits_length _ _ _ Hws) as Lw. rewrite Ls in Lw.
  exists (join_space ws), ws. split; [exact HN|]. split; [|split; [lia|apply phrase_bits_in in Hws; exact Hws]].
  apply (spaced_phrase l ws _ Hsp Hws). intros ->. cbn in Lw. lia.
Qed.

Lemma NewMnemonic_short k l rd : (4 <= k <= 8)%nat -> (length rd < 4 * k)%nat ->
  NewMnemonic (Z.of_nat (3 * k)) (Some l) rd = Ret (Err ERandRead).
Proof. intros Hk Hl. rewrite (NewMnemonic_eq k l rd Hk). destruct (Nat.ltb_spec (length rd) (4 * k)); [reflexivity|lia]. Qed.

Lemma NewMnemonic_unsupported n l rd : ~ In n [12; 15; 18; 21; 24] ->
  NewMnemonic n (Some l) rd = Ret (Err EUnsupportedLength).
Proof. intros H. unfold NewMnemonic. rewrite (entropy_length_none n H). reflexivity. Qed.

(** C40 *)
Lemma NewMnemonic_injective k l e1 e2 r1 r2 s : (4 <= k <= 8)%nat ->
  NoDup (firstn 2048 l) -> Forall (fun w => ~ In x20 w) (firstn 2048 l) ->
  length e1 = (4 * k)%nat -> length e2 = (4 * k)%nat ->
  NewMnemonic (Z.of_nat (3 * k)) (Some l) (e1 ++ r1) = Ret (Ok s) ->
  NewMnemonic (Z.of_nat (3 * k)) (Some l) (e2 ++ r2) = Ret (Ok s) -> e1 = e2.
Proof.
  intros Hk Hnd Hsp L1 L2 H1 H2.
  destruct (NewMnemonic_words k l _ _ Hk Hsp H1) as (e & rest & ws & E & Le & Hs & Hw & _ & Hp).
  destruct (NewMnemonic_words k l _ _ Hk Hsp H2) as (e' & rest' & ws' & E' & Le' & Hs' & Hw' & _ & Hp').
  apply app_inj_1 in E as [<- _]; [|lia]. apply app_inj_1 in E' as [<- _]; [|lia].
  pose proof (spaced_fun _ _ _ Hw Hw') as <-.
  pose proof (phrase_bits_fun l ws _ _ Hnd Hp Hp') as K. unfold stream_bits in K.
  apply (f_equal (@rev bool)) in K. rewrite !rev_involutive in K.
  apply app_inj_1 in K as [K _]; [|rewrite !bits_length; lia]. apply bits_inj, K.
Qed.

(** C41 and C42 *)
Lemma NewMnemonic_reversed k l rd s ws : (4 <= k <= 8)%nat -> Forall (fun w => ~ In x20 w) (firstn 2048 l) ->
  NewMnemonic (Z.of_nat (3 * k)) (Some l) rd = Ret (Ok s) -> spaced ws s ->
  exists e chk, e = firstn (4 * k) rd /\ length e = (4 * k)%nat /\ length chk = k /\
    length ws = (3 * k)%nat /\ phrase_bits l ws (rev (bits e ++ chk)) /\
    chk = firstn k (drop_zero_bits (bits (sha256 (drop_zero_bytes e)))).
Proof.
  intros Hk Hsp H Hw.
  destruct (NewMnemonic_words k l _ _ Hk Hsp H) as (e & rest & ws' & -> & Le & Hs & Hw' & Lw & Hp).
  pose proof (spaced_fun _ _ _ Hw Hw') as <-.
  exists e, (firstn k (hash_bits e)).
  split; [rewrite firstn_app, firstn_all2, Le, Nat.sub_diag by lia; cbn; symmetry; apply app_nil_r|].
  split; [exact Le|]. split; [rewrite firstn_length; lia|]. split; [exact Lw|]. split; [exact Hp|reflexivity].
Qed.

Lemma drop_zero_bytes_id e : hd_error e <> Some x00 -> drop_zero_bytes e = e.
Proof. destruct e as [|b e]; [reflexivity|]. intros H. destruct b; try reflexivity. exfalso. apply H. reflexivity. Qed.

Lemma drop_zero_bits_hd B b D : drop_zero_bits B = b :: D -> b = true.
Proof. intros H. destruct (drop_zero_bits_spec B) as (k & _ & K). rewrite H in K. exact K. Qed.

Lemma bits_sha_length m : length (bits (sha256 m)) = 256%nat.
Proof. rewrite bits_length, sha256_length. reflexivity. Qed.

Lemma checksum_first_bit k l rd s ws : (4 <= k <= 8)%nat -> Forall (fun w => ~ In x20 w) (firstn 2048 l) ->
  NewMnemonic (Z.of_nat (3 * k)) (Some l) rd = Ret (Ok s) -> spaced ws s ->
  exists e chk, e = firstn (4 * k) rd /\ length chk = k /\ phrase_bits l ws (rev (bits e ++ chk)) /\
    hd_error chk = Some true /\
    (hd_error e <> Some x00 ->
     (chk = firstn k (bits (sha256 e)) <-> hd_error (bits (sha256 e)) = Some true)).
Proof.
  intros Hk Hsp H Hw.
  destruct (NewMnemonic_reversed k l rd s ws Hk Hsp H Hw) as (e & chk & He & Le & Lc & Lw & Hp & Hc).
  exists e, chk. split; [exact He|]. split; [exact Lc|]. split; [exact Hp|].
  assert (Hh : hd_error chk = Some true).
  { rewrite Hc in *. destruct (drop_zero_bits (bits (sha256 (drop_zero_bytes e)))) as [|b D] eqn:ED.
    - rewrite firstn_nil in Lc. cbn in Lc. lia.
    - apply drop_zero_bits_hd in ED. subst b. destruct k; [lia|]. reflexivity. }
  split; [exact Hh|]. intros Hz. rewrite (drop_zero_bytes_id e Hz) in Hc.
  pose proof (bits_sha_length e) as Ls. split.
  - intros E. rewrite E in Hh. destruct (bits (sha256 e)) as [|b B]; [cbn in Ls; lia|].
    destruct k; [lia|]. exact Hh.
  - intros Ht. rewrite Hc. destruct (bits (sha256 e)) as [|b B]; [discriminate|]. injection Ht as ->. reflexivity.
Qed.

(** C43 *)
Lemma NewMnemonic_panic_iff k l rd : (4 <= k <= 8)%nat -> (4 * k <= length rd)%nat ->
  ((exists p, NewMnemonic (Z.of_nat (3 * k)) (Some l) rd = Panic p) <->
   let e := firstn (4 * k) rd in
   let h := drop_zero_bits (bits (sha256 (drop_zero_bytes e))) in
   (length h < k)%nat \/ ~ exists ws, phrase_bits l ws (rev (bits e ++ firstn k h))).
Proof.
  intros Hk Hl. cbv zeta. set (e := firstn (4 * k) rd).
  change (drop_zero_bits (bits (sha256 (drop_zero_bytes e)))) with (hash_bits e).
  change (rev (bits e ++ firstn k (hash_bits e))) with (stream_bits k e).
  assert (Le : length e = (4 * k)%nat) by (unfold e; rewrite firstn_length; lia).
  rewrite (NewMnemonic_eq k l rd Hk). cbv zeta. fold e.
  destruct (Nat.ltb_spec (length rd) (4 * k)); [lia|].
  destruct (Nat.ltb_spec (length (hash_bits e)) k) as [Hs|Hs].
  - split; [intros _; left; exact Hs|eauto].
  - pose proof (stream_bits_length k e Le Hs) as Ls. split.
    + intros [p Hp]. right. intros [ws Hws]. apply (phrase_bits_chunks l ws _ (3 * k) Ls) in Hws.
      rewrite Hws in Hp. discriminate.
    + intros [K|K]; [lia|]. destruct (lookup_all l (chunk_indices (3 * k) (stream_bits k e))) as [ws|p] eqn:E.
      * exfalso. apply K. exists ws. apply (phrase_bits_chunks l ws _ (3 * k) Ls). exact E.
      * exists p. reflexivity.
Qed.

Lemma NewMnemonic_panic_long k l rd : (4 <= k <= 8)%nat -> (2048 <= length l)%nat -> (4 * k <= length rd)%nat ->
  ((exists p, NewMnemonic (Z.of_nat (3 * k)) (Some l) rd = Panic p) <->
   (length (drop_zero_bits (bits (sha256 (drop_zero_bytes (firstn (4 * k) rd))))) < k)%nat).
Proof.
  intros Hk Hll Hl. rewrite (NewMnemonic_panic_iff k l rd Hk Hl). cbv zeta. split; [|auto].
  intros [K|K]; [exact K|]. set (e := firstn (4 * k) rd) in *.
  change (drop_zero_bits (bits (sha256 (drop_zero_bytes e)))) with (hash_bits e) in *.
  destruct (Nat.lt_ge_cases (length (hash_bits e)) k) as [|Hs]; [assumption|exfalso]. apply K.
  assert (Le : length e = (4 * k)%nat) by (unfold e; rewrite firstn_length; lia).
  pose proof (stream_bits_length k e Le Hs) as Ls.
  destruct (chunk_indices_bits (3 * k) _ Ls) as [_ Hlt].
  destruct (lookup_all_total l (chunk_indices (3 * k) (stream_bits k e))) as [ws Hws].
  { rewrite Forall_forall in *. intros i Hi. specialize (Hlt i Hi). eapply Nat.lt_le_trans; [exact Hlt|assumption]. }
  exists ws. apply (phrase_bits_chunks l ws _ (3 * k) Ls). exact Hws.
Qed.

(** Whatever the result: never an error once there is entropy and a list. *)
Lemma NewMnemonic_no_error k l rd e : (4 <= k <= 8)%nat -> (4 * k <= length rd)%nat ->
  NewMnemonic (Z.of_nat (3 * k)) (Some l) rd <> Ret (Err e).
Proof.
  intros Hk Hl. rewrite (NewMnemonic_eq k l rd Hk). cbv zeta.
  destruct (Nat.ltb_spec (length rd) (4 * k)); [lia|].
  destruct (_ <? k)%nat; [discriminate|]. destruct (lookup_all _ _); discriminate.
Qed.

(** Bytes after the entropy are not looked at. *)
Lemma NewMnemonic_prefix k l e r r' : (4 <= k <= 8)%nat -> length e = (4 * k)%nat ->
  NewMnemonic (Z.of_nat (3 * k)) (Some l) (e ++ r) = NewMnemonic (Z.of_nat (3 * k)) (Some l) (e ++ r').
Proof.
  intros Hk Le. rewrite !(NewMnemonic_eq k l _ Hk). cbv zeta. rewrite !app_length.
  destruct (Nat.ltb_spec (length e + length r) (4 * k)); [lia|].
  destruct (Nat.ltb_spec (length e + length r') (4 * k)); [lia|].
  rewrite !firstn_app, !firstn_all2, Le, Nat.sub_diag by lia. reflexivity.
Qed.

(** The reversed phrase, word by word: word i carries, backwards, the bits of
    group n-1-i of the stream. *)
Lemma rev_flat_map {A B} (f : A -> list B) l : rev (flat_map f l) = flat_map (fun x => rev (f x)) (rev l).
Proof.
  induction l as [|a l IH]; [reflexivity|]. cbn [flat_map rev].
  rewrite rev_app_distr, IH, flat_map_app. cbn [flat_map]. rewrite app_nil_r. reflexivity.
Qed.

Lemma index_bits_rev i : (i < 2048)%nat -> exists j, (j < 2048)%nat /\ index_bits j = rev (index_bits i).
Proof.
  intros Hi. destruct (index_bits_bval (rev (index_bits i)) eq_refl) as [E Hlt].
  exists (Z.to_nat (bval (rev (index_bits i)))). auto.
Qed.

Definition revidx (i : nat) : nat := Z.to_nat (bval (rev (index_bits i))).
Lemma index_bits_revidx i : index_bits (revidx i) = rev (index_bits i).
Proof. apply (index_bits_bval (rev (index_bits i))). reflexivity. Qed.
Lemma revidx_lt i : (revidx i < 2048)%nat.
Proof. apply (index_bits_bval (rev (index_bits i))). reflexivity. Qed.

Lemma flat_map_revidx is : flat_map index_bits (map revidx is) = flat_map (fun i => rev (index_bits i)) is.
Proof. induction is as [|i is IH]; [reflexivity|]. cbn [map flat_map]. rewrite IH, index_bits_revidx. reflexivity. Qed.

Lemma reversed_words l ws B : phrase_bits l ws (rev B) ->
  exists js, Forall (fun j => (j < 2048)%nat) js /\ flat_map index_bits js = B /\
    Forall2 (fun w j => exists i, index_bits i = rev (index_bits j) /\ nth_error l i = Some w) ws (rev js).
Proof.
  intros (is & HF & E). exists (map revidx (rev is)). split; [|split].
  - apply Forall_forall. intros j Hj. apply in_map_iff in Hj as (i & <- & _). apply revidx_lt.
  - rewrite flat_map_revidx, <- rev_flat_map, <- E. apply rev_involutive.
  - rewrite <- map_rev, rev_involutive. clear E. induction HF as [|w i ws is [Hi Hw] _ IH]; [constructor|].
    cbn [map]. constructor; [|exact IH]. exists i. rewrite index_bits_revidx, rev_involutive. auto.
Qed.

(** C41, word by word. *)
Lemma NewMnemonic_word_groups k l rd s ws : (4 <= k <= 8)%nat -> Forall (fun w => ~ In x20 w) (firstn 2048 l) ->
  NewMnemonic (Z.of_nat (3 * k)) (Some l) rd = Ret (Ok s) -> spaced ws s ->
  exists chk js, length chk = k /\ length js = (3 * k)%nat /\ Forall (fun j => (j < 2048)%nat) js /\
    flat_map index_bits js = bits (firstn (4 * k) rd) ++ chk /\
    Forall2 (fun w j => exists i, index_bits i = rev (index_bits j) /\ nth_error l i = Some w) ws (rev js).
Proof.
  intros Hk Hsp H Hw.
  destruct (NewMnemonic_reversed k l rd s ws Hk Hsp H Hw) as (e & chk & He & Le & Lc & Lw & Hp & Hc).
  destruct (reversed_words _ _ _ Hp) as (js & Hlt & E & HF). exists chk, js.
  split; [exact Lc|]. split.
  - apply Forall2_length in HF. rewrite rev_length in HF. lia.
  - split; [exact Hlt|]. rewrite <- He. auto.
Qed.

(** A nil list is refused. *)
Lemma NewMnemonic_nil n rd : NewMnemonic n None rd = Ret (Err EInvalidWordlist).
Proof. reflexivity. Qed.
