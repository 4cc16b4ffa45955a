(** * The executable RIPEMD-160 is the paper's (C92) *)

From Coq Require Import NArith.
From Verif Require Import GoBase Sha256 Ripemd160 Spec SpecFacts GenFacts SpecHash HashFacts.
Local Open Scope Z_scope.

Definition rconv (s : rstate) : list Z := map zn [rA s; rB s; rC s; rD s; rE s].
Definition rgood (s : rstate) : Prop := Forall word [rA s; rB s; rC s; rD s; rE s].

Lemma zn_rol n x : (n <= 32)%N -> word x -> zn (rol n x) = rotate_left (zn n) (zn x).
Proof.
  intros Hn H. unfold rol, rotate_left. rewrite zn_rotr by (lia || exact H). rewrite N2Z.inj_sub by exact Hn. reflexivity.
Qed.
Lemma rol_word n x : word x -> word (rol n x).
Proof. intros H. apply rotr_word; [lia|exact H]. Qed.

Lemma zn_rf j x y z : word x -> word y -> word z -> zn (rf j x y z) = rmd_function (j / 16) (zn x) (zn y) (zn z).
Proof.
  intros Hx Hy Hz. unfold rf, rmd_function. destruct (j / 16)%nat as [|[|[|[|r]]]];
    rewrite ?zn_lxor, ?zn_lor, ?zn_land, ?zn_lxor, ?zn_lor, ?zn_not32 by assumption; reflexivity.
Qed.

Ltac words := repeat match goal with H : Forall _ (_ :: _) |- _ => inversion H; clear H; subst end.

Lemma rstep_good x st p : rgood st -> rgood (rstep x st p).
Proof.
  intros G. destruct p as [[[fj k] r] s]. unfold rgood in *. words. cbn [rstep rA rB rC rD rE].
  repeat constructor; try assumption; [apply add32_word|apply rol_word; assumption].
Qed.

Lemma rstep_conv x st fj k r s : rgood st -> (s <= 32)%N ->
  rconv (rstep x st (fj, k, r, s)) = rmd_step (fj / 16) (zn (nth r x 0%N)) (zn k) (zn s) (rconv st).
Proof.
  intros G Hs. unfold rgood in G. words.
  unfold rconv, rstep, rmd_step. cbn [map rA rB rC rD rE].
  rewrite zn_add32, zn_rol, (zn_rol 10) by (assumption || apply add32_word || discriminate).
  rewrite !zn_add32, zn_rf by assumption.
  apply f_equal2; [reflexivity|]. apply f_equal2; [|reflexivity].
  apply (f_equal (fun a => (rotate_left (zn s) a + zn (rE st)) mod M32)). modsum.
Qed.

(** ** Tables *)

Definition no_step : nat * N * nat * N := (0%nat, 0%N, 0%nat, 0%N).
Definition entry_ok (plan : list (nat * N * nat * N)) (ks : list N) (fn : nat -> nat) (word_of : nat -> nat -> nat) (j : nat) : bool :=
  let '(fj, k, r, s) := nth j plan no_step in
  let rd := (j / 16)%nat in let n := (j mod 16)%nat in
  (fj / 16 =? fn rd)%nat && (k =? nth rd ks 0)%N && (r =? word_of rd n)%nat && (r <? 16)%nat &&
  (zn s =? rmd_shift rd (word_of rd n)) && (s <=? 32)%N.
Lemma left_table : forallb (entry_ok left_plan kl (fun r => r) left_word) (seq 0 80) = true.
Proof. vm_compute. reflexivity. Qed.
Lemma right_table : forallb (entry_ok right_plan kr (fun r => (4 - r)%nat) right_word) (seq 0 80) = true.
Proof. vm_compute. reflexivity. Qed.

Lemma entry_step plan ks fn word_of x j st : (j < 80)%nat -> rgood st ->
  forallb (entry_ok plan ks fn word_of) (seq 0 80) = true ->
  (word_of (j / 16) (j mod 16) < 16)%nat /\
  rconv (rstep x st (nth j plan no_step)) =
    rmd_step (fn (j / 16)%nat) (zn (nth (word_of (j / 16) (j mod 16))%nat x 0%N)) (zn (nth (j / 16) ks 0%N))
      (rmd_shift (j / 16) (word_of (j / 16) (j mod 16))%nat) (rconv st).
Proof.
  intros Hj G C. rewrite forallb_forall in C. specialize (C j ltac:(apply in_seq; lia)). unfold entry_ok in C.
  destruct (nth j plan no_step) as [[[fj k] r] s]. cbv zeta in C.
  rewrite !andb_true_iff, !Nat.eqb_eq, Nat.ltb_lt, N.eqb_eq, Z.eqb_eq, N.leb_le in C.
  destruct C as [[[[[H1 H2] H3] H4] H5] H6]. rewrite <- H3. split; [exact H4|].
  rewrite rstep_conv by assumption. rewrite H1, H2, H5, <- H3. reflexivity.
Qed.

Lemma firstn_next {A} (l : list A) d : forall j, (j < length l)%nat -> firstn (S j) l = firstn j l ++ [nth j l d].
Proof.
  induction l as [|a l IH]; intros j H; cbn [length] in H; [lia|]. destruct j as [|j]; [reflexivity|].
  cbn [firstn nth app]. f_equal. apply IH. lia.
Qed.

Definition after (plan : list (nat * N * nat * N)) (x : list N) (h : rstate) (j : nat) : rstate :=
  fold_left (rstep x) (firstn j plan) h.
Lemma after_step plan x h j : (j < length plan)%nat -> after plan x h (S j) = rstep x (after plan x h j) (nth j plan no_step).
Proof. intros H. unfold after. rewrite (firstn_next plan no_step) by exact H. rewrite fold_left_app. reflexivity. Qed.
Lemma after_good plan x h j : rgood h -> rgood (after plan x h j).
Proof.
  unfold after. generalize (firstn j plan). intros l. revert h. induction l as [|p l IH]; intros h G; [exact G|].
  cbn [fold_left]. apply IH, rstep_good, G.
Qed.

Lemma rcompress_good s b : rgood (rmd_compress s b).
Proof. unfold rgood, rmd_compress. cbv zeta. cbn [rA rB rC rD rE]. repeat constructor; apply add32_word. Qed.

Definition join_state (h l r : rstate) : rstate :=
  RS (add32 (rB h) (add32 (rC l) (rD r))) (add32 (rC h) (add32 (rD l) (rE r)))
     (add32 (rD h) (add32 (rE l) (rA r))) (add32 (rE h) (add32 (rA l) (rB r)))
     (add32 (rA h) (add32 (rB l) (rC r))).
Lemma join_words h l r : rconv (join_state h l r) = rmd_join (rconv h) (rconv l) (rconv r).
Proof.
  unfold rconv, rmd_join, join_state. cbn [map rA rB rC rD rE]. rewrite !zn_add32.
  repeat (apply f_equal2; [modsum|]). reflexivity.
Qed.
Lemma compress_join h x : rmd_compress h x = join_state h (fold_left (rstep x) left_plan h) (fold_left (rstep x) right_plan h).
Proof. reflexivity. Qed.
Lemma after_all plan x h : length plan = 80%nat -> after plan x h 80 = fold_left (rstep x) plan h.
Proof. intros H. unfold after. rewrite <- H, firstn_all. reflexivity. Qed.
Lemma left_length : length left_plan = 80%nat. Proof. reflexivity. Qed.
Lemma right_length : length right_plan = 80%nat. Proof. reflexivity. Qed.
Lemma rcompress_join h x : rconv (rmd_compress h x) =
  rmd_join (rconv h) (rconv (after left_plan x h 80)) (rconv (after right_plan x h 80)).
Proof. rewrite (after_all _ x h left_length), (after_all _ x h right_length), compress_join. apply join_words. Qed.

Definition right_constants (KL KR : nat -> Z) : Prop :=
  forall r, (r < 5)%nat -> KL r = zn (nth r kl 0%N) /\ KR r = zn (nth r kr 0%N).

Lemma root_integer_is e p k : 0 < e -> 0 <= k -> ((k ^ e <=? p * 2 ^ (30 * e)) && (p * 2 ^ (30 * e) <? (k + 1) ^ e))%bool = true ->
  forall k', root_integer e p k' <-> k' = k.
Proof.
  intros He Hk H k'. rewrite andb_true_iff, Z.leb_le, Z.ltb_lt in H.
  assert (R : root_integer e p k) by (split; [exact Hk|exact H]).
  split; [intros H'; exact (root_integer_fun e p _ _ He H' R)|intros ->; exact R].
Qed.
Lemma rmd_constants_iff KL KR : rmd_constants KL KR <-> right_constants KL KR.
Proof.
  unfold rmd_constants.
  rewrite (root_integer_is 2 2 0x5a827999), (root_integer_is 2 3 0x6ed9eba1), (root_integer_is 2 5 0x8f1bbcdc),
    (root_integer_is 2 7 0xa953fd4e), (root_integer_is 3 2 0x50a28be6), (root_integer_is 3 3 0x5c4dd124),
    (root_integer_is 3 5 0x6d703ef3), (root_integer_is 3 7 0x7a6d76e9) by (discriminate || (vm_compute; reflexivity)).
  unfold right_constants. split.
  - intros (H0 & H1 & H2 & H3 & H4 & J0 & J1 & J2 & J3 & J4) r Hr.
    do 5 (destruct r as [|r]; [split; cbn [nth kl kr]; assumption|]). lia.
  - intros H. pose proof (H 0%nat ltac:(lia)) as [A0 B0]. pose proof (H 1%nat ltac:(lia)) as [A1 B1].
    pose proof (H 2%nat ltac:(lia)) as [A2 B2]. pose proof (H 3%nat ltac:(lia)) as [A3 B3].
    pose proof (H 4%nat ltac:(lia)) as [A4 B4]. repeat split; assumption.
Qed.

Lemma rcompress_block KL KR p i h x : right_constants KL KR -> rgood h ->
  (forall j, (j < 16)%nat -> zn (nth j x 0%N) = rmd_word p i j) ->
  forall h', rmd_block KL KR p i (rconv h) h' <-> h' = rconv (rmd_compress h x).
Proof.
  intros HK G HX h'.
  assert (B : forall j, (j < 80)%nat -> (j / 16 < 5)%nat) by (intros j Hj; apply Nat.div_lt_upper_bound; lia).
  assert (SL : forall j, (j < 80)%nat -> rconv (after left_plan x h (S j)) =
    rmd_step (j / 16) (rmd_word p i (left_word (j / 16) (j mod 16))) (KL (j / 16)%nat)
      (rmd_shift (j / 16) (left_word (j / 16) (j mod 16))) (rconv (after left_plan x h j))).
  { intros j Hj. rewrite after_step by (rewrite left_length; exact Hj).
    destruct (entry_step _ _ _ _ x j (after left_plan x h j) Hj (after_good _ _ _ _ G) left_table) as [W E].
    rewrite E, HX, (proj1 (HK _ (B j Hj))) by exact W. reflexivity. }
  assert (SR : forall j, (j < 80)%nat -> rconv (after right_plan x h (S j)) =
    rmd_step (4 - j / 16) (rmd_word p i (right_word (j / 16) (j mod 16))) (KR (j / 16)%nat)
      (rmd_shift (j / 16) (right_word (j / 16) (j mod 16))) (rconv (after right_plan x h j))).
  { intros j Hj. rewrite after_step by (rewrite right_length; exact Hj).
    destruct (entry_step _ _ _ _ x j (after right_plan x h j) Hj (after_good _ _ _ _ G) right_table) as [W E].
    rewrite E, HX, (proj2 (HK _ (B j Hj))) by exact W. reflexivity. }
  rewrite rcompress_join. split.
  - intros (l & r & L0 & R0 & S & ->).
    assert (Q : forall j, (j <= 80)%nat -> l j = rconv (after left_plan x h j) /\ r j = rconv (after right_plan x h j)).
    { induction j as [|j IH]; intros Hj; [split; assumption|]. destruct (IH ltac:(lia)) as [I1 I2].
      destruct (S j ltac:(lia)) as [S1 S2]. rewrite S1, S2, I1, I2, SL, SR by lia. split; reflexivity. }
    destruct (Q 80%nat (le_n _)) as [-> ->]. reflexivity.
  - intros ->. exists (fun j => rconv (after left_plan x h j)), (fun j => rconv (after right_plan x h j)).
    split; [reflexivity|]. split; [reflexivity|]. split; [|reflexivity].
    intros j Hj rd n. split; [apply SL, Hj|apply SR, Hj].
Qed.

(** ** Padding, words, blocks, digest *)

Lemma rmd_padded_iff m p : 8 * Z.of_nat (length m) < 2 ^ 64 -> rmd_padded m p <-> p = rmd_pad m.
Proof.
  intros H. unfold rmd_padded, rmd_pad. cbv zeta.
  assert (E : zn (N.of_nat (length m) * 8) = 8 * Z.of_nat (length m)) by (rewrite N2Z.inj_mul, nat_N_Z; apply Z.mul_comm).
  pose proof (length_bytes (N.of_nat (length m) * 8)) as O. rewrite E in O. specialize (O H).
  rewrite !word_bytes_le_rev, <- rev_app_distr.
  set (L0 := word_bytes_be (N.shiftr (N.of_nat (length m) * 8) 32) ++ word_bytes_be (w32 (N.of_nat (length m) * 8))) in *.
  split.
  - intros (k & L & H1 & H2 & HL & ->). rewrite <- (octets_fun _ _ _ _ HL O), rev_involutive.
    rewrite (proj1 (zero_pad_iff (length m) k) (conj H1 H2)). reflexivity.
  - intros ->. exists (zero_pad (length m)), (rev L0). destruct (proj2 (zero_pad_iff (length m) _) eq_refl) as [H1 H2].
    split; [exact H1|]. split; [exact H2|]. rewrite rev_involutive. split; [exact O|reflexivity].
Qed.

Lemma words_le_length bs : forall n, length bs = (4 * n)%nat -> length (words_le bs) = n.
Proof.
  induction bs as [|a|a b|a b c|a b c d bs IH] using list4_ind; intros n H; cbn [length words_le] in *; try lia.
  destruct n as [|n]; [lia|]. f_equal. apply IH. lia.
Qed.
Lemma words_le_nth bs : forall n j, length bs = (4 * n)%nat -> (j < n)%nat ->
  zn (nth j (words_le bs) 0%N) = bytes_number (rev (substring bs (4 * j) (4 * j + 4))).
Proof.
  induction bs as [|a|a b|a b c|a b c d bs IH] using list4_ind; intros n j H Hj; cbn [length] in H; try lia.
  destruct j as [|j].
  - cbn [words_le nth]. unfold substring. rewrite Nat.mul_0_r. cbn [Nat.add Nat.sub skipn firstn rev app].
    rewrite bytes_number_4. unfold byte_number. rewrite !N2Z.inj_add, !N2Z.inj_mul. reflexivity.
  - cbn [words_le nth]. rewrite (IH (n - 1)%nat j) by lia. unfold substring.
    replace (4 * S j + 4 - 4 * S j)%nat with (4 * j + 4 - 4 * j)%nat by lia.
    replace (4 * S j)%nat with (S (S (S (S (4 * j)))))%nat by lia. reflexivity.
Qed.

Lemma rmd_blocks_step n : forall i s ws, length ws = (16 * n)%nat -> (i < n)%nat ->
  rmd_blocks (S i) s ws = rmd_compress (rmd_blocks i s ws) (firstn 16 (skipn (16 * i) ws)).
Proof.
  induction n as [|n IH]; intros i s ws H Hi; [lia|].
  destruct ws as [|w ws]; [cbn in H; lia|].
  destruct i as [|i]; [reflexivity|].
  change (rmd_blocks (S (S i)) s (w :: ws)) with (rmd_blocks (S i) (rmd_compress s (firstn 16 (w :: ws))) (skipn 16 (w :: ws))).
  change (rmd_blocks (S i) s (w :: ws)) with (rmd_blocks i (rmd_compress s (firstn 16 (w :: ws))) (skipn 16 (w :: ws))).
  rewrite IH by (rewrite ?skipn_length; lia). f_equal. f_equal.
  rewrite skipn_skipn. f_equal. lia.
Qed.
Lemma rmd_blocks_enough n : forall f s ws, length ws = (16 * n)%nat -> (n <= f)%nat -> rmd_blocks f s ws = rmd_blocks n s ws.
Proof.
  induction n as [|n IH]; intros f s ws H Hf.
  - destruct ws; [|cbn in H; lia]. destruct f; reflexivity.
  - destruct f as [|f]; [lia|]. destruct ws as [|w ws]; [cbn in H; lia|].
    cbn [rmd_blocks]. apply IH; [rewrite skipn_length; lia|lia].
Qed.
Lemma rmd_blocks_good i : forall s ws, rgood s -> rgood (rmd_blocks i s ws).
Proof.
  induction i as [|i IH]; intros s ws G; [exact G|]. destruct ws as [|w ws]; [exact G|].
  cbn [rmd_blocks]. apply IH, rcompress_good.
Qed.
Lemma riv_good : rgood rmd_iv.
Proof. repeat constructor. Qed.

Lemma rmd_block_iff KL KR p n i : right_constants KL KR -> length p = (64 * n)%nat -> (i < n)%nat ->
  forall h', rmd_block KL KR p i (rconv (rmd_blocks i rmd_iv (words_le p))) h' <->
    h' = rconv (rmd_blocks (S i) rmd_iv (words_le p)).
Proof.
  intros HK Hp Hi h'.
  assert (Lw : length (words_le p) = (16 * n)%nat) by (apply words_le_length; lia).
  rewrite (rmd_blocks_step n) by assumption. apply rcompress_block.
  - exact HK.
  - apply rmd_blocks_good, riv_good.
  - intros j Hj. rewrite nth_firstn, nth_skipn by exact Hj. rewrite (words_le_nth p (16 * n)) by lia.
    unfold rmd_word. f_equal. f_equal. f_equal; lia.
Qed.

Lemma rdigest_iff ws parts d : Forall word ws ->
  (Forall2 (fun w o => octets 4 w (rev o)) (map zn ws) parts /\ d = concat parts -> d = flat_map word_bytes_le ws) /\
  (d = flat_map word_bytes_le ws ->
   Forall2 (fun w o => octets 4 w (rev o)) (map zn ws) (map word_bytes_le ws) /\ d = concat (map word_bytes_le ws)).
Proof.
  intros HW. split.
  - intros [HF ->]. revert parts HF. induction HW as [|w ws Hw _ IH]; intros parts HF; inversion HF; subst; [reflexivity|].
    cbn [concat flat_map]. f_equal; [|apply IH; assumption]. rewrite word_bytes_le_rev.
    match goal with O : octets _ _ (rev ?o) |- _ => rewrite <- (octets_fun _ _ _ _ O (word_bytes_octets w Hw)), rev_involutive end.
    reflexivity.
  - intros ->. split; [|apply flat_map_concat_map].
    induction HW as [|w ws Hw _ IH]; cbn [map]; constructor; [|exact IH].
    rewrite word_bytes_le_rev, rev_involutive. apply word_bytes_octets, Hw.
Qed.

Theorem ripemd160_standard m d : 8 * Z.of_nat (length m) < 2 ^ 64 -> is_ripemd160 m d <-> d = ripemd160 m.
Proof.
  intros Hm. destruct (pad_multiple m (word_bytes_le (w32 (N.of_nat (length m) * 8)) ++ word_bytes_le (N.shiftr (N.of_nat (length m) * 8) 32)) eq_refl) as [n Hn].
  fold (rmd_pad m) in Hn.
  assert (Lw : length (words_le (rmd_pad m)) = (16 * n)%nat) by (apply words_le_length; lia).
  set (st := rmd_blocks n rmd_iv (words_le (rmd_pad m))).
  assert (Gst : rgood st) by (apply rmd_blocks_good, riv_good).
  assert (E : ripemd160 m = flat_map word_bytes_le [rA st; rB st; rC st; rD st; rE st]).
  { unfold ripemd160. cbv zeta. rewrite (rmd_blocks_enough n) by (rewrite ?Lw; lia). fold st. cbn [flat_map].
    rewrite app_nil_r. reflexivity. }
  assert (Dn : (64 * n / 64 = n)%nat) by (rewrite Nat.mul_comm; apply Nat.div_mul; lia).
  split.
  - intros (KL & KR & p & H & parts & HK & Hp & HI & HB & HF & Hd).
    apply (rmd_padded_iff m p Hm) in Hp. subst p. apply rmd_constants_iff in HK.
    rewrite Hn, Dn in HB, HF.
    assert (Q : forall i, (i <= n)%nat -> H i = rconv (rmd_blocks i rmd_iv (words_le (rmd_pad m)))).
    { induction i as [|i IH]; intros Hi; [exact HI|]. specialize (HB i ltac:(lia)). rewrite IH in HB by lia.
      apply (rmd_block_iff KL KR (rmd_pad m) n i HK Hn) in HB; [exact HB|lia]. }
    rewrite (Q n) in HF by lia. fold st in HF. rewrite E.
    apply (proj1 (rdigest_iff _ parts d Gst)). split; [exact HF|exact Hd].
  - intros ->. exists (fun r => zn (nth r kl 0%N)), (fun r => zn (nth r kr 0%N)), (rmd_pad m),
      (fun i => rconv (rmd_blocks i rmd_iv (words_le (rmd_pad m)))), (map word_bytes_le [rA st; rB st; rC st; rD st; rE st]).
    assert (HK : right_constants (fun r => zn (nth r kl 0%N)) (fun r => zn (nth r kr 0%N))) by (intros r _; split; reflexivity).
    split; [apply rmd_constants_iff, HK|]. split; [apply rmd_padded_iff; [exact Hm|reflexivity]|].
    split; [reflexivity|]. rewrite Hn, Dn. split.
    + intros i Hi. apply (rmd_block_iff _ _ (rmd_pad m) n i HK Hn Hi). reflexivity.
    + apply (proj2 (rdigest_iff _ [] (ripemd160 m) Gst)), E.
Qed.
