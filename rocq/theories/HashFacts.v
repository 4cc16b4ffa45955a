(** * The executable hash functions are the standards' (C92) *)

From Coq Require FinFun.
From Coq Require Import Znumtheory NArith.
From Verif Require Import GoBase Sha256 Ripemd160 Spec SpecFacts GenFacts SpecHash.
Local Open Scope Z_scope.

Notation zn := Z.of_N.
Notation M32 := (2 ^ 32).

(** ** Words *)

Lemma zn_bit a i : 0 <= i -> Z.testbit (zn a) i = N.testbit a (Z.to_N i).
Proof. intros H. rewrite <- (Z2N.id i H) at 1. apply Z.testbit_of_N. Qed.
Lemma zn_land a b : zn (N.land a b) = Z.land (zn a) (zn b).
Proof. apply Z.bits_inj'. intros i Hi. rewrite Z.land_spec, !zn_bit, N.land_spec by exact Hi. reflexivity. Qed.
Lemma zn_lor a b : zn (N.lor a b) = Z.lor (zn a) (zn b).
Proof. apply Z.bits_inj'. intros i Hi. rewrite Z.lor_spec, !zn_bit, N.lor_spec by exact Hi. reflexivity. Qed.
Lemma zn_lxor a b : zn (N.lxor a b) = Z.lxor (zn a) (zn b).
Proof. apply Z.bits_inj'. intros i Hi. rewrite Z.lxor_spec, !zn_bit, N.lxor_spec by exact Hi. reflexivity. Qed.
Lemma zn_shiftr a n : zn (N.shiftr a n) = shift_right (zn n) (zn a).
Proof. unfold shift_right. rewrite N.shiftr_div_pow2, N2Z.inj_div, N2Z.inj_pow. reflexivity. Qed.
Lemma zn_shiftl a n : zn (N.shiftl a n) = zn a * 2 ^ zn n.
Proof. rewrite N.shiftl_mul_pow2, N2Z.inj_mul, N2Z.inj_pow. reflexivity. Qed.
Lemma zn_w32 a : zn (w32 a) = zn a mod M32.
Proof. unfold w32. change 0xffffffff%N with (N.ones 32). rewrite N.land_ones, N2Z.inj_mod by discriminate. reflexivity. Qed.
Lemma zn_add32 a b : zn (add32 a b) = (zn a + zn b) mod M32.
Proof. unfold add32. rewrite zn_w32, N2Z.inj_add. reflexivity. Qed.

Definition word (x : N) : Prop := zn x < M32.
Lemma word_range x : word x -> 0 <= zn x < M32.
Proof. unfold word. pose proof (N2Z.is_nonneg x). lia. Qed.
Lemma w32_word x : word (w32 x).
Proof. unfold word. rewrite zn_w32. apply Z.mod_pos_bound. reflexivity. Qed.
Lemma add32_word a b : word (add32 a b).
Proof. apply w32_word. Qed.

Lemma zn_not32 x : word x -> zn (not32 x) = complement32 (zn x).
Proof.
  intros H. apply word_range in H. unfold not32, complement32. rewrite zn_lxor.
  change (zn 0xffffffff) with (Z.ones 32).
  assert (A : Z.land (zn x) (Z.lxor (zn x) (Z.ones 32)) = 0).
  { apply Z.bits_inj'. intros i Hi. rewrite Z.land_spec, Z.lxor_spec, Z.bits_0, Z.testbit_ones_nonneg by lia.
    destruct (Z.ltb_spec i 32).
    - destruct (Z.testbit (zn x) i); reflexivity.
    - rewrite <- (Z.mod_small (zn x) (2 ^ 32)) by exact H. rewrite Z.mod_pow2_bits_high by lia. reflexivity. }
  pose proof (Z.add_nocarry_lxor _ _ A) as B.
  rewrite <- Z.lxor_assoc, Z.lxor_nilpotent, Z.lxor_0_l in B. change (Z.ones 32) with (M32 - 1) in *. lia.
Qed.

Lemma rotate_range n x : 0 <= n <= 32 -> 0 <= x < M32 -> 0 <= rotate_right n x < M32.
Proof.
  intros Hn Hx. unfold rotate_right.
  assert (P : 0 < 2 ^ n) by (apply Z.pow_pos_nonneg; lia).
  assert (Q : 0 < 2 ^ (32 - n)) by (apply Z.pow_pos_nonneg; lia).
  assert (R : 2 ^ n * 2 ^ (32 - n) = M32) by (rewrite <- Z.pow_add_r by lia; f_equal; lia).
  pose proof (Z.mod_pos_bound x (2 ^ n) P).
  assert (D : 0 <= x / 2 ^ n < 2 ^ (32 - n)).
  { split; [apply Z.div_pos; lia|]. apply Z.div_lt_upper_bound; [exact P|]. lia. }
  split; [nia|]. nia.
Qed.

Lemma zn_rotr n x : (n <= 32)%N -> word x -> zn (rotr n x) = rotate_right (zn n) (zn x).
Proof.
  intros Hn H. apply word_range in H. unfold rotr.
  rewrite zn_lor, zn_shiftr, zn_w32, zn_shiftl, N2Z.inj_sub by exact Hn. change (zn 32) with 32.
  assert (Hz : 0 <= zn n <= 32) by lia. generalize dependent (zn n). intros k Hk. generalize dependent (zn x). intros y Hy.
  assert (P : 0 < 2 ^ k) by (apply Z.pow_pos_nonneg; lia).
  assert (Q : 0 < 2 ^ (32 - k)) by (apply Z.pow_pos_nonneg; lia).
  assert (R : 2 ^ k * 2 ^ (32 - k) = M32) by (rewrite <- Z.pow_add_r by lia; f_equal; lia).
  rewrite <- R, Z.mul_mod_distr_r by lia. unfold rotate_right, shift_right.
  assert (D : 0 <= y / 2 ^ k < 2 ^ (32 - k)).
  { split; [apply Z.div_pos; lia|]. apply Z.div_lt_upper_bound; lia. }
  assert (A : Z.land (y / 2 ^ k) (y mod 2 ^ k * 2 ^ (32 - k)) = 0).
  { apply Z.bits_inj'. intros i Hi. rewrite Z.land_spec, Z.bits_0.
    destruct (Z.ltb_spec i (32 - k)).
    - rewrite Z.mul_pow2_bits_low by lia. apply andb_false_r.
    - rewrite <- (Z.mod_small (y / 2 ^ k) (2 ^ (32 - k))) by exact D. rewrite Z.mod_pow2_bits_high by lia. reflexivity. }
  rewrite <- Z.lxor_lor by exact A. symmetry. apply Z.add_nocarry_lxor, A.
Qed.
Lemma rotr_word n x : (n <= 32)%N -> word x -> word (rotr n x).
Proof. intros Hn H. unfold word. rewrite zn_rotr by assumption. apply rotate_range; [lia|apply word_range, H]. Qed.

(** ** SHA-256 *)

Lemma zn_ch x y z : word x -> zn (ch x y z) = Ch (zn x) (zn y) (zn z).
Proof. intros H. unfold ch, Ch. rewrite zn_lxor, !zn_land, zn_not32 by exact H. reflexivity. Qed.
Lemma zn_maj x y z : zn (maj x y z) = Maj (zn x) (zn y) (zn z).
Proof. unfold maj, Maj. rewrite !zn_lxor, !zn_land. reflexivity. Qed.
Lemma zn_bsig0 x : word x -> zn (bsig0 x) = Sigma0 (zn x).
Proof. intros H. unfold bsig0, Sigma0. rewrite !zn_lxor, !zn_rotr by (exact H || discriminate). reflexivity. Qed.
Lemma zn_bsig1 x : word x -> zn (bsig1 x) = Sigma1 (zn x).
Proof. intros H. unfold bsig1, Sigma1. rewrite !zn_lxor, !zn_rotr by (exact H || discriminate). reflexivity. Qed.
Lemma zn_ssig0 x : word x -> zn (ssig0 x) = sigma0 (zn x).
Proof. intros H. unfold ssig0, sigma0. rewrite !zn_lxor, !zn_rotr, zn_shiftr by (exact H || discriminate). reflexivity. Qed.
Lemma zn_ssig1 x : word x -> zn (ssig1 x) = sigma1 (zn x).
Proof. intros H. unfold ssig1, sigma1. rewrite !zn_lxor, !zn_rotr, zn_shiftr by (exact H || discriminate). reflexivity. Qed.

Definition conv (s : hstate) : list Z :=
  map zn [hA s; hB s; hC s; hD s; hE s; hF s; hG s; hH s].
Definition good (s : hstate) : Prop :=
  Forall word [hA s; hB s; hC s; hD s; hE s; hF s; hG s; hH s].

Lemma round_good s k w : good s -> good (round s (k, w)).
Proof.
  intros G. unfold good in *. cbn [round hA hB hC hD hE hF hG hH].
  repeat match goal with H : Forall _ (_ :: _) |- _ => inversion H; clear H; subst end.
  repeat constructor; try assumption; apply add32_word.
Qed.

Lemma mod_sum a b a' b' : a mod M32 = a' mod M32 -> b mod M32 = b' mod M32 -> (a + b) mod M32 = (a' + b') mod M32.
Proof. intros H1 H2. rewrite Zplus_mod, H1, H2, <- Zplus_mod. reflexivity. Qed.
Lemma mod_twice a b : a mod M32 = b mod M32 -> (a mod M32) mod M32 = b mod M32.
Proof. rewrite Zmod_mod. auto. Qed.
Ltac unmod := first [apply mod_sum; [unmod|unmod] | apply mod_twice; unmod | reflexivity].
Ltac modsum := cbv zeta; eapply eq_trans; [unmod|]; symmetry; eapply eq_trans; [unmod|];
  apply (f_equal (fun x => x mod M32)); ring.

Lemma round_conv s k w : good s -> conv (round s (k, w)) = sha_step (conv s) (zn k) (zn w).
Proof.
  intros G. unfold good in G.
  repeat match goal with H : Forall _ (_ :: _) |- _ => inversion H; clear H; subst end.
  unfold conv, round, sha_step. cbn [map hA hB hC hD hE hF hG hH].
  rewrite !zn_add32, zn_bsig0, zn_bsig1, zn_ch, zn_maj by assumption.
  apply f_equal2; [modsum|]. do 3 (apply f_equal2; [reflexivity|]). apply f_equal2; [modsum|reflexivity].
Qed.

(** The window slides over an endless sequence of words. *)
Definition slide (win : list N) : list N :=
  tl win ++ [add32 (add32 (ssig1 (nth 14 win 0%N)) (nth 9 win 0%N)) (add32 (ssig0 (nth 1 win 0%N)) (nth 0 win 0%N))].
Definition emitted (block : list N) (t : nat) : N := nth 0 (Nat.iter t slide block) 0%N.

Lemma iter_shift {A} (f : A -> A) n x : Nat.iter n f (f x) = Nat.iter (S n) f x.
Proof. induction n as [|n IH]; [reflexivity|]. cbn [Nat.iter nat_rect] in *. unfold Nat.iter in *. cbn. rewrite IH. reflexivity. Qed.

Lemma schedule_emitted n : forall win, schedule n win = map (emitted win) (seq 0 n).
Proof.
  induction n as [|n IH]; intros win; [reflexivity|]. cbn [schedule seq map]. f_equal.
  fold (slide win). rewrite IH, <- seq_shift, map_map. apply map_ext. intros t. unfold emitted.
  rewrite iter_shift. reflexivity.
Qed.

Lemma slide_length win : length win = 16%nat -> length (slide win) = 16%nat.
Proof. intros H. unfold slide. rewrite app_length. destruct win; [discriminate|]. cbn in *. lia. Qed.
Lemma iter_slide_length block t : length block = 16%nat -> length (Nat.iter t slide block) = 16%nat.
Proof. intros H. induction t as [|t IH]; [exact H|]. cbn. apply slide_length, IH. Qed.

Lemma slide_nth win j : length win = 16%nat -> (j < 15)%nat -> nth j (slide win) 0%N = nth (S j) win 0%N.
Proof.
  intros H Hj. unfold slide. destruct win as [|x win]; [discriminate|]. cbn [tl length] in *.
  rewrite app_nth1 by lia. reflexivity.
Qed.
Lemma slide_last win : length win = 16%nat -> nth 15 (slide win) 0%N =
  add32 (add32 (ssig1 (nth 14 win 0%N)) (nth 9 win 0%N)) (add32 (ssig0 (nth 1 win 0%N)) (nth 0 win 0%N)).
Proof.
  intros H. unfold slide. destruct win as [|x win]; [discriminate|]. cbn [tl length] in *.
  rewrite app_nth2 by lia. replace (15 - length win)%nat with 0%nat by lia. reflexivity.
Qed.

Lemma window_emitted block : length block = 16%nat -> forall j t, (j < 16)%nat ->
  nth j (Nat.iter t slide block) 0%N = emitted block (t + j).
Proof.
  intros H. induction j as [|j IH]; intros t Hj; [rewrite Nat.add_0_r; reflexivity|].
  rewrite <- slide_nth by (try apply iter_slide_length; try assumption; lia).
  change (slide (Nat.iter t slide block)) with (Nat.iter (S t) slide block). rewrite IH by lia.
  f_equal. lia.
Qed.

Lemma emitted_first block t : length block = 16%nat -> (t < 16)%nat -> emitted block t = nth t block 0%N.
Proof. intros H Ht. symmetry. apply (window_emitted block H t 0 Ht). Qed.
Lemma emitted_next block t : length block = 16%nat ->
  emitted block (t + 16) =
  add32 (add32 (ssig1 (emitted block (t + 14))) (emitted block (t + 9))) (add32 (ssig0 (emitted block (t + 1))) (emitted block t)).
Proof.
  intros H. replace (t + 16)%nat with (S t + 15)%nat by lia. rewrite <- (window_emitted block H 15 (S t)) by lia.
  change (Nat.iter (S t) slide block) with (slide (Nat.iter t slide block)).
  rewrite slide_last by (apply iter_slide_length, H). rewrite !(window_emitted block H) by lia.
  rewrite Nat.add_0_r. reflexivity.
Qed.

Lemma emitted_word block : length block = 16%nat -> Forall word block -> forall t, word (emitted block t).
Proof.
  intros H HB t. destruct (Nat.lt_ge_cases t 16) as [Ht|Ht].
  - rewrite emitted_first by assumption. apply Forall_nth; [exact HB|lia].
  - replace t with ((t - 16) + 16)%nat by lia. rewrite emitted_next by exact H. apply add32_word.
Qed.

Lemma emitted_schedule block M : length block = 16%nat -> Forall word block ->
  (forall j, (j < 16)%nat -> M j = zn (nth j block 0%N)) ->
  forall W, sha_schedule M W <-> forall t, (t < 64)%nat -> W t = zn (emitted block t).
Proof.
  intros H HB HM.
  assert (R : forall t, (16 <= t)%nat -> zn (emitted block t) =
    (sigma1 (zn (emitted block (t - 2))) + zn (emitted block (t - 7)) +
     sigma0 (zn (emitted block (t - 15))) + zn (emitted block (t - 16))) mod M32).
  { intros t Ht. rewrite <- zn_ssig0, <- zn_ssig1 by (apply emitted_word; assumption).
    replace (emitted block t) with (emitted block ((t - 16) + 16)) by (f_equal; lia).
    rewrite emitted_next by exact H. rewrite !zn_add32.
    replace (t - 16 + 14)%nat with (t - 2)%nat by lia. replace (t - 16 + 9)%nat with (t - 7)%nat by lia.
    replace (t - 16 + 1)%nat with (t - 15)%nat by lia. modsum. }
  intros W. split.
  - intros [W1 W2] t. induction t as [t IH] using lt_wf_ind. intros Ht.
    destruct (Nat.lt_ge_cases t 16) as [Hl|Hl].
    + rewrite W1, emitted_first by assumption. apply HM, Hl.
    + rewrite W2, R by lia. rewrite !IH by lia. reflexivity.
  - intros HW. split.
    + intros t Ht. rewrite HW, emitted_first, HM by (assumption || lia). reflexivity.
    + intros t Ht. rewrite !HW by lia. apply R. lia.
Qed.

(** The rounds. *)
Lemma rounds_sequence ks : forall ws s (v : nat -> list Z), length ks = length ws -> good s -> v 0%nat = conv s ->
  (forall t, (t < length ks)%nat -> v (S t) = sha_step (v t) (zn (nth t ks 0%N)) (zn (nth t ws 0%N))) ->
  v (length ks) = conv (fold_left round (combine ks ws) s).
Proof.
  induction ks as [|k ks IH]; intros [|w ws] s v Hl G H0 Hv; try discriminate; [exact H0|].
  cbn [combine fold_left length]. apply (IH ws _ (fun t => v (S t))).
  - injection Hl as Hl. exact Hl.
  - apply round_good, G.
  - rewrite round_conv by exact G. rewrite (Hv 0%nat) by (cbn; lia). rewrite H0. reflexivity.
  - intros t Ht. rewrite (Hv (S t)) by (cbn; lia). reflexivity.
Qed.
Lemma rounds_good ks : forall ws s, good s -> good (fold_left round (combine ks ws) s).
Proof.
  induction ks as [|k ks IH]; intros [|w ws] s G; try exact G. cbn [combine fold_left]. apply IH, round_good, G.
Qed.

Lemma compress_good s b : good (compress s b).
Proof. unfold good, compress. cbn [hA hB hC hD hE hF hG hH]. repeat constructor; apply add32_word. Qed.

Definition K_table (t : nat) : Z := zn (nth t k256 0%N).

Lemma compress_block (K : nat -> Z) p i block s : (forall t, (t < 64)%nat -> K t = K_table t) ->
  length block = 16%nat -> Forall word block ->
  (forall j, (j < 16)%nat -> sha_word p i j = zn (nth j block 0%N)) -> good s ->
  forall h', sha_block K p i (conv s) h' <-> h' = conv (compress s block).
Proof.
  intros HK Hl HB HM G h'.
  assert (L : length k256 = 64%nat) by reflexivity.
  assert (A : forall r, add_words (conv s) (conv r) =
     conv (HS (add32 (hA s) (hA r)) (add32 (hB s) (hB r)) (add32 (hC s) (hC r)) (add32 (hD s) (hD r))
              (add32 (hE s) (hE r)) (add32 (hF s) (hF r)) (add32 (hG s) (hG r)) (add32 (hH s) (hH r)))).
  { intros r. unfold conv. cbn [map hA hB hC hD hE hF hG hH add_words]. rewrite !zn_add32. reflexivity. }
  assert (S : forall t, (t < 64)%nat -> nth t (schedule 64 block) 0%N = emitted block t).
  { intros t Ht. rewrite schedule_emitted. rewrite (nth_indep _ 0%N (emitted block 0)) by (rewrite map_length, seq_length; exact Ht).
    rewrite map_nth, seq_nth by exact Ht. reflexivity. }
  assert (LS : length (schedule 64 block) = 64%nat) by (rewrite schedule_emitted, map_length; apply seq_length).
  split.
  - intros (W & v & HW & H0 & Hv & ->). pose proof (proj1 (emitted_schedule block _ Hl HB HM W) HW) as HW'. clear HW.
    pose proof (rounds_sequence k256 (schedule 64 block) s v ltac:(rewrite L, LS; reflexivity) G H0) as Q. rewrite L in Q.
    rewrite Q, A; [reflexivity|]. intros t Ht. rewrite Hv, HK, HW', S by exact Ht. reflexivity.
  - intros ->.
    assert (V : exists v, v 0%nat = conv s /\ forall t, v (Datatypes.S t) = sha_step (v t) (K t) (zn (emitted block t)))
      by (exists (nat_rect (fun _ => list Z) (conv s) (fun t x => sha_step x (K t) (zn (emitted block t)))); auto).
    destruct V as (v & V0 & V1).
    pose proof (rounds_sequence k256 (schedule 64 block) s v ltac:(rewrite L, LS; reflexivity) G V0) as Q. rewrite L in Q.
    exists (fun t => zn (emitted block t)), v.
    split; [apply (proj2 (emitted_schedule block _ Hl HB HM _)); reflexivity|]. split; [exact V0|].
    split; [intros t _; apply V1|]. rewrite Q, A; [reflexivity|].
    intros t Ht. rewrite V1, HK, S by exact Ht. reflexivity.
Qed.

(** ** Constants *)

Definition primes64 : list Z :=
  [2; 3; 5; 7; 11; 13; 17; 19; 23; 29; 31; 37; 41; 43; 47; 53; 59; 61; 67; 71; 73; 79; 83; 89; 97; 101; 103; 107;
   109; 113; 127; 131; 137; 139; 149; 151; 157; 163; 167; 173; 179; 181; 191; 193; 197; 199; 211; 223; 227; 229;
   233; 239; 241; 251; 257; 263; 269; 271; 277; 281; 283; 293; 307; 311].
Definition upto (n : nat) : list Z := map Z.of_nat (seq 0 n).
Lemma in_upto n z : In z (upto n) <-> 0 <= z < Z.of_nat n.
Proof.
  unfold upto. rewrite in_map_iff. split.
  - intros (i & <- & Hi). apply in_seq in Hi. lia.
  - intros H. exists (Z.to_nat z). split; [lia|]. apply in_seq. lia.
Qed.
Definition primeb (p : Z) : bool := (1 <? p) && forallb (fun d => (d <=? 1) || negb (p mod d =? 0)) (upto (Z.to_nat p)).
Lemma primeb_prime p : primeb p = true <-> prime p.
Proof.
  unfold primeb. rewrite andb_true_iff, Z.ltb_lt, forallb_forall, <- prime_alt. split.
  - intros [H1 H2]. split; [exact H1|]. intros n Hn D. specialize (H2 n). rewrite in_upto in H2.
    specialize (H2 ltac:(lia)). apply Z.mod_divide in D; [|lia]. rewrite D in H2. cbn in H2.
    rewrite orb_false_r in H2. apply Z.leb_le in H2. lia.
  - intros [H1 H2]. split; [exact H1|]. intros n Hn. rewrite in_upto in Hn.
    destruct (Z.leb_spec n 1); [reflexivity|]. cbn [orb]. destruct (Z.eqb_spec (p mod n) 0) as [D|D]; [|reflexivity].
    exfalso. apply (H2 n); [lia|]. apply Z.mod_divide; [lia|exact D].
Qed.

Lemma primes64_all : filter primeb (upto 312) = primes64.
Proof. vm_compute. reflexivity. Qed.
Lemma primes64_in q : q < 312 -> (In q primes64 <-> prime q).
Proof.
  intros H. rewrite <- primes64_all, filter_In, in_upto, primeb_prime. split; [tauto|].
  intros P. split; [|exact P]. destruct P. lia.
Qed.

Lemma nth_prime_table t : (t < 64)%nat -> nth_prime t (nth t primes64 0).
Proof.
  intros Ht.
  assert (B : Forall (fun q => q < 312) primes64) by (repeat constructor).
  assert (I : In (nth t primes64 0) primes64) by (apply nth_In; exact Ht).
  assert (Hb : nth t primes64 0 < 312) by (rewrite Forall_forall in B; apply B, I).
  split; [apply primes64_in; assumption|].
  exists (filter (fun q => q <? nth t primes64 0) primes64). split; [|split].
  - apply NoDup_filter. rewrite <- primes64_all. apply NoDup_filter.
    apply FinFun.Injective_map_NoDup; [intros i j; apply Nat2Z.inj|apply seq_NoDup].
  - clear -Ht. do 64 (destruct t as [|t]; [vm_compute; reflexivity|]). lia.
  - intros q. rewrite filter_In, Z.ltb_lt. split.
    + intros [Hq Hl]. split; [apply primes64_in; [lia|exact Hq]|exact Hl].
    + intros [Hq Hl]. split; [apply primes64_in; [lia|exact Hq]|exact Hl].
Qed.

Lemma nth_prime_fun t p q : nth_prime t p -> nth_prime t q -> p = q.
Proof.
  assert (A : forall p q, nth_prime t p -> nth_prime t q -> p < q -> False).
  { clear p q. intros p q (Pp & l & Nl & Ll & Il) (Pq & l' & Nl' & Ll' & Il') H.
    assert (N : NoDup (p :: l)) by (constructor; [rewrite Il; lia|exact Nl]).
    assert (In_ : incl (p :: l) l').
    { intros x [<-|Hx]; apply Il'; [auto|]. apply Il in Hx as [Hx1 Hx2]. split; [exact Hx1|lia]. }
    pose proof (NoDup_incl_length N In_) as K. cbn [length] in K. lia. }
  intros Hp Hq. destruct (Z.lt_trichotomy p q) as [H|[H|H]]; [exfalso; eauto|exact H|exfalso; eauto].
Qed.

Lemma root_unique e X r r' : 0 < e -> 0 <= r -> 0 <= r' ->
  r ^ e <= X < (r + 1) ^ e -> r' ^ e <= X < (r' + 1) ^ e -> r = r'.
Proof.
  intros He Hr Hr' H H'.
  assert (A : forall a b, 0 <= a -> 0 <= b -> a ^ e <= X -> X < (b + 1) ^ e -> a <= b).
  { intros a b Ha Hb H1 H2. destruct (Z_le_gt_dec a b); [assumption|exfalso].
    assert ((b + 1) ^ e <= a ^ e) by (apply Z.pow_le_mono_l; lia). lia. }
  apply Z.le_antisymm; apply A; lia.
Qed.
Lemma root_fraction_fun e p k k' : 0 < e -> root_fraction e p k -> root_fraction e p k' -> k = k'.
Proof.
  intros He (R & a & Ha & H) (R' & a' & Ha' & H').
  assert (K : a * 2 ^ 32 + k = a' * 2 ^ 32 + k') by (apply (root_unique e (p * 2 ^ (32 * e))); lia).
  assert (a = a') by nia. subst. lia.
Qed.
Lemma root_integer_fun e p k k' : 0 < e -> root_integer e p k -> root_integer e p k' -> k = k'.
Proof. intros He (R & H) (R' & H'). apply (root_unique e (p * 2 ^ (30 * e))); assumption. Qed.

Definition root_fractionb (e p k : Z) : bool :=
  (0 <=? k) && (k <? 2 ^ 32) &&
  existsb (fun a => ((a * 2 ^ 32 + k) ^ e <=? p * 2 ^ (32 * e)) && (p * 2 ^ (32 * e) <? (a * 2 ^ 32 + k + 1) ^ e)) (upto 8).
Lemma root_fractionb_true e p k : root_fractionb e p k = true -> root_fraction e p k.
Proof.
  unfold root_fractionb, root_fraction. rewrite !andb_true_iff, existsb_exists, Z.leb_le, Z.ltb_lt.
  intros [[H1 H2] (a & Ha & H)]. apply in_upto in Ha. rewrite andb_true_iff, Z.leb_le, Z.ltb_lt in H.
  split; [lia|]. exists a. split; [lia|exact H].
Qed.

Lemma K_table_roots : forall t, (t < 64)%nat -> root_fraction 3 (nth t primes64 0) (K_table t).
Proof.
  assert (C : forallb (fun t => root_fractionb 3 (nth t primes64 0) (K_table t)) (seq 0 64) = true) by (vm_compute; reflexivity).
  intros t Ht. rewrite forallb_forall in C. apply root_fractionb_true, C, in_seq. lia.
Qed.
Lemma iv_roots : forall j, (j < 8)%nat -> root_fraction 2 (nth j primes64 0) (nth j (conv sha_iv) 0).
Proof.
  assert (C : forallb (fun t => root_fractionb 2 (nth t primes64 0) (nth t (conv sha_iv) 0)) (seq 0 8) = true) by (vm_compute; reflexivity).
  intros t Ht. rewrite forallb_forall in C. apply root_fractionb_true, C, in_seq. lia.
Qed.

Lemma sha_constants_iff K : sha_constants K <-> forall t, (t < 64)%nat -> K t = K_table t.
Proof.
  split.
  - intros H t Ht. destruct (H t Ht) as (p & Hp & Hk). rewrite (nth_prime_fun _ _ _ Hp (nth_prime_table t Ht)) in Hk.
    apply (root_fraction_fun 3 (nth t primes64 0)); [lia|exact Hk|]. apply K_table_roots, Ht.
  - intros H t Ht. exists (nth t primes64 0). split; [apply nth_prime_table, Ht|]. rewrite H by exact Ht. apply K_table_roots, Ht.
Qed.
Lemma sha_initial_iff H : sha_initial H <-> H = conv sha_iv.
Proof.
  split.
  - intros [Hl HJ]. apply (nth_ext _ _ 0 0); [rewrite Hl; reflexivity|]. intros j Hj. rewrite Hl in Hj.
    destruct (HJ j Hj) as (p & Hp & Hk). rewrite (nth_prime_fun _ _ _ Hp (nth_prime_table j ltac:(lia))) in Hk.
    apply (root_fraction_fun 2 (nth j primes64 0)); [lia|exact Hk|]. apply iv_roots, Hj.
  - intros ->. split; [reflexivity|]. intros j Hj. exists (nth j primes64 0). split; [apply nth_prime_table; lia|].
    apply iv_roots, Hj.
Qed.

(** ** Bytes and words *)

Lemma bytes_number_1 b : bytes_number [b] = byte_number b.
Proof. unfold bytes_number. cbn. lia. Qed.
Lemma bytes_number_cons b bs : bytes_number (b :: bs) = byte_number b * 256 ^ Z.of_nat (length bs) + bytes_number bs.
Proof. change (b :: bs) with ([b] ++ bs). rewrite bytes_number_app, bytes_number_1. reflexivity. Qed.
Lemma bytes_number_4 a b c d : bytes_number [a; b; c; d] =
  byte_number a * 16777216 + byte_number b * 65536 + byte_number c * 256 + byte_number d.
Proof. rewrite !bytes_number_cons. cbn [length]. change (bytes_number []) with 0. cbn. lia. Qed.
Lemma byte_number_range b : 0 <= byte_number b < 256.
Proof. destruct b; vm_compute; split; congruence. Qed.

Lemma nbyte_number n : byte_number (nbyte n) = zn n mod 256.
Proof.
  unfold nbyte. pose proof (N.land_ones n 8) as L. change (N.ones 8) with 255%N in L.
  assert (E : zn (N.land n 255) = zn n mod 256) by (rewrite L, N2Z.inj_mod; reflexivity).
  pose proof (Z.mod_pos_bound (zn n) 256 ltac:(lia)) as B.
  destruct (Byte.of_N (N.land n 255)) as [b|] eqn:O.
  - apply Byte.to_of_N in O. unfold byte_number. rewrite O, E. reflexivity.
  - apply Byte.of_N_None_iff in O. exfalso. lia.
Qed.

Lemma word_bytes_octets w : word w -> octets 4 (zn w) (word_bytes_be w).
Proof.
  intros H. apply word_range in H. split; [reflexivity|]. unfold word_bytes_be.
  rewrite bytes_number_4, !nbyte_number, !zn_shiftr. unfold shift_right.
  change (zn 24) with 24. change (zn 16) with 16. change (zn 8) with 8.
  generalize dependent (zn w). intros z H. change (2 ^ 24) with 16777216. change (2 ^ 16) with 65536. change (2 ^ 8) with 256.
  change M32 with 4294967296 in H.
  rewrite (Z.mod_small (z / 16777216)) by (split; [apply Z.div_pos; lia|apply Z.div_lt_upper_bound; lia]).
  replace (z / 16777216) with (z / 256 / 256 / 256) by (rewrite !Z.div_div by lia; reflexivity).
  replace (z / 65536) with (z / 256 / 256) by (rewrite !Z.div_div by lia; reflexivity).
  pose proof (Z.div_mod z 256 ltac:(lia)). pose proof (Z.div_mod (z / 256) 256 ltac:(lia)).
  pose proof (Z.div_mod (z / 256 / 256) 256 ltac:(lia)). lia.
Qed.
Lemma word_bytes_le_rev w : word_bytes_le w = rev (word_bytes_be w).
Proof. reflexivity. Qed.

Lemma octets_app k l x y a b : octets k x a -> octets l y b -> octets (k + l) (x * 256 ^ Z.of_nat l + y) (a ++ b).
Proof. intros [H1 H2] [H3 H4]. split; [rewrite app_length; lia|]. rewrite bytes_number_app, H2, H3, H4. reflexivity. Qed.

Lemma length_bytes bits : zn bits < 2 ^ 64 ->
  octets 8 (zn bits) (word_bytes_be (N.shiftr bits 32) ++ word_bytes_be (w32 bits)).
Proof.
  intros H.
  assert (W : word (N.shiftr bits 32)).
  { unfold word. rewrite zn_shiftr. unfold shift_right. change (zn 32) with 32. apply Z.div_lt_upper_bound; [lia|].
    change (M32 * M32) with (2 ^ 64). exact H. }
  pose proof (octets_app 4 4 _ _ _ _ (word_bytes_octets _ W) (word_bytes_octets _ (w32_word bits))) as O.
  replace (zn bits) with (zn (N.shiftr bits 32) * 256 ^ Z.of_nat 4 + zn (w32 bits)); [exact O|].
  rewrite zn_shiftr, zn_w32. unfold shift_right. change (zn 32) with 32. change (256 ^ Z.of_nat 4) with M32.
  pose proof (Z.div_mod (zn bits) M32 ltac:(lia)). lia.
Qed.

Lemma zero_pad_iff l k : (k < 64)%nat /\ ((l + 1 + k) mod 64 = 56)%nat <-> k = zero_pad l.
Proof.
  unfold zero_pad. pose proof (Z.mod_pos_bound (55 - Z.of_nat l) 64 ltac:(lia)) as B.
  pose proof (Z.div_mod (55 - Z.of_nat l) 64 ltac:(lia)) as D.
  pose proof (Nat.div_mod (l + 1 + k) 64 ltac:(lia)) as D'. pose proof (Nat.mod_upper_bound (l + 1 + k) 64 ltac:(lia)).
  split.
  - intros [H1 H2]. rewrite H2 in D'.
    assert (Z.of_nat k = (55 - Z.of_nat l) mod 64); [|lia].
    apply Z.mod_unique with (q := - Z.of_nat ((l + 1 + k) / 64)); [lia|]. lia.
  - intros E. assert (K : Z.of_nat k = (55 - Z.of_nat l) mod 64) by (rewrite E; apply Z2Nat.id; lia). split; [lia|].
    symmetry. apply Nat.mod_unique with (q := Z.to_nat (- ((55 - Z.of_nat l) / 64))); [lia|].
    assert ((55 - Z.of_nat l) / 64 < 1) by (apply Z.div_lt_upper_bound; lia). lia.
Qed.

Lemma sha_padded_iff m p : 8 * Z.of_nat (length m) < 2 ^ 64 -> sha_padded m p <-> p = sha_pad m.
Proof.
  intros H. unfold sha_padded, sha_pad. cbv zeta.
  assert (E : zn (N.of_nat (length m) * 8) = 8 * Z.of_nat (length m)) by (rewrite N2Z.inj_mul, nat_N_Z; apply Z.mul_comm).
  pose proof (length_bytes (N.of_nat (length m) * 8)) as O. rewrite E in O. specialize (O H).
  set (L0 := word_bytes_be (N.shiftr (N.of_nat (length m) * 8) 32) ++ word_bytes_be (w32 (N.of_nat (length m) * 8))) in *.
  split.
  - intros (k & L & H1 & H2 & HL & ->). rewrite (octets_fun _ _ _ _ HL O).
    rewrite (proj1 (zero_pad_iff (length m) k) (conj H1 H2)). reflexivity.
  - intros ->. exists (zero_pad (length m)), L0. destruct (proj2 (zero_pad_iff (length m) _) eq_refl) as [H1 H2].
    split; [exact H1|]. split; [exact H2|]. split; [exact O|reflexivity].
Qed.

Lemma pad_multiple (m L : list byte) : length L = 8%nat ->
  exists n, length (m ++ x80 :: repeat x00 (zero_pad (length m)) ++ L) = (64 * n)%nat.
Proof.
  intros HL. destruct (proj2 (zero_pad_iff (length m) _) eq_refl) as [_ H].
  pose proof (Nat.div_mod (length m + 1 + zero_pad (length m)) 64 ltac:(lia)) as D. rewrite H in D.
  exists (S ((length m + 1 + zero_pad (length m)) / 64)). rewrite app_length. cbn [length]. rewrite app_length, repeat_length, HL. lia.
Qed.

(** Words of a text of a whole number of words. *)
Lemma list4_ind {A} (P : list A -> Prop) : P [] -> (forall a, P [a]) -> (forall a b, P [a; b]) -> (forall a b c, P [a; b; c]) ->
  (forall a b c d l, P l -> P (a :: b :: c :: d :: l)) -> forall l, P l.
Proof.
  intros H0 H1 H2 H3 H4. fix F 1. intros [|a [|b [|c [|d l]]]]; [exact H0|apply H1|apply H2|apply H3|apply H4, F].
Qed.
Lemma words_be_length bs : forall n, length bs = (4 * n)%nat -> length (words_be bs) = n.
Proof.
  induction bs as [|a|a b|a b c|a b c d bs IH] using list4_ind; intros n H; cbn [length words_be] in *; try lia.
  destruct n as [|n]; [lia|]. f_equal. apply IH. lia.
Qed.
Lemma words_be_word bs : Forall word (words_be bs).
Proof.
  induction bs as [|a|a b|a b c|a b c d bs IH] using list4_ind; cbn [words_be]; try constructor; [|exact IH].
  unfold word. rewrite !N2Z.inj_add, !N2Z.inj_mul.
  pose proof (byte_number_range a). pose proof (byte_number_range b). pose proof (byte_number_range c). pose proof (byte_number_range d).
  unfold byte_number in *. cbn [Z.of_N]. change M32 with 4294967296. lia.
Qed.
Lemma words_be_nth bs : forall n j, length bs = (4 * n)%nat -> (j < n)%nat ->
  zn (nth j (words_be bs) 0%N) = bytes_number (substring bs (4 * j) (4 * j + 4)).
Proof.
  induction bs as [|a|a b|a b c|a b c d bs IH] using list4_ind; intros n j H Hj; cbn [length] in H; try lia.
  destruct j as [|j].
  - cbn [words_be nth]. unfold substring. rewrite Nat.mul_0_r. cbn [Nat.add Nat.sub skipn firstn].
    rewrite bytes_number_4. unfold byte_number. rewrite !N2Z.inj_add, !N2Z.inj_mul. reflexivity.
  - cbn [words_be nth]. rewrite (IH (n - 1)%nat j) by lia. unfold substring.
    replace (4 * S j + 4 - 4 * S j)%nat with (4 * j + 4 - 4 * j)%nat by lia.
    replace (4 * S j)%nat with (S (S (S (S (4 * j)))))%nat by lia. reflexivity.
Qed.

(** ** Blocks *)

Lemma skipn_skipn {A} (l : list A) : forall a b, skipn a (skipn b l) = skipn (b + a) l.
Proof.
  induction l as [|x l IH]; intros a [|b]; cbn [skipn Nat.add]; [reflexivity| |reflexivity|apply IH].
  destruct a; reflexivity.
Qed.

Lemma sha_blocks_step n : forall i s ws, length ws = (16 * n)%nat -> (i < n)%nat ->
  sha_blocks (S i) s ws = compress (sha_blocks i s ws) (firstn 16 (skipn (16 * i) ws)).
Proof.
  induction n as [|n IH]; intros i s ws H Hi; [lia|].
  destruct ws as [|w ws]; [cbn in H; lia|].
  destruct i as [|i]; [reflexivity|].
  change (sha_blocks (S (S i)) s (w :: ws)) with (sha_blocks (S i) (compress s (firstn 16 (w :: ws))) (skipn 16 (w :: ws))).
  change (sha_blocks (S i) s (w :: ws)) with (sha_blocks i (compress s (firstn 16 (w :: ws))) (skipn 16 (w :: ws))).
  rewrite IH by (rewrite ?skipn_length; lia). f_equal. f_equal.
  rewrite skipn_skipn. f_equal. lia.
Qed.
Lemma sha_blocks_enough n : forall f s ws, length ws = (16 * n)%nat -> (n <= f)%nat -> sha_blocks f s ws = sha_blocks n s ws.
Proof.
  induction n as [|n IH]; intros f s ws H Hf.
  - destruct ws; [|cbn in H; lia]. destruct f; reflexivity.
  - destruct f as [|f]; [lia|]. destruct ws as [|w ws]; [cbn in H; lia|].
    cbn [sha_blocks]. apply IH; [rewrite skipn_length; lia|lia].
Qed.
Lemma sha_blocks_good i : forall s ws, good s -> good (sha_blocks i s ws).
Proof.
  induction i as [|i IH]; intros s ws G; [exact G|]. destruct ws as [|w ws]; [exact G|].
  cbn [sha_blocks]. apply IH, compress_good.
Qed.
Lemma iv_good : good sha_iv.
Proof. repeat constructor. Qed.

Lemma nth_firstn {A} (l : list A) n j d : (j < n)%nat -> nth j (firstn n l) d = nth j l d.
Proof.
  revert n j. induction l as [|x l IH]; intros [|n] [|j] H; cbn; try lia; try reflexivity. apply IH. lia.
Qed.
Lemma nth_skipn {A} (l : list A) n j d : nth j (skipn n l) d = nth (n + j) l d.
Proof. revert n. induction l as [|x l IH]; intros [|n]; cbn; try reflexivity; [destruct j; reflexivity|apply IH]. Qed.
Lemma Forall_skipn {A} (P : A -> Prop) n l : Forall P l -> Forall P (skipn n l).
Proof. intros H. revert n. induction H as [|x l Hx H IH]; intros [|n]; cbn; auto. Qed.
Lemma Forall_firstn {A} (P : A -> Prop) n l : Forall P l -> Forall P (firstn n l).
Proof. intros H. revert n. induction H as [|x l Hx H IH]; intros [|n]; cbn; auto. Qed.

Lemma sha_block_iff K p n i : (forall t, (t < 64)%nat -> K t = K_table t) -> length p = (64 * n)%nat -> (i < n)%nat ->
  forall h', sha_block K p i (conv (sha_blocks i sha_iv (words_be p))) h' <->
    h' = conv (sha_blocks (S i) sha_iv (words_be p)).
Proof.
  intros HK Hp Hi h'.
  assert (Lw : length (words_be p) = (16 * n)%nat) by (apply words_be_length; lia).
  rewrite (sha_blocks_step n) by assumption. apply compress_block.
  - exact HK.
  - rewrite firstn_length, skipn_length, Lw. lia.
  - apply Forall_firstn, Forall_skipn, words_be_word.
  - intros j Hj. rewrite nth_firstn, nth_skipn by exact Hj. rewrite (words_be_nth p (16 * n)) by lia.
    unfold sha_word. f_equal. f_equal; lia.
  - apply sha_blocks_good, iv_good.
Qed.

Lemma digest_iff ws parts d : Forall word ws ->
  (Forall2 (octets 4) (map zn ws) parts /\ d = concat parts -> d = flat_map word_bytes_be ws) /\
  (d = flat_map word_bytes_be ws -> Forall2 (octets 4) (map zn ws) (map word_bytes_be ws) /\ d = concat (map word_bytes_be ws)).
Proof.
  intros HW. split.
  - intros [HF ->]. revert parts HF. induction HW as [|w ws Hw _ IH]; intros parts HF; inversion HF; subst; [reflexivity|].
    cbn [concat flat_map]. f_equal; [|apply IH; assumption]. eapply octets_fun; [eassumption|]. apply word_bytes_octets, Hw.
  - intros ->. split; [|apply flat_map_concat_map].
    induction HW as [|w ws Hw _ IH]; cbn [map]; constructor; [apply word_bytes_octets, Hw|exact IH].
Qed.

Theorem sha256_standard m d : 8 * Z.of_nat (length m) < 2 ^ 64 -> is_sha256 m d <-> d = sha256 m.
Proof.
  intros Hm. destruct (pad_multiple m (word_bytes_be (N.shiftr (N.of_nat (length m) * 8) 32) ++ word_bytes_be (w32 (N.of_nat (length m) * 8))) eq_refl) as [n Hn].
  fold (sha_pad m) in Hn.
  assert (Lw : length (words_be (sha_pad m)) = (16 * n)%nat) by (apply words_be_length; lia).
  set (st := sha_blocks n sha_iv (words_be (sha_pad m))).
  assert (Gst : good st) by (apply sha_blocks_good, iv_good).
  assert (E : sha256 m = flat_map word_bytes_be [hA st; hB st; hC st; hD st; hE st; hF st; hG st; hH st]).
  { unfold sha256. cbv zeta. rewrite (sha_blocks_enough n) by (rewrite ?Lw; lia). fold st. cbn [flat_map].
    rewrite app_nil_r. reflexivity. }
  assert (Dn : (64 * n / 64 = n)%nat) by (rewrite Nat.mul_comm; apply Nat.div_mul; lia).
  split.
  - intros (K & p & H & parts & HK & Hp & HI & HB & HF & Hd).
    apply (sha_padded_iff m p Hm) in Hp. subst p. pose proof (proj1 (sha_constants_iff K) HK) as HK'. apply sha_initial_iff in HI.
    rewrite Hn, Dn in HB, HF.
    assert (Q : forall i, (i <= n)%nat -> H i = conv (sha_blocks i sha_iv (words_be (sha_pad m)))).
    { induction i as [|i IH]; intros Hi; [exact HI|]. specialize (HB i ltac:(lia)). rewrite IH in HB by lia.
      apply (sha_block_iff K (sha_pad m) n i HK' Hn) in HB; [exact HB|lia]. }
    rewrite (Q n) in HF by lia. fold st in HF. rewrite E.
    apply (proj1 (digest_iff _ parts d Gst)). split; [exact HF|exact Hd].
  - intros ->. exists K_table, (sha_pad m), (fun i => conv (sha_blocks i sha_iv (words_be (sha_pad m)))),
      (map word_bytes_be [hA st; hB st; hC st; hD st; hE st; hF st; hG st; hH st]).
    split; [apply sha_constants_iff; reflexivity|]. split; [apply sha_padded_iff; [exact Hm|reflexivity]|].
    split; [apply sha_initial_iff; reflexivity|]. rewrite Hn, Dn. split.
    + intros i Hi. apply (sha_block_iff K_table (sha_pad m) n i); [reflexivity|exact Hn|exact Hi|reflexivity].
    + apply (proj2 (digest_iff _ [] (sha256 m) Gst)), E.
Qed.
