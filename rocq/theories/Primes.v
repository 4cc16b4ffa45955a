(** * The field prime P and the group order N of btc.go are prime

    A Pocklington certificate for each number, checked by computation; the
    criterion itself is proved in [NumTheory.v]. *)

From Coq Require Import Znumtheory Zpow_facts.
From Verif Require Import GoBase Model EcRef NumTheory.
Local Open Scope Z_scope.

(** ** Square and multiply computes the power *)

Lemma powmod_pos_spec a e m : m <> 0 -> powmod_pos a e m = (a ^ Zpos e) mod m.
Proof.
  intros Hm. induction e as [e IH|e IH|]; cbn [powmod_pos].
  - rewrite IH. rewrite Pos2Z.inj_xI.
    rewrite Z.pow_add_r, Z.pow_twice_r, Z.pow_1_r by lia.
    rewrite <- Zmult_mod. rewrite Zmult_mod, Zmod_mod, <- Zmult_mod. reflexivity.
  - rewrite IH. rewrite Pos2Z.inj_xO, Z.pow_twice_r, <- Zmult_mod. reflexivity.
  - rewrite Z.pow_1_r. reflexivity.
Qed.

Lemma powmod_spec a e m : m <> 0 -> 0 <= e -> powmod a e m = (a ^ e) mod m.
Proof.
  intros Hm He. destruct e as [|e|e]; [reflexivity|apply powmod_pos_spec; exact Hm|lia].
Qed.

(** The same with another way of reducing, once per bit for the first exponent
    (quick when [a] is small). *)
Section Reduction.
Context (rd : Z -> Z).
Fixpoint pow_small (a : Z) (e : positive) : Z :=
  match e with
  | xH => rd a
  | xO e' => let r := pow_small a e' in rd (r * r)
  | xI e' => let r := pow_small a e' in rd (r * r * a)
  end.
Fixpoint pow_big (a : Z) (e : positive) : Z :=
  match e with
  | xH => rd a
  | xO e' => let r := pow_big a e' in rd (r * r)
  | xI e' => let r := pow_big a e' in rd (rd (r * r) * a)
  end.
Context (m : Z) (Hm : m <> 0) (Hrd : forall x, rd x = x mod m).
Lemma pow_small_spec a e : pow_small a e = (a ^ Zpos e) mod m.
Proof.
  rewrite <- powmod_pos_spec by exact Hm.
  induction e as [e IH|e IH|]; cbn [pow_small powmod_pos]; rewrite ?Hrd, ?IH; try reflexivity.
  rewrite Zmult_mod_idemp_l. reflexivity.
Qed.
Lemma pow_big_spec a e : pow_big a e = (a ^ Zpos e) mod m.
Proof.
  rewrite <- powmod_pos_spec by exact Hm.
  induction e as [e IH|e IH|]; cbn [pow_big powmod_pos]; rewrite ?Hrd, ?IH; reflexivity.
Qed.
End Reduction.

(** Reduction modulo n = 2^k - c by folding the high part. *)
Definition fold_high (k c x : Z) : Z := let hi := Z.shiftr x k in hi * c + (x - Z.shiftl hi k).
Definition fold_mod (k n x : Z) : Z :=
  let c := 2 ^ k - n in
  let r := fold_high k c (fold_high k c (fold_high k c x)) in
  if (0 <=? r) && (r <? n) then r else r mod n.

Lemma fold_high_mod k n x : 0 <= k -> n <> 0 -> fold_high k (2 ^ k - n) x mod n = x mod n.
Proof.
  intros Hk Hn. unfold fold_high. rewrite Z.shiftl_mul_pow2 by lia. set (hi := Z.shiftr x k).
  replace (hi * (2 ^ k - n) + (x - hi * 2 ^ k)) with (x + (- hi) * n) by ring. apply Z.mod_add, Hn.
Qed.
Lemma fold_mod_ok k n x : 0 <= k -> n <> 0 -> fold_mod k n x = x mod n.
Proof.
  intros Hk Hn. unfold fold_mod. cbv zeta.
  rewrite <- (fold_high_mod k n x), <- (fold_high_mod k n (fold_high k (2 ^ k - n) x)),
    <- (fold_high_mod k n (fold_high k (2 ^ k - n) (fold_high k (2 ^ k - n) x))) by assumption.
  generalize (fold_high k (2 ^ k - n) (fold_high k (2 ^ k - n) (fold_high k (2 ^ k - n) x))). intros r.
  destruct (Z.leb_spec 0 r), (Z.ltb_spec r n); cbn [andb]; try reflexivity.
  symmetry. apply Z.mod_small. lia.
Qed.

(** ** Trial division for the small leaves *)

Fixpoint trial (fuel : nat) (k n : Z) : bool :=
  match fuel with
  | O => false
  | S f => if n <? k * k then true else if n mod k =? 0 then false else trial f (k + 1) n
  end.

Lemma trial_ok fuel k n : 1 < k -> 1 < n -> trial fuel k n = true ->
  forall d, k <= d -> (d | n) -> n < d * d.
Proof.
  revert k. induction fuel as [|f IH]; intros k Hk Hn; cbn [trial]; [discriminate|].
  destruct (Z.ltb_spec n (k * k)) as [H|H].
  - intros _ d Hd D. nia.
  - destruct (Z.eqb_spec (n mod k) 0) as [E|E]; [discriminate|]. intros T d Hd D.
    destruct (Z.eq_dec d k) as [->|Hne].
    + apply Z.mod_divide in D; [|lia]. lia.
    + apply (IH (k + 1)); try assumption; lia.
Qed.

Lemma trial_prime n : (1 <? n) && trial 300 2 n = true -> prime n.
Proof.
  intros H. apply andb_prop in H. destruct H as [H1 H2]. apply Z.ltb_lt in H1.
  destruct (prime_dec n) as [P|P]; [exact P|].
  destruct (small_prime_divisor n H1 P) as (d & Pd & Dd & Hd).
  pose proof (prime_ge_2 d Pd).
  pose proof (trial_ok 300 2 n ltac:(lia) H1 H2 d ltac:(lia) Dd). lia.
Qed.

(** ** Checking a certificate *)

Definition check1 (rd : Z -> Z) (n : Z) (t : Z * Z * Z) : bool :=
  let '(q, e, a) := t in
  (1 <? q) && (1 <=? e) && ((n - 1) mod (q ^ e) =? 0) &&
  let b := pow_small rd a (Z.to_pos ((n - 1) / q)) in
  (pow_big rd b (Z.to_pos q) =? 1) && (Z.gcd (b - 1) n =? 1).

Fixpoint pairwise (c : cert) : bool :=
  match c with
  | [] => true
  | (q, _, _) :: c' => forallb (fun '(q', _, _) => Z.gcd q q' =? 1) c' && pairwise c'
  end.

Definition check (rd : Z -> Z) (n : Z) (c : cert) : bool :=
  (1 <? n) && (n <? factored c * factored c) && forallb (check1 rd n) c && pairwise c.

Lemma cert_prime_by rd n c : (forall x, rd x = x mod n) -> check rd n c = true ->
  Forall (fun '(q, _, _) => prime q) c -> prime n.
Proof.
  unfold check. intros Hrd H HP. apply andb_prop in H. destruct H as [H H4].
  apply andb_prop in H. destruct H as [H H3]. apply andb_prop in H. destruct H as [H1 H2].
  apply Z.ltb_lt in H1, H2. apply (pocklington n c); [assumption|assumption| |].
  - intros q e a Hin. rewrite forallb_forall in H3. specialize (H3 _ Hin).
    rewrite Forall_forall in HP. specialize (HP _ Hin). cbn beta iota in HP.
    unfold check1 in H3. cbv zeta in H3. rewrite !andb_true_iff in H3. destruct H3 as (((A1 & A2) & A3) & A4 & A5).
    apply Z.ltb_lt in A1. apply Z.leb_le in A2. apply Z.eqb_eq in A3, A4, A5.
    assert (Q0 : 0 < q ^ e) by (apply Z.pow_pos_nonneg; lia).
    assert (D : (q ^ e | n - 1)) by (apply Z.mod_divide; lia).
    assert (D1 : (q | n - 1)).
    { apply Z.divide_trans with (q ^ e); [|exact D]. replace e with (Z.succ (e - 1)) by lia.
      rewrite Z.pow_succ_r by lia. apply Z.divide_mul_l, Z.divide_refl. }
    destruct D1 as (m & Em). assert (Ed : (n - 1) / q = m) by (rewrite Em; apply Z.div_mul; lia).
    assert (Hm : 0 < m) by nia. assert (Hn0 : n <> 0) by lia.
    rewrite (pow_small_spec rd n Hn0 Hrd) in A4, A5. rewrite (pow_big_spec rd n Hn0 Hrd) in A4.
    rewrite !Z2Pos.id in A4 by lia. rewrite !Z2Pos.id in A5 by lia.
    rewrite <- Zpower_mod, Ed, <- Z.pow_mul_r, <- Em in A4 by lia. pose proof (Z.divide_factor_r q m) as D1.
    rewrite <- Em in D1.
    split; [assumption|]. split; [lia|]. split; [assumption|]. split; [assumption|].
    split; [assumption|]. etransitivity; [|exact A5]. set (b := a ^ ((n - 1) / q)).
    rewrite (Z.gcd_comm (b - 1)), (Z.gcd_comm (b mod n - 1)).
    rewrite <- (Z.gcd_mod (b - 1) n), <- (Z.gcd_mod (b mod n - 1) n) by lia.
    rewrite Zminus_mod_idemp_l. reflexivity.
  - clear - H4. induction c as [|[[q e] a] c IH]; [constructor|].
    cbn in H4. apply andb_prop in H4. destruct H4 as [H H'].
    constructor; [|apply IH, H']. apply Forall_forall. intros [[q' e'] a'] Hin.
    rewrite forallb_forall in H. specialize (H _ Hin). cbn in H |- *.
    apply Z.eqb_eq in H. apply Zgcd_1_rel_prime. exact H.
Qed.

Lemma cert_prime n c : check (fun x => x mod n) n c = true -> Forall (fun '(q, _, _) => prime q) c -> prime n.
Proof. apply cert_prime_by. reflexivity. Qed.
Lemma cert_prime_256 n c : n <> 0 -> check (fold_mod 256 n) n c = true ->
  Forall (fun '(q, _, _) => prime q) c -> prime n.
Proof. intros Hn. apply cert_prime_by. intros x. apply fold_mod_ok; [lia|exact Hn]. Qed.

(** ** The certificates *)

Lemma prime_53 : prime 53.
Proof. apply trial_prime. vm_compute. reflexivity. Qed.

Lemma prime_29 : prime 29.
Proof. apply trial_prime. vm_compute. reflexivity. Qed.

Lemma prime_7 : prime 7.
Proof. apply trial_prime. vm_compute. reflexivity. Qed.

Lemma prime_107590001 : prime 107590001.
Proof. apply (cert_prime 107590001 [(53, 1, 2); (29, 1, 2); (7, 1, 2)]); [vm_compute; reflexivity|]. constructor; [exact prime_53|]. constructor; [exact prime_29|]. constructor; [exact prime_7|]. constructor. Qed.

Lemma prime_20113 : prime 20113.
Proof. apply trial_prime. vm_compute. reflexivity. Qed.

Lemma prime_1206781 : prime 1206781.
Proof. apply (cert_prime 1206781 [(20113, 1, 2)]); [vm_compute; reflexivity|]. constructor; [exact prime_20113|]. constructor. Qed.

Lemma prime_7240687 : prime 7240687.
Proof. apply (cert_prime 7240687 [(1206781, 1, 2)]); [vm_compute; reflexivity|]. constructor; [exact prime_1206781|]. constructor. Qed.

Lemma prime_239 : prime 239.
Proof. apply trial_prime. vm_compute. reflexivity. Qed.

Lemma prime_101 : prime 101.
Proof. apply trial_prime. vm_compute. reflexivity. Qed.

Lemma prime_96557 : prime 96557.
Proof. apply (cert_prime 96557 [(239, 1, 2); (101, 1, 2)]); [vm_compute; reflexivity|]. constructor; [exact prime_239|]. constructor; [exact prime_101|]. constructor. Qed.

Lemma prime_255515944373312847190720520512484175977 : prime 255515944373312847190720520512484175977.
Proof. apply (cert_prime 255515944373312847190720520512484175977 [(107590001, 1, 2); (7240687, 1, 2); (96557, 1, 2)]); [vm_compute; reflexivity|]. constructor; [exact prime_107590001|]. constructor; [exact prime_7240687|]. constructor; [exact prime_96557|]. constructor. Qed.

Lemma prime_205115282021455665897114700593932402728804164701536103180137503955397371 : prime 205115282021455665897114700593932402728804164701536103180137503955397371.
Proof. apply (cert_prime 205115282021455665897114700593932402728804164701536103180137503955397371 [(255515944373312847190720520512484175977, 1, 2)]); [vm_compute; reflexivity|]. constructor; [exact prime_255515944373312847190720520512484175977|]. constructor. Qed.

Lemma prime_P : prime secp_P.
Proof. apply (cert_prime_256 secp_P [(205115282021455665897114700593932402728804164701536103180137503955397371, 1, 2)]); [vm_compute; discriminate|vm_compute; reflexivity|]. constructor; [exact prime_205115282021455665897114700593932402728804164701536103180137503955397371|]. constructor. Qed.

Lemma prime_1871 : prime 1871.
Proof. apply trial_prime. vm_compute. reflexivity. Qed.

Lemma prime_1627771 : prime 1627771.
Proof. apply (cert_prime 1627771 [(1871, 1, 2)]); [vm_compute; reflexivity|]. constructor; [exact prime_1871|]. constructor. Qed.

Lemma prime_297159362677 : prime 297159362677.
Proof. apply (cert_prime 297159362677 [(1627771, 1, 2)]); [vm_compute; reflexivity|]. constructor; [exact prime_1627771|]. constructor. Qed.

Lemma prime_28181 : prime 28181.
Proof. apply trial_prime. vm_compute. reflexivity. Qed.

Lemma prime_545358713 : prime 545358713.
Proof. apply (cert_prime 545358713 [(28181, 1, 2)]); [vm_compute; reflexivity|]. constructor; [exact prime_28181|]. constructor. Qed.

Lemma prime_29047611873442575647497758179 : prime 29047611873442575647497758179.
Proof. apply (cert_prime 29047611873442575647497758179 [(297159362677, 1, 2); (545358713, 1, 2)]); [vm_compute; reflexivity|]. constructor; [exact prime_297159362677|]. constructor; [exact prime_545358713|]. constructor. Qed.

Lemma prime_341948486974166000522343609283189 : prime 341948486974166000522343609283189.
Proof. apply (cert_prime 341948486974166000522343609283189 [(29047611873442575647497758179, 1, 2)]); [vm_compute; reflexivity|]. constructor; [exact prime_29047611873442575647497758179|]. constructor. Qed.

Lemma prime_9349 : prime 9349.
Proof. apply trial_prime. vm_compute. reflexivity. Qed.

Lemma prime_44706919 : prime 44706919.
Proof. apply (cert_prime 44706919 [(9349, 1, 2)]); [vm_compute; reflexivity|]. constructor; [exact prime_9349|]. constructor. Qed.

Lemma prime_113 : prime 113.
Proof. apply trial_prime. vm_compute. reflexivity. Qed.

Lemma prime_19 : prime 19.
Proof. apply trial_prime. vm_compute. reflexivity. Qed.

Lemma prime_120233 : prime 120233.
Proof. apply (cert_prime 120233 [(113, 1, 2); (19, 1, 2)]); [vm_compute; reflexivity|]. constructor; [exact prime_113|]. constructor; [exact prime_19|]. constructor. Qed.

Lemma prime_174723607534414371449 : prime 174723607534414371449.
Proof. apply (cert_prime 174723607534414371449 [(44706919, 1, 2); (120233, 1, 2)]); [vm_compute; reflexivity|]. constructor; [exact prime_44706919|]. constructor; [exact prime_120233|]. constructor. Qed.

Lemma prime_N : prime secp_N.
Proof. apply (cert_prime_256 secp_N [(341948486974166000522343609283189, 1, 2); (174723607534414371449, 1, 2)]); [vm_compute; discriminate|vm_compute; reflexivity|]. constructor; [exact prime_341948486974166000522343609283189|]. constructor; [exact prime_174723607534414371449|]. constructor. Qed.
