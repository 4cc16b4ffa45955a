(** * Fermat's little theorem and Pocklington's primality criterion

    Elementary number theory over Z, used for the constants of btc.go. *)

From Coq Require Import List ZArith Znumtheory Zpow_facts Lia Permutation.
Import ListNotations.
Local Open Scope Z_scope.

(** ** Congruences *)

Lemma mod_eq_divide m a b : m <> 0 -> (a mod m = b mod m <-> (m | a - b)).
Proof.
  intros Hm. split; intros H.
  - exists (a / m - b / m). pose proof (Z.div_mod a m Hm). pose proof (Z.div_mod b m Hm). nia.
  - destruct H as [k H]. replace a with (b + k * m) by lia. apply Z.mod_add. exact Hm.
Qed.

Lemma pow_mod m a b e : m <> 0 -> 0 <= e -> a mod m = b mod m -> (a ^ e) mod m = (b ^ e) mod m.
Proof.
  intros Hm He H. revert e He. apply natlike_ind; [reflexivity|].
  intros e He IH. rewrite !Z.pow_succ_r by lia.
  rewrite (Zmult_mod a), (Zmult_mod b). rewrite H, IH. reflexivity.
Qed.

Lemma pow_mod_l m a e : m <> 0 -> 0 <= e -> ((a mod m) ^ e) mod m = (a ^ e) mod m.
Proof. intros. apply pow_mod; auto. now rewrite Zmod_mod. Qed.

(** ** Products of lists *)

Definition prod (l : list Z) : Z := fold_right Z.mul 1 l.

Lemma prod_perm l l' : Permutation l l' -> prod l = prod l'.
Proof. induction 1 as [|x l l' _ IH| |]; cbn; [reflexivity|fold (prod l) (prod l'); rewrite IH; reflexivity|ring|congruence]. Qed.

Lemma prod_map_mod m a l : m <> 0 ->
  prod (map (fun x => (a * x) mod m) l) mod m = (a ^ Z.of_nat (length l) * prod l) mod m.
Proof.
  intros Hm. induction l as [|x l IH]; [reflexivity|].
  cbn [map prod fold_right length]. fold (prod l). fold (prod (map (fun x0 => (a * x0) mod m) l)).
  rewrite Zmult_mod, IH, Zmod_mod, <- Zmult_mod.
  rewrite Nat2Z.inj_succ, Z.pow_succ_r by lia. f_equal. ring.
Qed.

Lemma prod_rel_prime p l : Forall (fun x => rel_prime p x) l -> rel_prime p (prod l).
Proof.
  induction 1; cbn.
  - apply rel_prime_sym, rel_prime_1.
  - apply rel_prime_mult; assumption.
Qed.

(** ** Fermat *)

Lemma prime_not_divide_rel p a : prime p -> ~ (p | a) -> rel_prime p a.
Proof. intros Hp H. apply prime_rel_prime; assumption. Qed.

Lemma fermat p a : prime p -> ~ (p | a) -> (a ^ (p - 1)) mod p = 1.
Proof.
  intros Hp Ha. pose proof (prime_ge_2 p Hp) as H2.
  set (L := map Z.of_nat (seq 1 (Z.to_nat (p - 1)))).
  assert (HL : forall x, In x L <-> 1 <= x < p).
  { intros x. unfold L. rewrite in_map_iff. split.
    - intros (n & <- & Hn). apply in_seq in Hn. lia.
    - intros Hx. exists (Z.to_nat x). split; [lia|]. apply in_seq. lia. }
  assert (HN : NoDup L).
  { unfold L. apply FinFun.Injective_map_NoDup; [intros x y; lia|apply seq_NoDup]. }
  assert (Hf : forall x, In x L -> In ((a * x) mod p) L).
  { intros x Hx. apply HL in Hx. apply HL.
    pose proof (Z.mod_pos_bound (a * x) p ltac:(lia)).
    assert ((a * x) mod p <> 0); [|lia]. intros H0.
    apply Z.mod_divide in H0; [|lia]. apply prime_mult in H0; [|assumption].
    destruct H0 as [H0|H0]; [tauto|]. apply Z.divide_pos_le in H0; lia. }
  assert (HP : Permutation (map (fun x => (a * x) mod p) L) L).
  { apply NoDup_Permutation_bis.
    - apply NoDup_nth with (d := 0). intros i j Hi Hj E. rewrite map_length in Hi, Hj.
      rewrite (nth_indep _ 0 ((a * 0) mod p)) in E by (rewrite map_length; assumption).
      rewrite (nth_indep _ 0 ((a * 0) mod p)) in E by (rewrite map_length; assumption).
      rewrite !(map_nth (fun x => (a * x) mod p)) in E.
      apply (proj1 (NoDup_nth L 0) HN); [assumption..|].
      pose proof (proj1 (HL _) (nth_In L 0 Hi)). pose proof (proj1 (HL _) (nth_In L 0 Hj)).
      apply mod_eq_divide in E; [|lia]. rewrite <- Z.mul_sub_distr_l in E.
      apply prime_mult in E; [|assumption]. destruct E as [E|E]; [tauto|].
      destruct E as [k E]. assert (k = 0) by nia. subst k. lia.
    - rewrite map_length. reflexivity.
    - intros y Hy. apply in_map_iff in Hy. destruct Hy as (x & <- & Hx). apply Hf, Hx. }
  pose proof (prod_map_mod p a L ltac:(lia)) as E.
  rewrite (prod_perm _ _ HP) in E.
  assert (HR : rel_prime p (prod L)).
  { apply prod_rel_prime, Forall_forall. intros x Hx. apply HL in Hx.
    apply prime_not_divide_rel; [assumption|]. intros D. apply Z.divide_pos_le in D; lia. }
  replace (Z.of_nat (length L)) with (p - 1) in E
    by (unfold L; rewrite map_length, seq_length; lia).
  apply mod_eq_divide in E; [|lia].
  replace (prod L - a ^ (p - 1) * prod L) with (prod L * (1 - a ^ (p - 1))) in E by ring.
  apply Gauss in E; [|assumption].
  apply mod_eq_divide in E; [|lia]. rewrite <- E. apply Z.mod_1_l. lia.
Qed.

(** ** Orders *)

(** If a^m = a^n = 1 modulo d then a^gcd(m,n) = 1. *)
Lemma pow_gcd d a m n : prime d -> 0 <= m -> 0 <= n ->
  (a ^ m) mod d = 1 -> (a ^ n) mod d = 1 -> (a ^ Z.gcd m n) mod d = 1.
Proof.
  intros Hd Hm Hn. pose proof (prime_ge_2 d Hd) as H2. revert m Hm n Hn.
  refine (Zlt_0_ind _ _). intros m IH Hm n Hn Em En.
  destruct (Z.eq_dec m 0) as [->|Hm0]; [rewrite Z.gcd_0_l, Z.abs_eq; assumption|].
  rewrite <- Z.gcd_mod by assumption.
  assert (Hr : 0 <= n mod m < m) by (apply Z.mod_pos_bound; lia).
  apply IH; [assumption..|lia| |assumption].
  pose proof (Z.div_mod n m Hm0) as Dn. rewrite Dn in En.
  assert (Hq : 0 <= n / m) by (apply Z.div_pos; lia).
  rewrite Z.pow_add_r in En by nia. rewrite Z.pow_mul_r in En by lia.
  rewrite Zmult_mod in En. rewrite <- (pow_mod_l d (a ^ m)) in En by lia.
  rewrite Em, Z.pow_1_l, Z.mod_1_l, Z.mul_1_l, Zmod_mod in En by lia. exact En.
Qed.

Lemma pow_one_multiple d a m n : 1 < d -> 0 <= m -> (m | n) -> 0 <= n ->
  (a ^ m) mod d = 1 -> (a ^ n) mod d = 1.
Proof.
  intros Hd Hm [k ->] Hn E. destruct (Z.eq_dec m 0) as [->|Hm0].
  { rewrite Z.mul_0_r. apply Z.mod_1_l. lia. }
  assert (0 <= k) by nia. rewrite Z.mul_comm, Z.pow_mul_r by lia.
  rewrite <- pow_mod_l by lia. rewrite E, Z.pow_1_l by lia. apply Z.mod_1_l. lia.
Qed.

(** A prime divisor exists. *)
Lemma prime_divisor_exists n : 1 < n -> exists d, prime d /\ (d | n).
Proof.
  revert n. refine (fun n H => _). revert H.
  assert (Hn : forall n, 0 <= n -> 1 < n -> exists d, prime d /\ (d | n)).
  { refine (Zlt_0_ind _ _). intros m IH _ Hm.
    destruct (prime_dec m) as [P|P]; [exists m; split; [assumption|apply Z.divide_refl]|].
    destruct (not_prime_divide m Hm P) as (k & Hk & Dk).
    destruct (IH k) as (d & Pd & Dd); [lia|lia|]. exists d. split; [assumption|].
    eapply Z.divide_trans; eassumption. }
  intros H. apply Hn; lia.
Qed.

(** A composite number has a prime divisor d with d*d <= n. *)
Lemma small_prime_divisor n : 1 < n -> ~ prime n -> exists d, prime d /\ (d | n) /\ d * d <= n.
Proof.
  intros Hn P. destruct (not_prime_divide n Hn P) as (k & Hk & [j Dk]).
  assert (Hj : 1 < j) by nia.
  destruct (Z_le_gt_dec k j) as [H|H].
  - destruct (prime_divisor_exists k) as (d & Pd & Dd); [lia|].
    exists d. split; [assumption|]. split.
    + eapply Z.divide_trans; [exact Dd|]. exists j. lia.
    + pose proof (prime_ge_2 d Pd). apply Z.divide_pos_le in Dd; [|lia]. nia.
  - destruct (prime_divisor_exists j) as (d & Pd & Dd); [lia|].
    exists d. split; [assumption|]. split.
    + eapply Z.divide_trans; [exact Dd|]. exists k. lia.
    + pose proof (prime_ge_2 d Pd). apply Z.divide_pos_le in Dd; [|lia]. nia.
Qed.

(** The step of Pocklington's criterion for one prime power q^e dividing n-1. *)
Lemma pocklington_step n q e a d :
  1 < n -> prime q -> 0 <= e -> (q ^ e | n - 1) -> (q | n - 1) ->
  (a ^ (n - 1)) mod n = 1 -> Z.gcd (a ^ ((n - 1) / q) - 1) n = 1 ->
  prime d -> (d | n) -> (q ^ e | d - 1).
Proof.
  intros Hn Pq He Dq Dq1 Ea Eg Pd Dd.
  pose proof (prime_ge_2 q Pq) as Hq. pose proof (prime_ge_2 d Pd) as Hd.
  assert (Ed : (a ^ (n - 1)) mod d = 1).
  { destruct Dd as [k Hk].
    assert (Hx : (n | a ^ (n - 1) - 1)).
    { apply mod_eq_divide; [lia|]. rewrite Ea. symmetry. apply Z.mod_1_l. lia. }
    assert (Hx' : (d | a ^ (n - 1) - 1)) by (eapply Z.divide_trans; [|exact Hx]; exists k; lia).
    apply mod_eq_divide in Hx'; [|lia]. rewrite Hx'. apply Z.mod_1_l. lia. }
  assert (Na : ~ (d | a)).
  { intros D. assert (D' : (d | a ^ (n - 1))).
    { replace (n - 1) with (Z.succ (n - 2)) by lia. rewrite Z.pow_succ_r by lia.
      apply Z.divide_mul_l, D. }
    apply Z.mod_divide in D'; lia. }
  pose proof (fermat d a Pd Na) as Ef.
  pose proof (pow_gcd d a (n - 1) (d - 1) Pd ltac:(lia) ltac:(lia) Ed Ef) as Gd.
  set (g := Z.gcd (n - 1) (d - 1)) in *.
  assert (G1 : (g | n - 1)) by apply Z.gcd_divide_l.
  assert (G2 : (g | d - 1)) by apply Z.gcd_divide_r.
  assert (G0 : 0 < g).
  { assert (0 <= g) by apply Z.gcd_nonneg. assert (g <> 0); [|lia].
    intros E0. rewrite E0 in G1. destruct G1. lia. }
  destruct G1 as [k Hk].
  destruct (Zdivide_dec q k) as [[j Hj]|Nk].
  - exfalso.
    assert (Hdiv : (n - 1) / q = j * g).
    { replace (n - 1) with (j * g * q) by nia. apply Z.div_mul. lia. }
    assert (Hj0 : 0 <= j) by nia.
    assert (E1 : (a ^ ((n - 1) / q)) mod d = 1).
    { rewrite Hdiv. apply pow_one_multiple with (m := g); [lia|lia|exists j; reflexivity|nia|exact Gd]. }
    assert (D1 : (d | a ^ ((n - 1) / q) - 1)).
    { apply mod_eq_divide; [lia|]. rewrite E1. symmetry. apply Z.mod_1_l. lia. }
    assert (D2 : (d | 1)).
    { rewrite <- Eg. apply Z.gcd_greatest; assumption. }
    apply Z.divide_pos_le in D2; lia.
  - apply Z.divide_trans with g; [|exact G2].
    apply Gauss with k.
    + rewrite <- Hk. exact Dq.
    + apply rel_prime_sym. apply rel_prime_Zpower_r; [exact He|].
      apply rel_prime_sym. apply prime_not_divide_rel; assumption.
Qed.

(** Products of pairwise coprime divisors divide. *)
Lemma coprime_divide a b c : rel_prime a b -> (a | c) -> (b | c) -> (a * b | c).
Proof.
  intros R [k ->] H. rewrite Z.mul_comm in H. apply Gauss in H; [|apply rel_prime_sym; exact R].
  destruct H as [j ->]. exists j. ring.
Qed.

(** Pocklington certificates: [(q, e, a)] triples with [q] prime. The factored
    part [F] is the product of the q^e. *)
Definition cert := list (Z * Z * Z).
Definition factored (c : cert) : Z := prod (map (fun '(q, e, a) => q ^ e) c).

Lemma pocklington n (c : cert) : 1 < n -> n < factored c * factored c ->
  (forall q e a, In (q, e, a) c ->
     prime q /\ 0 <= e /\ (q ^ e | n - 1) /\ (q | n - 1) /\
     (a ^ (n - 1)) mod n = 1 /\ Z.gcd (a ^ ((n - 1) / q) - 1) n = 1) ->
  ForallOrdPairs (fun x y => rel_prime (fst (fst x)) (fst (fst y))) c ->
  prime n.
Proof.
  intros Hn HF Hc HP. destruct (prime_dec n) as [P|P]; [exact P|]. exfalso.
  destruct (small_prime_divisor n Hn P) as (d & Pd & Dd & Hd).
  pose proof (prime_ge_2 d Pd) as Hd2.
  assert (D : (factored c | d - 1)).
  { clear HF. induction HP as [|[[q e] a] c H1 H2 IH]; [apply Z.divide_1_l|].
    cbn. apply coprime_divide.
    - apply prod_rel_prime. apply Forall_forall. intros x Hx. apply in_map_iff in Hx.
      destruct Hx as ([[q' e'] a'] & <- & Hx).
      rewrite Forall_forall in H1. specialize (H1 _ Hx). cbn in H1.
      destruct (Hc q e a (or_introl eq_refl)) as (_ & He & _).
      destruct (Hc q' e' a' (or_intror Hx)) as (_ & He' & _).
      apply rel_prime_Zpower; assumption.
    - destruct (Hc q e a (or_introl eq_refl)) as (Pq & He & D1 & D2 & E1 & E2).
      eapply pocklington_step; eassumption.
    - apply IH. intros q' e' a' Hx. apply Hc. right. exact Hx. }
  assert (HF0 : 0 <= factored c).
  { clear -Hc. induction c as [|[[q e] a] c IH]; [cbn; lia|].
    cbn. destruct (Hc q e a (or_introl eq_refl)) as (Pq & He & _).
    pose proof (prime_ge_2 q Pq). apply Z.mul_nonneg_nonneg; [apply Z.pow_nonneg; lia|].
    apply IH. intros q' e' a' Hx. apply Hc. right. exact Hx. }
  apply Z.divide_pos_le in D; [|lia]. nia.
Qed.
