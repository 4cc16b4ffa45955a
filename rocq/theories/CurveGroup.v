(** * The curve group is cyclic of prime order N, generated by G *)

From Coq Require Import Znumtheory Field.
From Verif Require Import GoBase Model EcRef NumTheory Primes Field Curve CurveMul.
Local Open Scope Z_scope.
Local Opaque secp_P secp_N.

Lemma N_pos : 1 < secp_N.
Proof. reflexivity. Qed.

(** N is odd, and three times N exceeds the number of points a curve over a
    field of P elements can have. *)
Lemma N_odd : secp_N mod 2 = 1.
Proof. reflexivity. Qed.
Lemma P_odd : secp_P mod 2 = 1.
Proof. reflexivity. Qed.
Lemma three_N : 2 * secp_P + 1 < 3 * secp_N.
Proof. reflexivity. Qed.

(** ** The order of a point killed by N *)

Lemma bezout_nat k : ~ (secp_N | k) -> 0 <= k -> exists u v, 0 <= u /\ 0 <= v /\ u * k = 1 + v * secp_N.
Proof.
  intros Hk Hk0. pose proof N_pos as HN.
  assert (R : rel_prime k secp_N) by (apply rel_prime_sym, prime_rel_prime; [exact prime_N|exact Hk]).
  destruct (rel_prime_bezout _ _ R) as [u v E].
  exists (u mod secp_N), ((u mod secp_N * k - 1) / secp_N).
  pose proof (Z.mod_pos_bound u secp_N ltac:(lia)) as Hu.
  assert (D : (secp_N | u mod secp_N * k - 1)).
  { apply mod_eq_divide; [lia|]. rewrite Zmult_mod_idemp_l.
    replace (u * k) with (1 + (- v) * secp_N) by lia. apply Z.mod_add. lia. }
  destruct D as [w D]. rewrite D, Z.div_mul by lia.
  split; [lia|]. split; [|lia].
  assert (k <> 0) by (intros ->; apply Hk, Z.divide_0_r).
  assert (u mod secp_N <> 0).
  { intros E0. rewrite E0 in D. assert (E1 : secp_N * (- w) = 1) by lia.
    destruct (Z.mul_eq_1 _ _ E1); lia. }
  assert (0 <= w * secp_N) by (rewrite <- D; nia). nia.
Qed.

Lemma order_dvd p k : valid p -> p <> None -> ec_nmul (Z.to_nat secp_N) p = None -> 0 <= k ->
  (ec_nmul (Z.to_nat k) p = None <-> (secp_N | k)).
Proof.
  intros V Hp HN Hk. pose proof N_pos as N1. split.
  - intros H. destruct (Zdivide_dec secp_N k) as [D|D]; [exact D|]. exfalso. apply Hp.
    destruct (bezout_nat k D Hk) as (u & v & Hu & Hv & E).
    assert (E1 : ec_nmul (Z.to_nat (u * k)) p = None).
    { rewrite Z2Nat.inj_mul, nmul_mul, H, nmul_none by assumption. reflexivity. }
    rewrite E in E1. rewrite Z2Nat.inj_add, nmul_add, Z2Nat.inj_mul in E1 by (try assumption; nia).
    rewrite nmul_mul, HN, nmul_none, ec_add_0_r in E1 by assumption.
    change (Z.to_nat 1) with 1%nat in E1. change (ec_add p None = None) in E1.
    rewrite ec_add_0_r in E1. exact E1.
  - intros [j ->]. rewrite Z2Nat.inj_mul, nmul_mul, HN, nmul_none by (try assumption; nia). reflexivity.
Qed.

Definition GG : option point := Some secp_G.

Lemma GG_valid : valid GG.
Proof. exact G_on_curve. Qed.
Lemma GG_nz : GG <> None.
Proof. discriminate. Qed.
Lemma N_GG : ec_nmul (Z.to_nat secp_N) GG = None.
Proof. rewrite <- mul_nmul by exact GG_valid. exact N_G. Qed.
Global Hint Resolve GG_valid nmul_valid ec_add_valid neg_valid : core.
Global Opaque GG.

Lemma mulG_none k : 0 <= k -> (ec_nmul (Z.to_nat k) GG = None <-> (secp_N | k)).
Proof. apply order_dvd; auto using GG_nz, N_GG. Qed.

(** A multiple of G determines the number modulo N. *)
Lemma mulG_le a b : 0 <= a <= b ->
  (ec_nmul (Z.to_nat a) GG = ec_nmul (Z.to_nat b) GG <-> a mod secp_N = b mod secp_N).
Proof.
  intros H. pose proof N_pos. replace b with (a + (b - a)) at 1 by lia.
  rewrite Z2Nat.inj_add, nmul_add by (auto; lia). split.
  - intros E. symmetry. apply mod_eq_divide; [lia|]. apply mulG_none; [lia|].
    apply (add_cancel (ec_nmul (Z.to_nat a) GG)); auto; [exact I|]. rewrite ec_add_0_r. auto.
  - intros E. symmetry in E. apply mod_eq_divide in E; [|lia]. apply mulG_none in E; [|lia].
    rewrite E, ec_add_0_r. reflexivity.
Qed.

Lemma mulG_eq a b : 0 <= a -> 0 <= b ->
  (ec_nmul (Z.to_nat a) GG = ec_nmul (Z.to_nat b) GG <-> a mod secp_N = b mod secp_N).
Proof.
  intros Ha Hb. destruct (Z_le_gt_dec a b) as [H|H].
  - apply mulG_le. lia.
  - pose proof (mulG_le b a ltac:(lia)) as E. split; intros H'; symmetry; apply E; auto.
Qed.

Lemma mulG_mod k : 0 <= k -> ec_nmul (Z.to_nat (k mod secp_N)) GG = ec_nmul (Z.to_nat k) GG.
Proof.
  intros H. pose proof N_pos. apply mulG_eq; [apply Z.mod_pos_bound; lia|assumption|apply Zmod_mod].
Qed.

(** ** Points are determined by x and the parity of y *)

Lemma curve_y x y y' : on_curve (x, y) -> on_curve (x, y') -> y' = y \/ y' = secp_P - y.
Proof.
  intros H H'. pose proof (on_curve_F _ _ H) as C. pose proof (on_curve_F _ _ H') as C'.
  pose proof (oncF_y _ _ C) as Hy.
  destruct H as (_ & Ry & _), H' as (_ & Ry' & _).
  assert (y <> 0) by (intros ->; auto).
  destruct (y_same_or_opp _ _ _ C C') as [E|E]; [left; apply ofZ_inj; assumption|right].
  apply ofZ_inj; [assumption|lia|]. rewrite E, ofZ_sub.
  assert (EP : ofZ secp_P = ofZ 0) by (apply ofZ_eq; rewrite Z_mod_same_full, Zmod_0_l; reflexivity).
  rewrite EP. ring.
Qed.

Lemma curve_parity x y y' : on_curve (x, y) -> on_curve (x, y') -> y mod 2 = y' mod 2 -> y = y'.
Proof.
  intros H H' E. destruct (curve_y _ _ _ H H') as [->| ->]; [reflexivity|].
  pose proof P_odd. pose proof (Z.div_mod y 2 ltac:(lia)).
  pose proof (Z.div_mod (secp_P - y) 2 ltac:(lia)). pose proof (Z.div_mod secp_P 2 ltac:(lia)).
  pose proof (Z.mod_pos_bound y 2 ltac:(lia)). lia.
Qed.

(** ** At most 2P+1 points *)

Definition pcode (p : option point) : Z :=
  match p with None => 2 * secp_P | Some (x, y) => 2 * x + y mod 2 end.

Lemma pcode_inj p q : valid p -> valid q -> pcode p = pcode q -> p = q.
Proof.
  intros Vp Vq H. destruct p as [[x y]|], q as [[x' y']|]; cbn [pcode] in H; [| | |reflexivity].
  - pose proof (Z.mod_pos_bound y 2 ltac:(lia)). pose proof (Z.mod_pos_bound y' 2 ltac:(lia)).
    assert (x = x') by lia. subst x'. f_equal. f_equal.
    apply (curve_parity x); [exact Vp|exact Vq|lia].
  - destruct Vp as (Hx & _). pose proof (Z.mod_pos_bound y 2 ltac:(lia)). lia.
  - destruct Vq as (Hx & _). pose proof (Z.mod_pos_bound y' 2 ltac:(lia)). lia.
Qed.

Lemma pcode_range p : valid p -> 0 <= pcode p < 2 * secp_P + 1.
Proof.
  pose proof P_pos. destruct p as [[x y]|]; cbn [pcode].
  - intros (Hx & _). pose proof (Z.mod_pos_bound y 2 ltac:(lia)). lia.
  - intros _. lia.
Qed.

Lemma NoDup_map_in {A B} (f : A -> B) l :
  (forall x y, In x l -> In y l -> f x = f y -> x = y) -> NoDup l -> NoDup (map f l).
Proof.
  intros H N. induction N as [|a l Ha N IH]; [constructor|]. cbn. constructor.
  - intros I. apply in_map_iff in I. destruct I as (b & E & I).
    apply H in E; [subst b; tauto|right; exact I|left; reflexivity].
  - apply IH. intros x y Hx Hy. apply H; right; assumption.
Qed.

Lemma few_points l : NoDup l -> Forall valid l -> Z.of_nat (length l) <= 2 * secp_P + 1.
Proof.
  intros N V. rewrite Forall_forall in V.
  assert (N' : NoDup (map (fun p => Z.to_nat (pcode p)) l)).
  { apply NoDup_map_in; [|exact N]. intros p q Hp Hq E. apply pcode_inj; auto.
    pose proof (pcode_range p (V _ Hp)). pose proof (pcode_range q (V _ Hq)). lia. }
  assert (I : incl (map (fun p => Z.to_nat (pcode p)) l) (seq 0 (Z.to_nat (2 * secp_P + 1)))).
  { intros c Hc. apply in_map_iff in Hc. destruct Hc as (p & <- & Hp).
    pose proof (pcode_range p (V _ Hp)). apply in_seq. lia. }
  pose proof (NoDup_incl_length N' I) as L. rewrite map_length, seq_length in L.
  pose proof P_pos. lia.
Qed.

(** ** Every curve point is a multiple of G *)

Definition inG (p : option point) : Prop := exists k, 0 <= k < secp_N /\ p = ec_nmul (Z.to_nat k) GG.

Lemma inG_any k : 0 <= k -> inG (ec_nmul (Z.to_nat k) GG).
Proof.
  intros H. exists (k mod secp_N). split; [apply Z.mod_pos_bound; pose proof N_pos; lia|].
  symmetry. apply mulG_mod, H.
Qed.

Lemma neg_mulG k : 0 <= k <= secp_N -> ec_neg (ec_nmul (Z.to_nat k) GG) = ec_nmul (Z.to_nat (secp_N - k)) GG.
Proof.
  intros H. symmetry. apply neg_unique; auto. rewrite <- nmul_add by auto.
  rewrite <- Z2Nat.inj_add by lia. replace (k + (secp_N - k)) with secp_N by lia. exact N_GG.
Qed.

(** If R + jG = kG with j < N then R is a multiple of G. *)
Lemma inG_sub r j k : valid r -> 0 <= j < secp_N -> 0 <= k ->
  ec_add r (ec_nmul (Z.to_nat j) GG) = ec_nmul (Z.to_nat k) GG -> inG r.
Proof.
  intros V Hj Hk E.
  assert (E' : r = ec_add (ec_nmul (Z.to_nat k) GG) (ec_neg (ec_nmul (Z.to_nat j) GG))).
  { rewrite <- E, ec_add_assoc, add_neg, ec_add_0_r by auto. reflexivity. }
  rewrite neg_mulG, <- nmul_add, <- Z2Nat.inj_add in E' by (auto; lia).
  rewrite E'. apply inG_any. lia.
Qed.

(** Halving: if 2R is a multiple of G, so is R. *)
Lemma inG_half r : valid r -> inG (ec_add r r) -> inG r.
Proof.
  intros V (m & Hm & E). pose proof N_odd as NO. pose proof N_pos as NP.
  assert (H : exists h, 0 <= h /\ (2 * h) mod secp_N = m mod secp_N).
  { destruct (Z.eq_dec (m mod 2) 0) as [H|H].
    - exists (m / 2). pose proof (Z.div_mod m 2 ltac:(lia)). split; [lia|f_equal; lia].
    - exists ((m + secp_N) / 2).
      pose proof (Z.mod_pos_bound m 2 ltac:(lia)). pose proof (Z.div_mod m 2 ltac:(lia)).
      assert (D : 2 * ((m + secp_N) / 2) = m + 1 * secp_N).
      { pose proof (Z.div_mod (m + secp_N) 2 ltac:(lia)) as D.
        rewrite Zplus_mod, NO in D. replace (m mod 2) with 1 in D by lia.
        change ((1 + 1) mod 2) with 0 in D. lia. }
      split; [lia|]. rewrite D. apply Z.mod_add. lia. }
  destruct H as (h & Hh & Eh).
  apply mulG_eq in Eh; [|lia|lia]. rewrite <- E in Eh.
  replace (2 * h) with (h + h) in Eh by lia. rewrite Z2Nat.inj_add, nmul_add in Eh by (auto; lia).
  set (s := ec_nmul (Z.to_nat h) GG) in *.
  assert (Vs : valid s) by (unfold s; auto).
  assert (D : ec_add (ec_add r (ec_neg s)) (ec_add r (ec_neg s)) = None).
  { rewrite (ec_add_comm r (ec_neg s)) at 1 by auto.
    rewrite ec_add_assoc by auto.
    rewrite <- (ec_add_assoc r r (ec_neg s)) by auto. rewrite <- Eh.
    rewrite (ec_add_assoc s s) by auto. rewrite add_neg, ec_add_0_r by auto. apply add_neg_l, Vs. }
  apply double_nonzero in D; [|auto].
  assert (R : r = s).
  { rewrite <- (ec_add_0_l s), <- D, ec_add_assoc, add_neg_l, ec_add_0_r by auto. reflexivity. }
  rewrite R. unfold s. apply inG_any, Hh.
Qed.

Lemma inG_dec_absurd q : valid q -> ~ inG q -> False.
Proof.
  intros V H. pose proof N_pos as NP.
  set (n := Z.to_nat secp_N).
  assert (n0 : n <> 0%nat) by (unfold n; lia).
  set (g := fun i => ec_add (ec_nmul (i / n) q) (ec_nmul (i mod n) GG)).
  set (l := map g (seq 0 (3 * n))).
  assert (Vg : forall i, valid (g i)) by (intros i; unfold g; auto).
  assert (Gk : forall i j a b, (a < b < 3)%nat -> (i < n)%nat -> (j < n)%nat ->
    ec_add (ec_nmul a q) (ec_nmul i GG) = ec_add (ec_nmul b q) (ec_nmul j GG) -> False).
  { intros i j a b Hab Hi Hj E.
    replace b with (a + (b - a))%nat in E by lia. rewrite nmul_add, ec_add_assoc in E by auto.
    apply add_cancel in E; [|auto..].
    assert (I : inG (ec_nmul (b - a) q)).
    { apply (inG_sub _ (Z.of_nat j) (Z.of_nat i)); [auto|unfold n in *; lia|lia|].
      rewrite !Nat2Z.id. symmetry. exact E. }
    assert (b - a = 1 \/ b - a = 2)%nat as [D|D] by lia; rewrite D in I; cbn [ec_nmul] in I.
    - rewrite ec_add_0_r in I. tauto.
    - rewrite ec_add_0_r in I. apply inG_half in I; auto. }
  assert (N : NoDup l).
  { apply NoDup_map_in; [|apply seq_NoDup]. intros i j Hi Hj E.
    apply in_seq in Hi, Hj. unfold g in E.
    assert (Hi3 : (i / n < 3)%nat) by (apply Nat.div_lt_upper_bound; lia).
    assert (Hj3 : (j / n < 3)%nat) by (apply Nat.div_lt_upper_bound; lia).
    pose proof (Nat.mod_upper_bound i n n0) as Hin. pose proof (Nat.mod_upper_bound j n n0) as Hjn.
    destruct (lt_eq_lt_dec (i / n) (j / n)) as [[L|L]|L].
    - exfalso. apply (Gk (i mod n) (j mod n) (i / n) (j / n))%nat; auto.
    - rewrite L in E. apply add_cancel in E; [|auto..].
      pose proof (mulG_eq (Z.of_nat (i mod n)) (Z.of_nat (j mod n)) ltac:(lia) ltac:(lia)) as M.
      rewrite !Nat2Z.id in M. apply M in E. rewrite !Z.mod_small in E by (unfold n in *; lia).
      rewrite (Nat.div_mod i n n0), (Nat.div_mod j n n0), L. f_equal. lia.
    - exfalso. symmetry in E. apply (Gk (j mod n) (i mod n) (j / n) (i / n))%nat; auto. }
  assert (VF : Forall valid l).
  { apply Forall_forall. intros p Hp. apply in_map_iff in Hp. destruct Hp as (i & <- & _). auto. }
  pose proof (few_points l N VF) as F. unfold l in F. rewrite map_length, seq_length in F.
  pose proof three_N. unfold n in F. lia.
Qed.

(** Search among the N multiples decides membership. *)
Lemma inG_dec q : {inG q} + {~ inG q}.
Proof.
  assert (D : forall p r : option point, {p = r} + {p <> r}).
  { decide equality. decide equality; apply Z.eq_dec. }
  destruct (in_dec D q (map (fun i => ec_nmul i GG) (seq 0 (Z.to_nat secp_N)))) as [H|H].
  - left. apply in_map_iff in H. destruct H as (i & <- & H). apply in_seq in H.
    exists (Z.of_nat i). rewrite Nat2Z.id. split; [lia|reflexivity].
  - right. intros (k & Hk & ->). apply H. apply in_map_iff. exists (Z.to_nat k).
    split; [reflexivity|]. apply in_seq. lia.
Qed.

Theorem cyclic q : valid q -> exists k, 0 <= k < secp_N /\ q = ec_nmul (Z.to_nat k) GG.
Proof.
  intros V. destruct (inG_dec q) as [H|H]; [exact H|]. destruct (inG_dec_absurd q V H).
Qed.

Theorem order_N q : valid q -> ec_nmul (Z.to_nat secp_N) q = None.
Proof.
  intros V. destruct (cyclic q V) as (k & Hk & ->). rewrite <- nmul_mul by auto.
  rewrite Nat.mul_comm, nmul_mul, N_GG by auto. apply nmul_none.
Qed.
