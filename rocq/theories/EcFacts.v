(** * The curve specification against the reference arithmetic *)

From Coq Require Import Znumtheory Field.
From Verif Require Import GoBase Model EcRef NumTheory Primes Field Curve CurveMul CurveGroup CurveSpec EcdsaContract.
Local Open Scope Z_scope.
Local Opaque secp_P secp_N.

Lemma p256k1_P : p256k1 = secp_P.
Proof. vm_compute. reflexivity. Qed.
Lemma n256k1_N : n256k1 = secp_N.
Proof. vm_compute. reflexivity. Qed.
Lemma G256k1_G : G256k1 = secp_G.
Proof. vm_compute. reflexivity. Qed.
Local Opaque p256k1 n256k1 G256k1.

Lemma cong_F a b : cong a b <-> ofZ a = ofZ b.
Proof. unfold cong. rewrite p256k1_P, ofZ_eq, mod_eq_divide by auto. tauto. Qed.

Lemma curve_point_iff q : curve_point q <-> on_curve q.
Proof.
  destruct q as [x y]. unfold curve_point. cbn [fst snd]. rewrite cong_F, p256k1_P. split.
  - intros (Hx & Hy & H). apply onc_Z; [assumption..|]. unfold oncF. rewrite <- !ofZ_mul, H, ofZ_add. reflexivity.
  - intros H. pose proof (on_curve_F _ _ H) as C. unfold oncF in C.
    split; [apply H|]. split; [apply H|]. rewrite ofZ_add, !ofZ_mul. exact C.
Qed.

Lemma on_the_curve_iff q : on_the_curve q <-> valid q.
Proof. destruct q as [q|]; [apply curve_point_iff|tauto]. Qed.

Lemma third_cong l x1 y1 x2 x3 y3 :
  0 <= x3 < p256k1 -> cong x3 (l * l - x1 - x2) -> 0 <= y3 < p256k1 -> cong y3 (l * (x1 - x3) - y1) ->
  (x3, y3) = chord l x1 y1 x2.
Proof.
  rewrite p256k1_P. intros R1 C1 R2 C2. unfold chord. apply cong_F in C1, C2.
  assert (E : x3 = (l * l - x1 - x2) mod secp_P).
  { apply ofZ_inj; [assumption|apply Z.mod_pos_bound, P_pos|]. rewrite ofZ_mod. exact C1. }
  rewrite <- E. f_equal. apply ofZ_inj; [assumption|apply Z.mod_pos_bound, P_pos|]. rewrite ofZ_mod. exact C2.
Qed.

Lemma chord_cong_l l l' x1 y1 x2 : ofZ l = ofZ l' -> chord l x1 y1 x2 = chord l' x1 y1 x2.
Proof. intros H. rewrite !chord_F, H. reflexivity. Qed.

Lemma cong0 a : cong a 0 <-> a mod secp_P = 0.
Proof. rewrite cong_F, ofZ_eq, Zmod_0_l. tauto. Qed.

Lemma point_sum_fun p q r : valid p -> valid q -> point_sum p q r -> ec_add p q = r.
Proof.
  intros Vp Vq H. destruct H as [q|q|x y y' H|x1 y1 x2 y2 l x3 y3 Hx Hl R1 C1 R2 C2|x y l x3 y3 Hy Hl R1 C1 R2 C2].
  - reflexivity.
  - apply ec_add_0_r.
  - cbn. rewrite Z.eqb_refl. apply cong0 in H. rewrite H. reflexivity.
  - cbn [ec_add]. destruct (Z.eqb_spec x1 x2) as [E|_]; [tauto|]. f_equal.
    rewrite (third_cong l x1 y1 x2 x3 y3); [|assumption..]. apply chord_cong_l.
    cbn [valid] in Vp, Vq.
    assert (Hd : (ofZ x2 - ofZ x1 <> #0)%F).
    { apply sub_nz. intros E. apply Hx. apply ofZ_inj; [apply Vp|apply Vq|exact E]. }
    apply cong_F in Hl. rewrite ofZ_mul, finv_F, <- Hl, ofZ_mul, !ofZ_sub. field. exact Hd.
  - cbn [ec_add]. rewrite Z.eqb_refl. rewrite cong0 in Hy.
    destruct (Z.eqb_spec ((y + y) mod secp_P) 0) as [E|_]; [tauto|]. f_equal.
    rewrite (third_cong l x y x x3 y3); [|assumption..]. apply chord_cong_l.
    cbn [valid] in Vp. pose proof (oncF_y _ _ (on_curve_F _ _ Vp)) as Ny.
    apply cong_F in Hl. rewrite ofZ_mul, finv_F. unfold secp_A. rewrite Z.add_0_r.
    rewrite <- Hl, !ofZ_mul. field. split; [exact Ny|apply two_nz].
Qed.

Lemma chord_range l x1 y1 x2 :
  let '(x3, y3) := chord l x1 y1 x2 in
  0 <= x3 < p256k1 /\ cong x3 (l * l - x1 - x2) /\ 0 <= y3 < p256k1 /\ cong y3 (l * (x1 - x3) - y1).
Proof.
  unfold chord. cbv zeta. rewrite p256k1_P, !cong_F, !ofZ_mod.
  split; [apply Z.mod_pos_bound, P_pos|]. split; [reflexivity|].
  split; [apply Z.mod_pos_bound, P_pos|]. reflexivity.
Qed.

Lemma point_sum_add p q : valid p -> valid q -> point_sum p q (ec_add p q).
Proof.
  intros Vp Vq. destruct p as [[x1 y1]|]; [|constructor]. destruct q as [[x2 y2]|]; [|constructor].
  cbn [ec_add valid] in *. destruct (Z.eqb_spec x1 x2) as [<-|Hx].
  - destruct (Z.eqb_spec ((y1 + y2) mod secp_P) 0) as [E|E].
    + constructor. apply cong0, E.
    + pose proof (on_curve_F _ _ Vp) as C1. pose proof (on_curve_F _ _ Vq) as C2.
      assert (y2 = y1) as ->.
      { destruct (curve_y _ _ _ Vp Vq) as [->| ->]; [reflexivity|]. exfalso. apply E.
        replace (y1 + (secp_P - y1)) with secp_P by lia. apply Z_mod_same_full. }
      set (l := (3 * x1 * x1 + secp_A) * finv (2 * y1)).
      pose proof (chord_range l x1 y1 x1) as R. destruct (chord l x1 y1 x1) as [x3 y3].
      apply (sum_tangent x1 y1 l); try tauto.
      * rewrite cong0. exact E.
      * apply cong_F. unfold l, secp_A. rewrite Z.add_0_r, !ofZ_mul, finv_F, ofZ_mul.
        pose proof (oncF_y _ _ C1). field. split; [assumption|apply two_nz].
  - set (l := (y2 - y1) * finv (x2 - x1)).
    pose proof (chord_range l x1 y1 x2) as R. destruct (chord l x1 y1 x2) as [x3 y3].
    apply (sum_chord x1 y1 x2 y2 l); try tauto.
    apply cong_F. unfold l. rewrite !ofZ_mul, finv_F, !ofZ_sub. field.
    apply sub_nz. intros E. apply Hx. apply ofZ_inj; [apply Vp|apply Vq|exact E].
Qed.

Lemma point_sum_iff p q r : valid p -> valid q -> (point_sum p q r <-> ec_add p q = r).
Proof.
  intros Vp Vq. split; [apply point_sum_fun; assumption|]. intros <-. apply point_sum_add; assumption.
Qed.

Lemma multiple_nmul q k : valid q -> multiple q (Z.of_nat k) (ec_nmul k q).
Proof.
  intros V. induction k as [|k IH]; [constructor|].
  rewrite Nat2Z.inj_succ, <- Z.add_1_r. apply multiple_S with (ec_nmul k q); [lia|exact IH|].
  apply point_sum_add; auto.
Qed.

Lemma multiple_iff q k r : valid q -> 0 <= k -> (multiple q k r <-> ec_nmul (Z.to_nat k) q = r).
Proof.
  intros V Hk. split.
  - intros M. clear Hk. induction M as [|k r s Hk M IH PS]; [reflexivity|].
    rewrite Z2Nat.inj_add, Nat.add_comm by lia. change (Z.to_nat 1 + Z.to_nat k)%nat with (S (Z.to_nat k)).
    cbn [ec_nmul]. rewrite IH. apply point_sum_fun; [assumption| |exact PS]. rewrite <- IH. auto.
  - intros <-. rewrite <- (Z2Nat.id k) at 1 by assumption. apply multiple_nmul, V.
Qed.

(** ** Square roots: P = 3 mod 4 *)

Lemma P_mod4 : secp_P mod 4 = 3.
Proof. reflexivity. Qed.

Lemma ref_sqrt c y : (0 <= y < secp_P) -> (y * y) mod secp_P = c mod secp_P ->
  let r := powmod c ((secp_P + 1) / 4) secp_P in (r * r) mod secp_P = c mod secp_P.
Proof.
  intros Hy H. pose proof P_mod4 as P4. pose proof P_gt1 as P1. cbv zeta.
  set (e := (secp_P + 1) / 4).
  assert (He : 4 * e = secp_P + 1).
  { unfold e. pose proof (Z.div_mod (secp_P + 1) 4 ltac:(lia)) as D.
    rewrite Zplus_mod, P4 in D. change ((3 + 1 mod 4) mod 4) with 0 in D. lia. }
  rewrite powmod_spec by (auto; lia). rewrite <- Zmult_mod, <- Z.pow_add_r by lia.
  rewrite (pow_mod secp_P c (y * y)) by (auto; lia).
  rewrite <- Z.pow_2_r, <- Z.pow_mul_r by lia.
  replace (2 * (e + e)) with (Z.succ (Z.succ (secp_P - 1))) by lia.
  rewrite !Z.pow_succ_r by lia. rewrite <- H.
  destruct (Z.eq_dec y 0) as [->|Hy0]; [reflexivity|].
  rewrite Z.mul_assoc. rewrite Zmult_mod. rewrite fermat; [|exact prime_P|].
  - rewrite Z.mul_1_r, Zmod_mod. reflexivity.
  - intros D. apply Z.divide_pos_le in D; lia.
Qed.

(** The reference implementation meets the contract. *)
Lemma to_lib_some r : to_lib (Some r) = (r, true).
Proof. reflexivity. Qed.

Lemma ref_lib_meets : ecdsa_contract ref_lib.
Proof.
  constructor.
  - intros x Hx. rewrite p256k1_P in Hx. cbn [lib_GetY ref_lib]. unfold ref_GetY.
    set (rhs := (x * x * x + secp_A * x + secp_B) mod secp_P).
    set (y := powmod rhs ((secp_P + 1) / 4) secp_P). cbn [fst snd].
    assert (Ry : 0 <= y < secp_P).
    { unfold y. rewrite powmod_spec; [apply Z.mod_pos_bound, P_pos|auto|].
      apply Z.div_pos; pose proof P_pos; lia. }
    assert (S : (y * y) mod secp_P = rhs -> on_curve (x, y)) by (intros E; split; [assumption|split; assumption]).
    split; [split|].
    + intros E. apply Z.eqb_eq in E. exists y. apply curve_point_iff, S, E.
    + intros (y' & C). apply curve_point_iff in C. destruct C as (_ & Ry' & C). apply Z.eqb_eq.
      pose proof (ref_sqrt rhs y' Ry') as R. cbv zeta in R. unfold y.
      assert (M : rhs mod secp_P = rhs) by apply Zmod_mod. rewrite M in R. apply R. exact C.
    + intros E. apply Z.eqb_eq in E. apply curve_point_iff, S, E.
  - intros a b _. rewrite p256k1_P. cbn. split; [apply Z.mod_pos_bound, P_pos|].
    apply cong_F, ofZ_mod.
  - intros k q r Hk C M. apply curve_point_iff in C. apply multiple_iff in M; [|exact C|exact Hk].
    cbn [lib_ScalarMult ref_lib]. rewrite mul_nmul by exact C. exact (f_equal to_lib M).
  - intros k q Hk C M. apply curve_point_iff in C. apply multiple_iff in M; [|exact C|exact Hk].
    cbn [lib_ScalarMult ref_lib]. rewrite mul_nmul by exact C. exact (f_equal (fun r => snd (to_lib r)) M).
  - intros q r s Cq Cr S. apply curve_point_iff in Cq, Cr. apply point_sum_fun in S; [|assumption..].
    cbn [lib_AddPoints ref_lib]. rewrite (proj2 (on_curveb_ok q) Cq), (proj2 (on_curveb_ok r) Cr).
    exact (f_equal to_lib S).
  - intros q r Cq Cr S. apply curve_point_iff in Cq, Cr. apply point_sum_fun in S; [|assumption..].
    cbn [lib_AddPoints ref_lib]. rewrite (proj2 (on_curveb_ok q) Cq), (proj2 (on_curveb_ok r) Cr).
    exact (f_equal (fun r => snd (to_lib r)) S).
Qed.
