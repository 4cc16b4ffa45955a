(** * The group law of secp256k1

    [EcRef.ec_add] is commutative and associative on curve points. The proof
    goes through the complete projective addition formulas (Renes, Costello,
    Batina 2016, for y^2 = x^3 + b), which have no exceptional case on a curve
    without points of order two. *)

From Coq Require Import Znumtheory Field.
From Verif Require Import GoBase Model EcRef NumTheory Primes Field.
Local Open Scope Z_scope.
Local Opaque secp_P.

(** ** No point has y = 0 *)

Definition cube_test : bool := powmod (-7) ((secp_P - 1) / 3) secp_P =? 1.
Lemma cube_test_false : cube_test = false /\ (secp_P - 1) mod 3 = 0 /\ (7 mod secp_P =? 0) = false.
Proof. vm_compute. auto. Qed.

Lemma no_cube_root x : (x * x * x) mod secp_P <> (- 7) mod secp_P.
Proof.
  intros H. destruct cube_test_false as (T & D & S7). unfold cube_test in T. apply Z.eqb_neq in T.
  apply Z.eqb_neq in S7. apply T. clear T.
  set (e := (secp_P - 1) / 3) in *. pose proof P_gt1.
  assert (He : secp_P - 1 = 3 * e).
  { pose proof (Z.div_mod (secp_P - 1) 3 ltac:(lia)). subst e. lia. }
  rewrite powmod_spec by (auto; lia).
  rewrite (pow_mod secp_P (-7) (x ^ 3)); [|auto|lia|].
  2:{ rewrite <- H. f_equal. ring. }
  rewrite <- Z.pow_mul_r by lia. rewrite <- He.
  apply fermat; [exact prime_P|]. intros Dx.
  apply S7. apply Z.mod_divide; auto.
  apply mod_eq_divide in H; auto. replace (x * x * x - -7) with (x * (x * x) + 7) in H by ring.
  apply Z.divide_add_cancel_r with (x * (x * x)); [|exact H]. apply Z.divide_mul_l, Dx.
Qed.

Local Open Scope F_scope.

(** Curve equation over the field. *)
Definition oncF (x y : F) : Prop := y * y = x * x * x + #7.

Lemma oncF_y x y : oncF x y -> y <> #0.
Proof.
  unfold oncF. intros H ->. apply (no_cube_root (fv x)).
  apply ofZ_eq. rewrite !ofZ_mul, ofZ_fv.
  replace (x * x * x) with (x * x * x + #7 - #7) by ring. rewrite <- H. ring.
Qed.

Lemma onc_Z x y : (0 <= x < secp_P)%Z -> (0 <= y < secp_P)%Z ->
  (on_curve (x, y) <-> oncF (#x) (#y)).
Proof.
  intros Hx Hy. unfold on_curve, oncF, secp_A, secp_B. rewrite Z.mul_0_l, Z.add_0_r.
  rewrite <- ?ofZ_mul, <- ?ofZ_add, ofZ_eq. tauto.
Qed.

Lemma on_curve_F x y : on_curve (x, y) -> oncF (#x) (#y).
Proof. intros H. apply onc_Z; [apply H..|exact H]. Qed.

Lemma two_nz : ofZ 2 <> #0.
Proof.
  intros H. apply ofZ_eq in H. revert H. clear. vm_compute. discriminate.
Qed.

(** ** Projective triples *)

Definition triple := (F * F * F)%type.

Lemma triple_eq (a b c a' b' c' : F) : a = a' -> b = b' -> c = c' -> (a, b, c) = (a', b', c').
Proof. congruence. Qed.

(** b3 = 3 * 7 *)
Definition padd (p q : triple) : triple :=
  let '(X1, Y1, Z1) := p in
  let '(X2, Y2, Z2) := q in
  let u := Y1 * Y2 - #21 * (Z1 * Z2) in
  let v := Y1 * Y2 + #21 * (Z1 * Z2) in
  let a := X1 * Y2 + X2 * Y1 in
  let d := Y1 * Z2 + Y2 * Z1 in
  let e := X1 * Z2 + X2 * Z1 in
  (a * u - #21 * (d * e),
   v * u + #63 * (X1 * X2 * e),
   d * v + #3 * (X1 * X2 * a)).

Definition scale (l : F) (p : triple) : triple :=
  let '(X, Y, Z) := p in (l * X, l * Y, l * Z).

Lemma padd_scale l m p q : padd (scale l p) (scale m q) = scale (l * l * (m * m)) (padd p q).
Proof.
  destruct p as [[X1 Y1] Z1], q as [[X2 Y2] Z2]. unfold padd, scale.
  apply triple_eq; ring.
Qed.

Lemma padd_comm p q : padd p q = padd q p.
Proof.
  destruct p as [[X1 Y1] Z1], q as [[X2 Y2] Z2]. unfold padd. apply triple_eq; ring.
Qed.

(** Curve points as triples; [valid]: on the curve with reduced coordinates. *)
Definition valid (p : option point) : Prop :=
  match p with None => True | Some q => on_curve q end.
Definition canon (p : option point) : triple :=
  match p with None => (#0, #1, #0) | Some (x, y) => (#x, #y, #1) end.
Definition repr (p : option point) (t : triple) : Prop :=
  exists l, l <> #0 /\ t = scale l (canon p).

Lemma repr_canon p : repr p (canon p).
Proof.
  exists (#1). split; [apply F_1_neq_0|]. destruct p as [[x y]|]; cbn; apply triple_eq; ring.
Qed.

Lemma repr_scale p t l : l <> #0 -> repr p t -> repr p (scale l t).
Proof.
  intros Hl (m & Hm & ->). exists (l * m). split; [apply F_mul_nz; assumption|].
  destruct (canon p) as [[X Y] Z]. cbn. apply triple_eq; ring.
Qed.

Definition peq (p q : triple) : Prop :=
  let '(X1, Y1, Z1) := p in
  let '(X2, Y2, Z2) := q in
  X1 * Z2 = X2 * Z1 /\ Y1 * Z2 = Y2 * Z1 /\ X1 * Y2 = X2 * Y1.

Lemma peq_refl p : peq p p.
Proof. destruct p as [[X Y] Z]. cbn. repeat split; ring. Qed.

Lemma F_cancel a b c : a <> #0 -> a * b = a * c -> b = c.
Proof.
  intros Ha H. assert (H0 : a * (b - c) = #0) by (replace (a * (b - c)) with (a * b - a * c) by ring; rewrite H; ring).
  destruct (F_integral _ _ H0) as [E|E]; [tauto|].
  replace b with (b - c + c) by ring. rewrite E. ring.
Qed.

Lemma repr_inj p q s t : valid p -> valid q -> repr p s -> repr q t -> peq s t -> p = q.
Proof.
  intros Vp Vq (l & Hl & ->) (m & Hm & ->).
  assert (Hlm : l * m <> #0) by (apply F_mul_nz; assumption).
  destruct p as [[x1 y1]|], q as [[x2 y2]|]; cbn.
  - intros (E1 & E2 & _).
    assert (X : ofZ x1 = #x2).
    { apply (F_cancel (l * m)); [exact Hlm|].
      replace (l * m * #x1) with (l * #x1 * (m * #1)) by ring. rewrite E1. ring. }
    assert (Y : ofZ y1 = #y2).
    { apply (F_cancel (l * m)); [exact Hlm|].
      replace (l * m * #y1) with (l * #y1 * (m * #1)) by ring. rewrite E2. ring. }
    cbn in Vp, Vq. apply ofZ_inj in X; [|tauto..]. apply ofZ_inj in Y; [|tauto..]. congruence.
  - intros (_ & E & _). exfalso. apply Hlm.
    replace (l * m) with (m * #1 * (l * #1)) by ring. rewrite <- E. ring.
  - intros (_ & E & _). exfalso. apply Hlm.
    replace (l * m) with (l * #1 * (m * #1)) by ring. rewrite E. ring.
  - reflexivity.
Qed.

(** ** The addition of [EcRef] in field terms *)

(** Chord through two points with different x. *)
Definition lam (x1 y1 x2 y2 : F) : F := (y2 - y1) / (x2 - x1).
Definition third (l x1 y1 x2 : F) : F * F :=
  let x3 := l * l - x1 - x2 in (x3, l * (x1 - x3) - y1).

Lemma chord_F l x1 y1 x2 :
  chord l x1 y1 x2 = (fv (fst (third (#l) (#x1) (#y1) (#x2))), fv (snd (third (#l) (#x1) (#y1) (#x2)))).
Proof.
  unfold chord, third. cbn [fst snd]. f_equal.
  - rewrite <- ofZ_mul, <- !ofZ_sub. reflexivity.
  - rewrite <- fv_ofZ. f_equal. rewrite !ofZ_sub, ofZ_mul, ofZ_sub, ofZ_mod, !ofZ_sub, ofZ_mul. reflexivity.
Qed.

Lemma finv_F z : ofZ (finv z) = Finv (#z).
Proof.
  unfold Finv. apply ofZ_eq. rewrite fv_ofZ. unfold finv. pose proof P_gt1.
  rewrite !powmod_spec by (auto; lia). rewrite pow_mod_l by (auto; lia). reflexivity.
Qed.

Lemma third_oncF_chord x1 y1 x2 y2 : oncF x1 y1 -> oncF x2 y2 -> x2 - x1 <> #0 ->
  let '(x3, y3) := third (lam x1 y1 x2 y2) x1 y1 x2 in oncF x3 y3.
Proof.
  unfold oncF, third, lam. intros H1 H2 Hd.
  field_simplify_eq [H1 H2]; [|exact Hd].
  ring [H1 H2].
Qed.

Lemma third_oncF_tangent x y : oncF x y -> #2 * y <> #0 ->
  let '(x3, y3) := third (#3 * x * x / (#2 * y)) x y x in oncF x3 y3.
Proof.
  unfold oncF, third. intros H Hd.
  assert (Hy : y <> #0) by (intros ->; apply Hd; ring).
  field_simplify_eq [H]; [|split; [exact Hy|apply two_nz]].
  ring [H].
Qed.

(** ** The complete formulas agree with the chord-and-tangent definition *)

Lemma oncF_opp x y : oncF x y -> oncF x (- y).
Proof. unfold oncF. intros H. rewrite <- H. ring. Qed.

Lemma padd_chord x1 y1 x2 y2 : oncF x1 y1 -> oncF x2 y2 -> x2 - x1 <> #0 ->
  let '(x3, y3) := third (lam x1 y1 x2 y2) x1 y1 x2 in
  exists l, l <> #0 /\ padd (x1, y1, #1) (x2, y2, #1) = scale l (x3, y3, #1).
Proof.
  intros H1 H2 Hd. cbn zeta. unfold third.
  set (l := (y1 * #1 + y2 * #1) * (y1 * y2 + #21 * (#1 * #1)) + #3 * (x1 * x2 * (x1 * y2 + x2 * y1))).
  exists l. split.
  - (* l is (x2-x1)^3 times the y of the difference of the two points *)
    pose proof (third_oncF_chord x1 y1 x2 (- y2) H1 (oncF_opp _ _ H2) Hd) as H3.
    unfold third in H3. cbn zeta beta iota in H3. apply oncF_y in H3.
    assert (E : l = (x2 - x1) * (x2 - x1) * (x2 - x1) *
      (lam x1 y1 x2 (- y2) * (x1 - (lam x1 y1 x2 (- y2) * lam x1 y1 x2 (- y2) - x1 - x2)) - y1)).
    { unfold l, lam, oncF in *. field_simplify_eq [H1 H2]; [|exact Hd]. ring [H1 H2]. }
    rewrite E. repeat apply F_mul_nz; assumption.
  - unfold padd, scale, l, lam, oncF in *. apply triple_eq.
    + field_simplify_eq [H1 H2]; [|exact Hd]. ring [H1 H2].
    + field_simplify_eq [H1 H2]; [|exact Hd]. ring [H1 H2].
    + ring.
Qed.

Lemma padd_tangent x y : oncF x y ->
  let '(x3, y3) := third (#3 * x * x / (#2 * y)) x y x in
  exists l, l <> #0 /\ padd (x, y, #1) (x, y, #1) = scale l (x3, y3, #1).
Proof.
  intros H. cbn zeta. unfold third. pose proof (oncF_y _ _ H) as Hy.
  exists (#2 * #2 * #2 * (y * y * y)). split.
  - repeat apply F_mul_nz; auto using two_nz.
  - unfold padd, scale, oncF in *. apply triple_eq.
    + field_simplify_eq [H]; [|split; [exact Hy|apply two_nz]]. ring [H].
    + field_simplify_eq [H]; [|split; [exact Hy|apply two_nz]]. ring [H].
    + ring [H].
Qed.

Lemma padd_opposite x y : oncF x y ->
  exists l, l <> #0 /\ padd (x, y, #1) (x, - y, #1) = scale l (#0, #1, #0).
Proof.
  intros H. pose proof (oncF_y _ _ H) as Hy.
  assert (H2y : #2 * y <> #0) by (apply F_mul_nz; auto using two_nz).
  pose proof (third_oncF_tangent x y H H2y) as H3. unfold third in H3.
  cbn zeta beta iota in H3. apply oncF_y in H3.
  exists (y * y * (y * y) - #441 + #126 * (x * x * x)). split; [|unfold padd, scale; apply triple_eq; ring].
  match goal with |- ?a <> _ => assert (E : a = #2 * y * (#2 * y) * (#2 * y) *
    (#3 * x * x / (#2 * y) * (x - (#3 * x * x / (#2 * y) * (#3 * x * x / (#2 * y)) - x - x)) - y)) end.
  { unfold oncF in *. field_simplify_eq [H]; [|split; [exact Hy|apply two_nz]]. ring [H]. }
  rewrite E. repeat apply F_mul_nz; auto using two_nz.
Qed.

(** ** Closure and agreement *)

Lemma valid_F (x y : F) : oncF x y -> on_curve (fv x, fv y).
Proof. intros H. apply onc_Z; [apply fv_range..|]. rewrite !ofZ_fv. exact H. Qed.

Lemma y_same_or_opp x y y' : oncF x y -> oncF x y' -> y' = y \/ y' = - y.
Proof.
  unfold oncF. intros H H'.
  assert (E : (y' - y) * (y' + y) = #0) by (replace ((y' - y) * (y' + y)) with (y' * y' - y * y) by ring; rewrite H, H'; ring).
  destruct (F_integral _ _ E) as [E0|E0]; [left|right].
  - replace y' with (y' - y + y) by ring. rewrite E0. ring.
  - replace y' with (y' + y - y) by ring. rewrite E0. ring.
Qed.

Lemma sub_nz a b : a <> b -> b - a <> #0.
Proof. intros H E. apply H. replace b with (b - a + a) by ring. rewrite E. ring. Qed.

Lemma ec_add_repr p q : valid p -> valid q ->
  valid (ec_add p q) /\ repr (ec_add p q) (padd (canon p) (canon q)).
Proof.
  intros Vp Vq. destruct p as [[x1 y1]|], q as [[x2 y2]|].
  - cbn [valid] in Vp, Vq. pose proof (on_curve_F _ _ Vp) as C1. pose proof (on_curve_F _ _ Vq) as C2.
    pose proof (oncF_y _ _ C1) as N1.
    cbn [ec_add canon]. destruct (Z.eqb_spec x1 x2) as [<-|Hx].
    + assert (Dec : ((y1 + y2) mod secp_P =? 0)%Z = true <-> ofZ y2 = - #y1).
      { rewrite Z.eqb_eq. rewrite <- (Zmod_0_l secp_P). rewrite <- ofZ_eq, ofZ_add. split; intros E.
        - replace (#y2) with (#y1 + #y2 - #y1) by ring. rewrite E. ring.
        - rewrite E. ring. }
      destruct ((y1 + y2) mod secp_P =? 0)%Z.
      * split; [exact I|]. rewrite (proj1 Dec eq_refl).
        destruct (padd_opposite _ _ C1) as (l & Hl & ->). exists l. auto.
      * assert (E : ofZ y2 = #y1).
        { destruct (y_same_or_opp _ _ _ C1 C2) as [E|E]; [exact E|]. apply Dec in E. discriminate. }
        rewrite chord_F.
        assert (L : #((3 * x1 * x1 + secp_A) * finv (2 * y1))%Z = #3 * #x1 * #x1 / (#2 * #y1)).
        { rewrite ofZ_mul, finv_F, ofZ_add, !ofZ_mul. unfold secp_A, Fdiv. ring. }
        rewrite L, E.
        assert (H2y : #2 * #y1 <> #0) by (apply F_mul_nz; auto using two_nz).
        pose proof (third_oncF_tangent _ _ C1 H2y) as T. pose proof (padd_tangent _ _ C1) as R.
        destruct (third _ _ _ _) as [x3 y3]. cbn [fst snd]. split; [apply valid_F, T|].
        destruct R as (l & Hl & ->). exists l. cbn [canon]. rewrite !ofZ_fv. auto.
    + rewrite chord_F.
      assert (L : #((y2 - y1) * finv (x2 - x1))%Z = lam (#x1) (#y1) (#x2) (#y2)).
      { rewrite ofZ_mul, finv_F, !ofZ_sub. reflexivity. }
      rewrite L.
      assert (Hd : #x2 - #x1 <> #0).
      { apply sub_nz. intros E. apply Hx. apply ofZ_inj; [apply Vp|apply Vq|exact E]. }
      pose proof (third_oncF_chord _ _ _ _ C1 C2 Hd) as T. pose proof (padd_chord _ _ _ _ C1 C2 Hd) as R.
      destruct (third _ _ _ _) as [x3 y3]. cbn [fst snd]. split; [apply valid_F, T|].
      destruct R as (l & Hl & ->). exists l. cbn [canon]. rewrite !ofZ_fv. auto.
  - split; [exact Vp|]. cbn [valid] in Vp. apply on_curve_F in Vp. pose proof (oncF_y _ _ Vp) as N1.
    exists (#y1). split; [exact N1|].
    cbn [canon ec_add]. unfold padd, scale, oncF in *. apply triple_eq; ring.
  - split; [exact Vq|]. cbn [valid] in Vq. apply on_curve_F in Vq. pose proof (oncF_y _ _ Vq) as N1.
    exists (#y2). split; [exact N1|].
    cbn [canon ec_add]. unfold padd, scale, oncF in *. apply triple_eq; ring.
  - split; [exact I|]. exists (#1). split; [apply F_1_neq_0|]. cbn. apply triple_eq; ring.
Qed.

Lemma ec_add_valid p q : valid p -> valid q -> valid (ec_add p q).
Proof. intros. apply ec_add_repr; assumption. Qed.

Lemma repr_add p q s t : valid p -> valid q -> repr p s -> repr q t -> repr (ec_add p q) (padd s t).
Proof.
  intros Vp Vq (l & Hl & ->) (m & Hm & ->). rewrite padd_scale. apply repr_scale.
  - repeat apply F_mul_nz; assumption.
  - apply ec_add_repr; assumption.
Qed.

(** ** Group laws *)

Lemma ec_add_comm p q : valid p -> valid q -> ec_add p q = ec_add q p.
Proof.
  intros Vp Vq. apply (repr_inj _ _ (padd (canon p) (canon q)) (padd (canon q) (canon p)));
    auto using ec_add_valid.
  - apply ec_add_repr; assumption.
  - apply ec_add_repr; assumption.
  - rewrite padd_comm. apply peq_refl.
Qed.

Lemma padd_assoc x1 y1 x2 y2 x3 y3 : oncF x1 y1 -> oncF x2 y2 -> oncF x3 y3 ->
  peq (padd (padd (x1, y1, #1) (x2, y2, #1)) (x3, y3, #1))
      (padd (x1, y1, #1) (padd (x2, y2, #1) (x3, y3, #1))).
Proof.
  unfold oncF. intros H1 H2 H3. unfold padd, peq. split; [|split].
  - ring [H1 H2 H3].
  - ring [H1 H2 H3].
  - ring [H1 H2 H3].
Qed.

Lemma ec_add_0_l p : ec_add None p = p.
Proof. reflexivity. Qed.
Lemma ec_add_0_r p : ec_add p None = p.
Proof. destruct p as [[x y]|]; reflexivity. Qed.

Theorem ec_add_assoc p q r : valid p -> valid q -> valid r ->
  ec_add (ec_add p q) r = ec_add p (ec_add q r).
Proof.
  intros Vp Vq Vr.
  destruct p as [[x1 y1]|]; [|reflexivity].
  destruct q as [[x2 y2]|]; [|rewrite ec_add_0_r; reflexivity].
  destruct r as [[x3 y3]|]; [|rewrite !ec_add_0_r; reflexivity].
  set (p := Some (x1, y1)) in *. set (q := Some (x2, y2)) in *. set (r := Some (x3, y3)) in *.
  apply (repr_inj _ _ (padd (padd (canon p) (canon q)) (canon r)) (padd (canon p) (padd (canon q) (canon r))));
    auto using ec_add_valid.
  - apply repr_add; auto using ec_add_valid, repr_canon. apply ec_add_repr; assumption.
  - apply repr_add; auto using ec_add_valid, repr_canon. apply ec_add_repr; assumption.
  - apply padd_assoc; apply on_curve_F; assumption.
Qed.
