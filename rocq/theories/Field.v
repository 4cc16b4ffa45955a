(** * The field of order P

    Integers modulo [secp_P] as a Coq type with the [field] tactic; a proof
    device for the curve arithmetic of [EcRef.v]. *)

From Coq Require Import Znumtheory Eqdep_dec Field.
From Verif Require Import GoBase Model EcRef NumTheory Primes.
Local Open Scope Z_scope.

Lemma P_pos : 0 < secp_P.
Proof. reflexivity. Qed.
Lemma P_gt1 : 1 < secp_P.
Proof. reflexivity. Qed.
Lemma P_nz : secp_P <> 0.
Proof. discriminate. Qed.
Global Hint Resolve P_pos P_nz P_gt1 : core.

Local Opaque secp_P.

Record F := mkF { fv : Z; f_ok : fv mod secp_P = fv }.

Lemma F_ext a b : fv a = fv b -> a = b.
Proof.
  destruct a as [a Ha], b as [b Hb]. cbn. intros <-. f_equal.
  apply UIP_dec, Z.eq_dec.
Qed.

Definition ofZ (z : Z) : F := mkF (z mod secp_P) (Zmod_mod z secp_P).
Definition Fadd a b := ofZ (fv a + fv b).
Definition Fmul a b := ofZ (fv a * fv b).
Definition Fsub a b := ofZ (fv a - fv b).
Definition Fopp a := ofZ (- fv a).
Definition Finv a := ofZ (finv (fv a)).
Definition Fdiv a b := Fmul a (Finv b).

Lemma fv_ofZ z : fv (ofZ z) = z mod secp_P.
Proof. reflexivity. Qed.
Lemma ofZ_fv a : ofZ (fv a) = a.
Proof. apply F_ext. apply f_ok. Qed.
Lemma fv_range a : 0 <= fv a < secp_P.
Proof. rewrite <- f_ok. apply Z.mod_pos_bound, P_pos. Qed.

Lemma ofZ_eq x y : ofZ x = ofZ y <-> x mod secp_P = y mod secp_P.
Proof.
  split; [intros H; exact (f_equal fv H)|intros H; apply F_ext; exact H].
Qed.
Lemma ofZ_mod z : ofZ (z mod secp_P) = ofZ z.
Proof. apply ofZ_eq, Zmod_mod. Qed.
Lemma ofZ_inj x y : 0 <= x < secp_P -> 0 <= y < secp_P -> ofZ x = ofZ y -> x = y.
Proof. intros Hx Hy H. apply ofZ_eq in H. rewrite !Z.mod_small in H by assumption. exact H. Qed.

Lemma ofZ_add x y : ofZ (x + y) = Fadd (ofZ x) (ofZ y).
Proof. apply F_ext. cbn. rewrite Zplus_mod. reflexivity. Qed.
Lemma ofZ_mul x y : ofZ (x * y) = Fmul (ofZ x) (ofZ y).
Proof. apply F_ext. cbn. rewrite Zmult_mod. reflexivity. Qed.
Lemma ofZ_sub x y : ofZ (x - y) = Fsub (ofZ x) (ofZ y).
Proof. apply F_ext. cbn. rewrite Zminus_mod. reflexivity. Qed.
Lemma ofZ_opp x : ofZ (- x) = Fopp (ofZ x).
Proof.
  apply F_ext. cbn. apply mod_eq_divide; [auto|].
  exists (- (x / secp_P)). pose proof (Z.div_mod x secp_P P_nz). lia.
Qed.

Lemma F_ring : ring_theory (ofZ 0) (ofZ 1) Fadd Fmul Fsub Fopp (@eq F).
Proof.
  constructor; intros;
    repeat match goal with a : F |- _ => rewrite <- (ofZ_fv a); generalize (fv a); clear a; intros a end;
    rewrite <- ?ofZ_add, <- ?ofZ_mul, <- ?ofZ_opp, <- ?ofZ_sub, <- ?ofZ_add, <- ?ofZ_mul;
    f_equal; ring.
Qed.

Lemma F_morph : ring_morph (ofZ 0) (ofZ 1) Fadd Fmul Fsub Fopp (@eq F)
                           0 1 Z.add Z.mul Z.sub Z.opp Z.eqb ofZ.
Proof.
  constructor; intros; auto using ofZ_add, ofZ_mul, ofZ_sub, ofZ_opp.
  apply Z.eqb_eq in H. congruence.
Qed.

Lemma Finv_l a : a <> ofZ 0 -> Fmul (Finv a) a = ofZ 1.
Proof.
  intros H. unfold Finv. rewrite <- (ofZ_fv a) at 2. rewrite <- ofZ_mul. apply ofZ_eq.
  unfold finv. assert (H2 : 2 <= secp_P) by (pose proof P_gt1; lia).
  rewrite powmod_spec by (auto; lia).
  rewrite Zmult_mod_idemp_l.
  replace (fv a ^ (secp_P - 2) * fv a) with (fv a ^ (secp_P - 1)).
  2:{ replace (secp_P - 1) with (Z.succ (secp_P - 2)) by lia. rewrite Z.pow_succ_r by lia. ring. }
  rewrite fermat; [symmetry; apply Z.mod_1_l; auto|exact prime_P|].
  intros D. apply H. rewrite <- (ofZ_fv a). apply ofZ_eq.
  rewrite Zmod_0_l. apply Z.mod_divide; auto.
Qed.

Lemma F_1_neq_0 : ofZ 1 <> ofZ 0.
Proof. intros H. apply ofZ_eq in H. rewrite Zmod_0_l, Z.mod_1_l in H by auto. discriminate. Qed.

Lemma F_field : field_theory (ofZ 0) (ofZ 1) Fadd Fmul Fsub Fopp Fdiv Finv (@eq F).
Proof. constructor; [exact F_ring|exact F_1_neq_0|reflexivity|exact Finv_l]. Qed.

Ltac F_cst t :=
  match t with
  | ofZ ?z => match isZcst z with true => z | _ => constr:(InitialRing.NotConstant) end
  | _ => constr:(InitialRing.NotConstant)
  end.
Add Field F_field_inst : F_field (morphism F_morph, constants [F_cst]).

Declare Scope F_scope.
Delimit Scope F_scope with F.
Bind Scope F_scope with F.
Infix "+" := Fadd : F_scope.
Infix "*" := Fmul : F_scope.
Infix "-" := Fsub : F_scope.
Infix "/" := Fdiv : F_scope.
Notation "- x" := (Fopp x) : F_scope.
Notation "# z" := (ofZ z) (at level 1, format "# z") : F_scope.

Lemma F_integral a b : (a * b = #0)%F -> a = ofZ 0 \/ b = ofZ 0.
Proof.
  intros H. assert (D : (secp_P | fv a * fv b)).
  { apply Z.mod_divide; [auto|]. change ((fv a * fv b) mod secp_P) with (fv (a * b)%F).
    rewrite H. apply Zmod_0_l. }
  apply prime_mult in D; [|exact prime_P].
  destruct D as [D|D]; [left|right]; apply Z.mod_divide in D; auto;
    apply F_ext; rewrite fv_ofZ, Zmod_0_l, <- D; symmetry; apply f_ok.
Qed.

Lemma F_eq_dec (a b : F) : {a = b} + {a <> b}.
Proof.
  destruct (Z.eq_dec (fv a) (fv b)) as [H|H]; [left; apply F_ext, H|right; congruence].
Qed.

Lemma F_mul_nz a b : a <> ofZ 0 -> b <> ofZ 0 -> (a * b)%F <> ofZ 0.
Proof. intros Ha Hb H. destruct (F_integral _ _ H); tauto. Qed.
