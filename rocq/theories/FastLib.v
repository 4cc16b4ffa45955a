(** * A second implementation of the dependency's interface, fast enough to run

    Same results as [EcRef.ref_lib] on the curve, with projective arithmetic and
    folding reduction. Used to evaluate the model on concrete keys. *)

From Verif Require Import GoBase GoNum Model EcRef NumTheory Primes Field Curve CurveMul CurveGroup CurveSpec
  EcdsaContract EcFacts.
Local Open Scope Z_scope.
Local Opaque secp_P secp_N.

Fixpoint fast_pow (a : Z) (e : positive) : Z :=
  match e with
  | xH => red a
  | xO e' => let r := fast_pow a e' in red (r * r)
  | xI e' => let r := fast_pow a e' in red (red (r * r) * a)
  end.

Lemma fast_pow_ok a e : fast_pow a e = powmod_pos a e secp_P.
Proof. induction e as [e IH|e IH|]; cbn; rewrite ?IH, ?red_mod; reflexivity. Qed.

Lemma powmod_to_pos a e m : 0 < e -> powmod_pos a (Z.to_pos e) m = powmod a e m.
Proof. intros He. destruct e; [lia|reflexivity|lia]. Qed.

Definition fast_GetY (x : Z) : Z * bool :=
  let rhs := red (red (x * x) * x + 7) in
  let y := fast_pow rhs (Z.to_pos ((secp_P + 1) / 4)) in
  (y, red (y * y) =? rhs).

Lemma fast_GetY_ok x : fast_GetY x = ref_GetY x.
Proof.
  unfold fast_GetY, ref_GetY. rewrite !red_mod, fast_pow_ok.
  assert (Er : ((x * x) mod secp_P * x + 7) mod secp_P = (x * x * x + secp_A * x + secp_B) mod secp_P).
  { change secp_A with 0. change secp_B with 7. rewrite Z.mul_0_l, Z.add_0_r.
    rewrite Zplus_mod, Zmult_mod_idemp_l, <- Zplus_mod. reflexivity. }
  rewrite Er, powmod_to_pos; [reflexivity|]. pose proof P_gt1. apply Z.div_str_pos.
  pose proof P_mod4. pose proof (Z.mod_le secp_P 4). lia.
Qed.

Definition fast_add (p q : point) : option point :=
  let '(x1, y1) := p in
  let '(x2, y2) := q in to_affine (zadd (x1, y1, 1) (x2, y2, 1)).

Lemma fast_add_ok p q : on_curve p -> on_curve q -> fast_add p q = ec_add (Some p) (Some q).
Proof.
  intros Vp Vq. destruct p as [x1 y1], q as [x2 y2]. unfold fast_add. apply to_affine_ok.
  - apply ec_add_valid; assumption.
  - rewrite lift_zadd. apply repr_add; [exact Vp|exact Vq| |].
    + exact (repr_canon (Some (x1, y1))).
    + exact (repr_canon (Some (x2, y2))).
Qed.

Definition fast_lib : ecdsa_lib :=
  EcdsaLib fast_GetY (fun a b => red (a * b))
    (fun k p => match k with Zpos k' => to_lib (fast_mul k' p) | _ => ((0, 0), false) end)
    (fun p q => to_lib (fast_add p q)).

Lemma fast_lib_meets : ecdsa_contract fast_lib.
Proof.
  pose proof ref_lib_meets as R. constructor.
  - intros x. cbn [lib_GetY fast_lib]. rewrite fast_GetY_ok. exact (contract_GetY _ R x).
  - intros a b. cbn [lib_MultMod fast_lib]. rewrite red_mod. exact (contract_MultMod _ R a b).
  - intros k q r Hk C M. rewrite <- (contract_ScalarMult _ R k q r Hk C M).
    cbn [lib_ScalarMult fast_lib ref_lib]. destruct k as [|k|k]; [reflexivity| |lia].
    apply curve_point_iff in C. rewrite fast_mul_ok by exact C. reflexivity.
  - intros k q Hk C M. rewrite <- (contract_ScalarMult_infinity _ R k q Hk C M).
    cbn [lib_ScalarMult fast_lib ref_lib]. destruct k as [|k|k]; [reflexivity| |lia].
    apply curve_point_iff in C. rewrite fast_mul_ok by exact C. reflexivity.
  - intros q r s Cq Cr S. rewrite <- (contract_AddPoints _ R q r s Cq Cr S).
    cbn [lib_AddPoints fast_lib ref_lib]. apply curve_point_iff in Cq, Cr.
    rewrite (proj2 (on_curveb_ok q) Cq), (proj2 (on_curveb_ok r) Cr), fast_add_ok by assumption. reflexivity.
  - intros q r Cq Cr S. rewrite <- (contract_AddPoints_infinity _ R q r Cq Cr S).
    cbn [lib_AddPoints fast_lib ref_lib]. apply curve_point_iff in Cq, Cr.
    rewrite (proj2 (on_curveb_ok q) Cq), (proj2 (on_curveb_ok r) Cr), fast_add_ok by assumption. reflexivity.
Qed.
