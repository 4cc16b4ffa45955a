(** * What the package relies on in the ecdsa dependency

    github.com/aureleoules/ecdsa is not in /repo. The properties that involve
    point arithmetic hold for every implementation of its four methods that
    meets this contract on the curve of btc.go:18-26. [EcFacts.ref_lib_meets]
    exhibits one. *)

From Verif Require Import GoBase Model CurveSpec.
Local Open Scope Z_scope.

Record ecdsa_contract (E : ecdsa_lib) : Prop := {
  (** GetY(x) tells whether x is on the curve and returns one of the two y. *)
  contract_GetY : forall x, 0 <= x < p256k1 ->
    (snd (lib_GetY E x) = true <-> exists y, curve_point (x, y)) /\
    (snd (lib_GetY E x) = true -> curve_point (x, fst (lib_GetY E x)));
  (** MultMod(a, b) is the product modulo the field prime. *)
  contract_MultMod : forall a b, 0 <= a < p256k1 ->
    0 <= lib_MultMod E a b < p256k1 /\ cong (lib_MultMod E a b) (a * b);
  (** ScalarMult(k, q) is k times q; the flag is false at infinity. *)
  contract_ScalarMult : forall k q r, 0 <= k -> curve_point q -> multiple (Some q) k (Some r) ->
    lib_ScalarMult E k q = (r, true);
  contract_ScalarMult_infinity : forall k q, 0 <= k -> curve_point q -> multiple (Some q) k None ->
    snd (lib_ScalarMult E k q) = false;
  (** AddPoints(q, r) is the sum; the flag is false at infinity. *)
  contract_AddPoints : forall q r s, curve_point q -> curve_point r ->
    point_sum (Some q) (Some r) (Some s) -> lib_AddPoints E q r = (s, true);
  contract_AddPoints_infinity : forall q r, curve_point q -> curve_point r ->
    point_sum (Some q) (Some r) None -> snd (lib_AddPoints E q r) = false }.

(** A public key whose coordinates are a point of the curve. *)
Definition curve_key (p : public_key) : Prop :=
  exists x y, PX p = Some x /\ PY p = Some y /\ curve_point (x, y).
