(** * Libraries that agree on the curve (C104)

    Two libraries that meet the contract of [EcdsaContract.v] and disagree wherever it
    says nothing: [lax_lib true] accepts everything there, [lax_lib false] nothing. *)

From Verif Require Import GoBase Model Spec CurveSpec EcRef.
Local Open Scope Z_scope.

(** The text, if it is read as a compressed key, has an x of the field. *)
Definition x_in_field (s : gostring) : Prop :=
  substring s 0 2 = str "02" \/ substring s 0 2 = str "03" ->
  forall x, signed_hex_number (substring s 2 66) x -> 0 <= x < p256k1.

Definition in_field (x : Z) : bool := (0 <=? x) && (x <? secp_P).
Definition lax_lib (b : bool) : ecdsa_lib :=
  EcdsaLib (fun x => if in_field x then lib_GetY ref_lib x else (0, b))
           (lib_MultMod ref_lib)
           (fun k q => if 0 <=? k then lib_ScalarMult ref_lib k q else ((0, 0), b))
           (fun q r => if on_curveb q && on_curveb r then lib_AddPoints ref_lib q r else ((0, 0), b)).
