(** * Specification of the secp256k1 group (SEC 2, textbook addition)

    Independent of the model: only integers and congruences. *)

From Coq Require Import ZArith.
Local Open Scope Z_scope.

Definition p256k1 : Z := 2 ^ 256 - 2 ^ 32 - 977.
Definition n256k1 : Z := 2 ^ 256 - 432420386565659656852420866394968145599.
Definition G256k1 : Z * Z :=
  (0x79be667ef9dcbbac55a06295ce870b07029bfcdb2dce28d959f2815b16f81798,
   0x483ada7726a3c4655da4fbfc0e1108a8fd17b448a68554199c47d08ffb10d4b8).

(** Congruence modulo the field prime. *)
Definition cong (a b : Z) : Prop := (p256k1 | a - b).

(** The affine points of y^2 = x^3 + 7, with reduced coordinates. *)
Definition curve_point (q : Z * Z) : Prop :=
  0 <= fst q < p256k1 /\ 0 <= snd q < p256k1 /\
  cong (snd q * snd q) (fst q * fst q * fst q + 7).

(** [None] is the point at infinity. *)
Definition ecpoint := option (Z * Z).
Definition on_the_curve (q : ecpoint) : Prop :=
  match q with None => True | Some q => curve_point q end.

(** The sum of two points. *)
Inductive point_sum : ecpoint -> ecpoint -> ecpoint -> Prop :=
| sum_infinity_l q : point_sum None q q
| sum_infinity_r q : point_sum q None q
| sum_opposite x y y' : cong (y + y') 0 -> point_sum (Some (x, y)) (Some (x, y')) None
| sum_chord x1 y1 x2 y2 l x3 y3 :
    x1 <> x2 -> cong (l * (x2 - x1)) (y2 - y1) ->
    0 <= x3 < p256k1 -> cong x3 (l * l - x1 - x2) ->
    0 <= y3 < p256k1 -> cong y3 (l * (x1 - x3) - y1) ->
    point_sum (Some (x1, y1)) (Some (x2, y2)) (Some (x3, y3))
| sum_tangent x y l x3 y3 :
    ~ cong (y + y) 0 -> cong (l * (2 * y)) (3 * x * x) ->
    0 <= x3 < p256k1 -> cong x3 (l * l - x - x) ->
    0 <= y3 < p256k1 -> cong y3 (l * (x - x3) - y) ->
    point_sum (Some (x, y)) (Some (x, y)) (Some (x3, y3)).

(** [r] is [q] added to itself [k] times. *)
Inductive multiple (q : ecpoint) : Z -> ecpoint -> Prop :=
| multiple_0 : multiple q 0 None
| multiple_S k r s : 0 <= k -> multiple q k r -> point_sum q r s -> multiple q (k + 1) s.
