(** * Reference elliptic-curve arithmetic on secp256k1

    Executable affine arithmetic over Z modulo [secp_P]. [None] is the point at
    infinity. This is the textbook chord-and-tangent definition; it is what the
    contract of the ecdsa dependency ([EcdsaContract.v]) refers to. *)

From Verif Require Import GoBase Model.
Local Open Scope Z_scope.

(** [a ^ e mod m] by square and multiply. *)
Fixpoint powmod_pos (a : Z) (e : positive) (m : Z) : Z :=
  match e with
  | xH => a mod m
  | xO e' => let r := powmod_pos a e' m in (r * r) mod m
  | xI e' => let r := powmod_pos a e' m in ((r * r) mod m * a) mod m
  end.
Definition powmod (a e m : Z) : Z :=
  match e with
  | Zpos p => powmod_pos a p m
  | _ => 1 mod m
  end.

(** Modular inverse by Fermat: a^(P-2). *)
Definition finv (a : Z) : Z := powmod a (secp_P - 2) secp_P.

(** The curve equation y^2 = x^3 + A x + B over the field of order P, with
    reduced coordinates. *)
Definition on_curve (p : point) : Prop :=
  let '(x, y) := p in
  0 <= x < secp_P /\ 0 <= y < secp_P /\
  (y * y) mod secp_P = (x * x * x + secp_A * x + secp_B) mod secp_P.

Definition on_curveb (p : point) : bool :=
  let '(x, y) := p in
  (0 <=? x) && (x <? secp_P) && (0 <=? y) && (y <? secp_P) &&
  ((y * y) mod secp_P =? (x * x * x + secp_A * x + secp_B) mod secp_P).

(** Third intersection, mirrored: the sum of two points on a line of slope [l]. *)
Definition chord (l x1 y1 x2 : Z) : point :=
  let x3 := (l * l - x1 - x2) mod secp_P in
  (x3, (l * (x1 - x3) - y1) mod secp_P).

Definition ec_add (p q : option point) : option point :=
  match p, q with
  | None, _ => q
  | _, None => p
  | Some (x1, y1), Some (x2, y2) =>
      if x1 =? x2 then
        if (y1 + y2) mod secp_P =? 0 then None
        else Some (chord ((3 * x1 * x1 + secp_A) * finv (2 * y1)) x1 y1 x2)
      else Some (chord ((y2 - y1) * finv (x2 - x1)) x1 y1 x2)
  end.

(** k-fold sum, by definition. *)
Fixpoint ec_nmul (k : nat) (p : option point) : option point :=
  match k with
  | O => None
  | S k' => ec_add p (ec_nmul k' p)
  end.

(** Double-and-add. *)
Fixpoint ec_pmul (k : positive) (p : option point) : option point :=
  match k with
  | xH => p
  | xO k' => let r := ec_pmul k' p in ec_add r r
  | xI k' => let r := ec_pmul k' p in ec_add p (ec_add r r)
  end.
Definition ec_mul (k : Z) (p : option point) : option point :=
  match k with
  | Zpos k' => ec_pmul k' p
  | _ => None
  end.

Definition secp_G : point := (secp_Gx, secp_Gy).

(** Reference implementation of the dependency's interface. *)
Definition to_lib (r : option point) : point * bool :=
  match r with Some q => (q, true) | None => ((0, 0), false) end.

Definition ref_GetY (x : Z) : Z * bool :=
  let rhs := (x * x * x + secp_A * x + secp_B) mod secp_P in
  let y := powmod rhs ((secp_P + 1) / 4) secp_P in
  (y, (y * y) mod secp_P =? rhs).

Definition ref_lib : ecdsa_lib :=
  EcdsaLib ref_GetY
           (fun a b => (a * b) mod secp_P)
           (fun k p => to_lib (ec_mul k (Some p)))
           (fun p q => if on_curveb p && on_curveb q
                       then to_lib (ec_add (Some p) (Some q)) else ((0, 0), false)).
