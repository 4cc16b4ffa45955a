(** * The two calls that lower-case texts, for any lower-casing function

    [Model.v] lower-cases ASCII letters only. Go's strings.ToLower also changes
    other letters, and bytes that are not valid UTF-8. Here the function is a
    parameter: the theorem [C74_any_lower_casing] shows that it makes no
    difference for the keys the package hands out. *)

From Verif Require Import GoBase GoNum Model.
Local Open Scope Z_scope.

(** private_key.go:136-154, as [Model.AddPrivateKeys] but for lines 142-144. *)
Definition AddPrivateKeys_lower (lower : gostring -> gostring) (p1 p2 : private_key)
  : outcome (result private_key) :=
  if negb (net_eqb (KNetwork p1) (KNetwork p2)) then Ret (Err EDifferentNetwork)  (* 138-140 *)
  else if str_eqb (lower (WIF p1)) (lower (WIF p2)) then Ret (Err EIdentical)     (* 142-144 *)
  else match Key p1, Key p2 with
       | Some k1, Some k2 =>
           PrivateFromHex (bigIntToHex (Some (big_mod (k1 + k2) secp_N))) (KNetwork p1)  (* 146-153 *)
       | _, _ => Panic PNil
       end.

(** private_key.go:157-175, as [Model.MultiplyPrivateKeys] but for lines 163-165. *)
Definition MultiplyPrivateKeys_lower (lower : gostring -> gostring) (p1 p2 : private_key)
  : outcome (result private_key) :=
  if negb (net_eqb (KNetwork p1) (KNetwork p2)) then Ret (Err EDifferentNetwork)  (* 159-161 *)
  else if str_eqb (lower (WIF p1)) (lower (WIF p2)) then Ret (Err EIdentical)     (* 163-165 *)
  else match Key p1, Key p2 with
       | Some k1, Some k2 =>
           PrivateFromHex (bigIntToHex (Some (big_mod (k1 * k2) secp_N))) (KNetwork p1)  (* 167-174 *)
       | _, _ => Panic PNil
       end.
