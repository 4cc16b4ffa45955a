(** * What a new key shares, and no program can corrupt the curve (C107)

    Theorems only; each is closed by an existing lemma. [SpecShare.v] says what a
    key made by a call consists of, [SpecHistory.v] what a program can do: hold
    values, make objects, overwrite any object it can get at, call the package,
    recover from panics. The ecdsa dependency [E] is any library at all. *)

From Coq Require Import String.
From Verif Require Import GoBase GoNum Model ModelPtr EcRef GoSyntax GoSource GoSem SpecSource SpecShare SpecConc SpecHistory.
From Verif Require Import SourceAll SourceWitness ShareFacts ShareWitness.
Local Open Scope Z_scope.

(** The key a call returns is a new object with a new number in it, and its
    network is the pointer the caller passed, not a copy. *)
Theorem C107_PrivateFromHex : forall E x v net s, is_net (heap s) v net ->
  answers E "PrivateFromHex" [VStr x; v] s (PrivateFromHex x net) (own_priv s v).
Proof. exact new_PrivateFromHex. Qed.
Print Assumptions C107_PrivateFromHex.

Theorem C107_PrivateFromWIF : forall E w v net s, is_net (heap s) v net ->
  answers E "PrivateFromWIF" [VStr w; v] s (PrivateFromWIF w net) (own_priv s v).
Proof. exact new_PrivateFromWIF. Qed.
Print Assumptions C107_PrivateFromWIF.

Theorem C107_GeneratePrivateKey : forall E v net s, is_net (heap s) v net ->
  answers_reading E "GeneratePrivateKey" [v] s (GeneratePrivateKey net (source s)) snd (own_random_priv s v).
Proof. exact new_GeneratePrivateKey. Qed.
Print Assumptions C107_GeneratePrivateKey.

Theorem C107_PublicFromHex : forall E x v net s, curve_ready (heap s) -> is_net (heap s) v net ->
  answers E "PublicFromHex" [VStr x; v] s (PublicFromHex (E secp256k1_params) x net) (own_pub s v).
Proof. exact new_PublicFromHex. Qed.
Print Assumptions C107_PublicFromHex.

(** A key made from two keys, or a public key made from a private one, shares
    nothing with them but the network of the first. *)
Theorem C107_AddPrivateKeys : forall E v1 p1 v2 p2 net s, curve_ready (heap s) ->
  is_priv (heap s) v1 p1 -> is_priv (heap s) v2 p2 -> field_is (heap s) v1 "Network" net ->
  answers E "AddPrivateKeys" [v1; v2] s (AddPrivateKeys p1 p2) (own_priv s net).
Proof. exact new_AddPrivateKeys. Qed.
Print Assumptions C107_AddPrivateKeys.

Theorem C107_MultiplyPrivateKeys : forall E v1 p1 v2 p2 net s, curve_ready (heap s) ->
  is_priv (heap s) v1 p1 -> is_priv (heap s) v2 p2 -> field_is (heap s) v1 "Network" net ->
  answers E "MultiplyPrivateKeys" [v1; v2] s (MultiplyPrivateKeys p1 p2) (own_priv s net).
Proof. exact new_MultiplyPrivateKeys. Qed.
Print Assumptions C107_MultiplyPrivateKeys.

Theorem C107_GetPublicKey : forall E v k net s, curve_ready (heap s) ->
  is_priv (heap s) v k -> field_is (heap s) v "Network" net ->
  answers E "PrivateKey.GetPublicKey" [v] s (GetPublicKey (E secp256k1_params) k) (own_pub_ok s net).
Proof. exact new_GetPublicKey. Qed.
Print Assumptions C107_GetPublicKey.

Theorem C107_AddPublicKeys : forall E v1 p1 v2 p2 c net s, curve_ready (heap s) ->
  is_pub (heap s) v1 p1 -> is_pub (heap s) v2 p2 -> field_is (heap s) v1 "Network" net ->
  answers E "AddPublicKeys" [v1; v2; VBool c] s (AddPublicKeys (E secp256k1_params) p1 p2 c) (own_pub s net).
Proof. exact new_AddPublicKeys. Qed.
Print Assumptions C107_AddPublicKeys.

(** So whatever is written to an object that was there before the call, the new
    key stays what it was, unless that object is the network. *)
Theorem C107_private_key_is_independent : forall h0 net h v k a c,
  made_priv h0 net h v k -> (a < length h0)%nat -> net <> VPtr a -> is_priv (hset h a c) v k.
Proof. exact made_priv_own. Qed.
Print Assumptions C107_private_key_is_independent.
Theorem C107_public_key_is_independent : forall h0 net h v p a c,
  made_pub h0 net h v p -> (a < length h0)%nat -> net <> VPtr a -> is_pub (hset h a c) v p.
Proof. exact made_pub_own. Qed.
Print Assumptions C107_public_key_is_independent.
(** And another network written to that object is the new key's network too. *)
Theorem C107_private_key_shares_network : forall h0 i h v k n,
  made_priv h0 (VPtr i) h v k -> (i < length h0)%nat ->
  is_priv (hset h i (network_cell n)) v (PrivateKey (Key k) (Hex k) (WIF k) (Some n)).
Proof. exact made_priv_shared. Qed.
Print Assumptions C107_private_key_shares_network.
Theorem C107_public_key_shares_network : forall h0 i h v p n,
  made_pub h0 (VPtr i) h v p -> (i < length h0)%nat ->
  is_pub (hset h i (network_cell n)) v (PublicKey (PX p) (PY p) (Some n)).
Proof. exact made_pub_shared. Qed.
Print Assumptions C107_public_key_shares_network.

(** Whatever a program does, the curve stays as the package set it up: the
    hypothesis [curve_ready] of the theorems about calls is always met. *)
Theorem C107_curve_is_safe : forall E s hs, history E s hs -> curve_ready (heap s).
Proof. exact history_curve. Qed.
Print Assumptions C107_curve_is_safe.

(** No program ever gets at a number of the curve. *)
Theorem C107_curve_is_out_of_reach : forall E s hs a b p gx gy n c v i, history E s hs ->
  var_is (heap s) "secp256k1" (VStruct "ecdsa.Curve" [("A", a); ("B", b); ("P", p);
                              ("G", VStruct "ecdsa.Point" [("X", gx); ("Y", gy)]); ("N", n); ("H", c)]%string) ->
  In v [a; b; p; gx; gy; n; c] -> v = VPtr i -> ~ reach (heap s) hs i.
Proof. exact history_apart. Qed.
Print Assumptions C107_curve_is_out_of_reach.

(** Every call a program can make comes to an end: it returns or panics, and has
    only added objects to the heap. *)
Theorem C107_every_call_ends : forall E s hs f args, history E s hs -> api_call (heap s) f args ->
  exists r new rd lg, ends E f args s r /\
    ((exists vs, r = Done vs (State (heap s ++ new) rd lg)) \/ (exists p, r = Crash p (State (heap s ++ new) rd lg))).
Proof. exact history_call_ends. Qed.
Print Assumptions C107_every_call_ends.

(** A program that has made a private and a public key by hand; and the same
    program after it has set the private key's number to 0 and the exported
    variable MainNetwork to nil. *)
Example C107_example_history : forall E, history E example_state example_held.
Proof. exact example_history. Qed.
Example C107_example_wrecked : forall E, history E example_wrecked example_held.
Proof. exact example_wrecked_history. Qed.
Example C107_example_call : api_call (heap example_wrecked) "PrivateKey.GetPublicKey" [VPtr 13].
Proof. exact example_wrecked_call. Qed.
(** The keys of [example_state] and their network. *)
Example C107_example_priv : is_priv (heap example_state) (VPtr 13) example_key /\ field_is (heap example_state) (VPtr 13) "Network" (VPtr 10).
Proof. exact (conj example_priv example_field). Qed.
Example C107_example_pub : is_pub (heap example_state) (VPtr 16) example_pub /\ field_is (heap example_state) (VPtr 16) "Network" (VPtr 10).
Proof. exact (conj example_is_pub example_pub_field). Qed.
Example C107_example_curve : curve_ready (heap example_state).
Proof. exact example_curve. Qed.
(** A run: the public key of the private key 1 is the generator, made of new
    objects and not of the curve's own, with the network of the private key. *)
Example C107_example_derived :
  match run (fun _ => ref_lib) O 100 "PrivateKey.GetPublicKey" [VPtr 13] example_state with
  | Done [VPtr a; VBool true] s =>
      (length (heap example_state) <= a)%nat /\
      match nth_error (heap s) a with
      | Some (VStruct _ [(_, VPtr x); (_, VPtr y); (_, net)]) =>
          (length (heap example_state) <= x)%nat /\ (length (heap example_state) <= y)%nat /\
          nth_error (heap s) x = Some (VBig secp_Gx) /\ nth_error (heap s) y = Some (VBig secp_Gy) /\ net = VPtr 10
      | _ => False
      end
  | _ => False
  end.
Proof. exact example_derived. Qed.
(** Two keys made after [example_state], and where the curve is. *)
Example C107_example_made_priv : made_priv (heap example_state) (VPtr 10) later_cells (VPtr 18) example_key.
Proof. exact later_priv. Qed.
Example C107_example_made_pub : made_pub (heap example_state) (VPtr 10) later_cells (VPtr 19) example_pub.
Proof. exact later_pub. Qed.
Example C107_example_curve_var : var_is (heap example_wrecked) "secp256k1"
  (VStruct "ecdsa.Curve" [("A", VPtr 3); ("B", VPtr 4); ("P", VPtr 7);
     ("G", VStruct "ecdsa.Point" [("X", VPtr 5); ("Y", VPtr 6)]); ("N", VPtr 8); ("H", VPtr 9)]%string).
Proof. exact example_curve_var. Qed.
