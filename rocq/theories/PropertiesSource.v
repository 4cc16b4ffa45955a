(** * The source text does what the model says (C94)

    Theorems only; each is closed by an existing lemma. [GoSource.v] is the Go
    source as syntax trees, [GoSem.v] runs them, and [SpecSource.v] says how Go
    values stand for values of the model and what [answers] means: the call ends
    in finitely many steps with that answer, and no object that existed before
    has changed. The ecdsa dependency [E] is any library at all. *)

From Coq Require Import String.
From Verif Require Import GoBase GoNum Model ModelPtr EcRef GoSyntax GoSource GoSem SpecSource SourceAll SourceWitness.
Local Open Scope Z_scope.

(** The start of the program sets up the curve and the two networks. *)
Theorem C94_init : forall E rd lg, exists h,
  ends E "init" [] (State start_heap rd lg) (Done [] (State h rd lg)) /\
  curve_ready h /\
  (exists v, var_is h "MainNetwork" v /\ is_net h v (Some MainNetwork)) /\
  (exists v, var_is h "TestNetwork" v /\ is_net h v (Some TestNetwork)).
Proof. exact answers_init. Qed.
Print Assumptions C94_init.

(** Objects made later do not disturb this. *)
Theorem C94_curve_stays : forall h new, curve_ready h -> curve_ready (h ++ new).
Proof. exact curve_ready_grow. Qed.
Print Assumptions C94_curve_stays.

Theorem C94_CheckWIF : forall E w s,
  answers E "CheckWIF" [VStr w] s (CheckWIF w) truth.
Proof. exact answers_CheckWIF. Qed.
Print Assumptions C94_CheckWIF.

Theorem C94_PrivateFromHex : forall E x v net s, is_net (heap s) v net ->
  answers E "PrivateFromHex" [VStr x; v] s (PrivateFromHex x net) (new_priv s).
Proof. exact answers_PrivateFromHex. Qed.
Print Assumptions C94_PrivateFromHex.

Theorem C94_PrivateFromWIF : forall E w v net s, is_net (heap s) v net ->
  answers E "PrivateFromWIF" [VStr w; v] s (PrivateFromWIF w net) (new_priv s).
Proof. exact answers_PrivateFromWIF. Qed.
Print Assumptions C94_PrivateFromWIF.

(** The random source is left where the model leaves it. *)
Theorem C94_GeneratePrivateKey : forall E v net s, is_net (heap s) v net ->
  answers_reading E "GeneratePrivateKey" [v] s (GeneratePrivateKey net (source s)) snd (new_random_priv s).
Proof. exact answers_Generate. Qed.
Print Assumptions C94_GeneratePrivateKey.

Theorem C94_AddPrivateKeys : forall E v1 p1 v2 p2 s, curve_ready (heap s) ->
  is_priv_ptr (heap s) v1 p1 -> is_priv_ptr (heap s) v2 p2 ->
  answers E "AddPrivateKeys" [v1; v2] s (AddPrivateKeys_ptr p1 p2) (new_priv s).
Proof. exact answers_AddPrivateKeys. Qed.
Print Assumptions C94_AddPrivateKeys.

Theorem C94_MultiplyPrivateKeys : forall E v1 p1 v2 p2 s, curve_ready (heap s) ->
  is_priv_ptr (heap s) v1 p1 -> is_priv_ptr (heap s) v2 p2 ->
  answers E "MultiplyPrivateKeys" [v1; v2] s (MultiplyPrivateKeys_ptr p1 p2) (new_priv s).
Proof. exact answers_MultiplyPrivateKeys. Qed.
Print Assumptions C94_MultiplyPrivateKeys.

Theorem C94_GetPublicKey : forall E v k s, curve_ready (heap s) -> is_priv_ptr (heap s) v k ->
  answers E "PrivateKey.GetPublicKey" [v] s (GetPublicKey_ptr (E secp256k1_params) k) (new_pub_ok s).
Proof. exact answers_GetPublicKey. Qed.
Print Assumptions C94_GetPublicKey.

Theorem C94_PublicFromHex : forall E x v net s, curve_ready (heap s) -> is_net (heap s) v net ->
  answers E "PublicFromHex" [VStr x; v] s (PublicFromHex (E secp256k1_params) x net) (new_pub s).
Proof. exact answers_PublicFromHex. Qed.
Print Assumptions C94_PublicFromHex.

Theorem C94_AddPublicKeys : forall E v1 p1 v2 p2 c s, curve_ready (heap s) ->
  is_pub_ptr (heap s) v1 p1 -> is_pub_ptr (heap s) v2 p2 ->
  answers E "AddPublicKeys" [v1; v2; VBool c] s (AddPublicKeys_ptr (E secp256k1_params) p1 p2 c) (new_pub s).
Proof. exact answers_AddPublicKeys. Qed.
Print Assumptions C94_AddPublicKeys.

Theorem C94_Format : forall E v p c s, is_pub_ptr (heap s) v p ->
  answers E "PublicKey.Format" [v; VBool c] s (Format_ptr p c) text.
Proof. exact answers_Format. Qed.
Print Assumptions C94_Format.

Theorem C94_Address : forall E v p c s, is_pub_ptr (heap s) v p ->
  answers E "PublicKey.Address" [v; VBool c] s (Address_ptr p c) text_or_err.
Proof. exact answers_Address. Qed.
Print Assumptions C94_Address.

Theorem C94_NewMnemonic : forall E words v wl s, is_words v wl ->
  answers_reading E "NewMnemonic" [VInt words; v] s (NewMnemonic words wl (source s))
    (fun _ => left_by_mnemonic words wl (source s)) text_or_err.
Proof. exact answers_Mnemonic. Qed.
Print Assumptions C94_NewMnemonic.

(** This one writes to the log. *)
Theorem C94_NewSeedFromMnemonic : forall E m p v wl s, is_words v wl ->
  answers_logging E "NewSeedFromMnemonic" [VStr m; VStr p; v] s
    (fst (NewSeedFromMnemonic m p wl)) (snd (NewSeedFromMnemonic m p wl)) bytes_or_err.
Proof. exact answers_Seed. Qed.
Print Assumptions C94_NewSeedFromMnemonic.

(** [example_state] of [SourceWitness.v] meets the hypotheses: it holds the
    curve, the network, the private key 1 and the public key G. *)
Example C94_example_curve : curve_ready (heap example_state).
Proof. exact example_curve. Qed.
Example C94_example_net : is_net (heap example_state) (VPtr 10) (Some MainNetwork).
Proof. exact example_net. Qed.
Example C94_example_priv : is_priv_ptr (heap example_state) (VPtr 13) (Some example_key).
Proof. exact example_priv. Qed.
Example C94_example_pub : is_pub_ptr (heap example_state) (VPtr 16) (Some example_pub).
Proof. exact example_is_pub. Qed.
(** Some runs of the source: an accepted WIF, an exported key, a key made from its
    hex, a call with nil. *)
Example C94_example_CheckWIF :
  match run (fun _ => ref_lib) O 10 "CheckWIF" [VStr (WIF example_key)] example_state with
  | Done vs _ => vs = [VBool true]
  | _ => False
  end.
Proof. vm_compute. reflexivity. Qed.
Example C94_example_Format :
  run (fun _ => ref_lib) O 30 "PublicKey.Format" [VPtr 16; VBool true] example_state
  = Done [VStr (str "0279be667ef9dcbbac55a06295ce870b07029bfcdb2dce28d959f2815b16f81798")] example_state.
Proof. vm_compute. reflexivity. Qed.
Example C94_example_made :
  match run (fun _ => ref_lib) O 80 "PrivateFromHex" [VStr (Hex example_key); VPtr 10] example_state with
  | Done [VPtr a; VNil] s => match nth_error (heap s) a with
                             | Some (VStruct _ [_; _; (_, w); _]) => w = VStr (Model.WIF example_key)
                             | _ => False
                             end
  | _ => False
  end.
Proof. vm_compute. reflexivity. Qed.
Example C94_example_nil :
  run (fun _ => ref_lib) O 10 "AddPrivateKeys" [VPtr 13; VNil] example_state = Crash PNil example_state.
Proof. vm_compute. reflexivity. Qed.
