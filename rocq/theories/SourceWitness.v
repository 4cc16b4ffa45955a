(** * A concrete state for the theorems about the source *)

From Coq Require Import String.
From Verif Require Import GoBase GoNum Model GoSyntax GoSource GoSem SpecSource SourceBase SourceAll EcRef.
Local Open Scope Z_scope.

Definition example_key : private_key :=
  PrivateKey (Some 1) (str "0000000000000000000000000000000000000000000000000000000000000001")
    (str "5HpHagT65TZzG1PH3CSu63k8DbpvD8s5ip4nEB3kEsreAnchuDf") (Some MainNetwork).
Definition example_pub : public_key := PublicKey (Some secp_Gx) (Some secp_Gy) (Some MainNetwork).

(** After init: the number 1 and a private key for it, the generator and a public key. *)
Definition example_state : state :=
  State (init_heap (fun _ => ref_lib) ++
         [VBig 1;
          VStruct "PrivateKey" [("Key", VPtr 12); ("Hex", VStr (Hex example_key)); ("WIF", VStr (WIF example_key)); ("Network", VPtr 10)];
          VBig secp_Gx; VBig secp_Gy;
          VStruct "PublicKey" [("X", VPtr 14); ("Y", VPtr 15); ("Network", VPtr 10)]]%string)
        (List.repeat x07 64) [].

Lemma example_curve : curve_ready (heap example_state).
Proof.
  apply curve_ready_grow.
  exists (VPtr 3), (VPtr 4), (VPtr 7), (VPtr 5), (VPtr 6), (VPtr 8), (VPtr 9).
  split; [exists 0%nat; split; vm_compute; reflexivity|].
  repeat split; eexists; (split; [reflexivity|]); vm_compute; reflexivity.
Qed.

Lemma example_net : is_net (heap example_state) (VPtr 10) (Some MainNetwork).
Proof. exists 10%nat. split; [reflexivity|]. vm_compute. reflexivity. Qed.

Lemma example_priv : is_priv_ptr (heap example_state) (VPtr 13) (Some example_key).
Proof.
  exists 13%nat, (VPtr 12), (VPtr 10). split; [reflexivity|]. split; [vm_compute; reflexivity|].
  split; [exists 12%nat; split; [reflexivity|vm_compute; reflexivity]|exact example_net].
Qed.

Lemma example_is_pub : is_pub_ptr (heap example_state) (VPtr 16) (Some example_pub).
Proof.
  exists 16%nat, (VPtr 14), (VPtr 15), (VPtr 10). split; [reflexivity|]. split; [vm_compute; reflexivity|].
  split; [exists 14%nat; split; [reflexivity|vm_compute; reflexivity]|].
  split; [exists 15%nat; split; [reflexivity|vm_compute; reflexivity]|exact example_net].
Qed.
