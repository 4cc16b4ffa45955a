(** * A concrete history for the theorems of C107 *)

From Coq Require Import String.
From Verif Require Import GoBase GoNum Model EcRef GoSyntax GoSource GoSem SpecSource SpecShare SpecConc SpecHistory.
From Verif Require Import SourceBase SourceAll SourceWitness ShareFacts.
Local Open Scope Z_scope.

(** the heap after the start of the program *)
Definition init_cells : list value := Eval vm_compute in init_heap (fun _ => ref_lib).

(** what the program holds: its five objects, and the exported variables *)
Definition example_held : list value := [VPtr 16; VPtr 15; VPtr 14; VPtr 13; VPtr 12; VPtr 1; VPtr 2].

(** the objects a program holds itself *)
Ltac held := match goal with |- reach _ _ ?i => apply (reach_held _ _ (VPtr i)); [cbn [In example_held]; auto 10; fail|left; reflexivity] end.
(** the network behind the exported variable *)
Ltac main_net := eapply (reach_step _ _ 1%nat (VPtr 10)); [held|vm_compute; reflexivity|left; reflexivity].
Ltac built := intros i Hi; cbn in Hi; decompose [or] Hi; subst; try contradiction; first [held|main_net].

Section Any.
Context (E : curve_params -> ecdsa_lib).

Lemma init_history rd : history E (State init_cells rd []) [VPtr 1; VPtr 2].
Proof.
  apply (begins E rd []).
  - exists 40%nat. intros n Hn. replace n with (40 + (n - 40))%nat by lia. generalize (n - 40)%nat. intros m. vm_compute. reflexivity.
  - vm_compute. reflexivity.
  - vm_compute. reflexivity.
Qed.

Ltac tidy H := cbn [heap source logged length app init_cells] in H.
Lemma example_is : example_state = State (init_cells ++
  [VBig 1;
   VStruct "PrivateKey" [("Key", VPtr 12); ("Hex", VStr (Hex example_key)); ("WIF", VStr (WIF example_key)); ("Network", VPtr 10)];
   VBig secp_Gx; VBig secp_Gy;
   VStruct "PublicKey" [("X", VPtr 14); ("Y", VPtr 15); ("Network", VPtr 10)]]%string) (List.repeat x07 64) [].
Proof. vm_compute. reflexivity. Qed.
Lemma example_history : history E example_state example_held.
Proof.
  rewrite example_is.
  pose proof (init_history (List.repeat x07 64)) as H.
  apply makes with (v := VBig 1) in H; [|built]. tidy H.
  apply makes with (v := VStruct "PrivateKey" [("Key", VPtr 12); ("Hex", VStr (Hex example_key)); ("WIF", VStr (WIF example_key)); ("Network", VPtr 10)]%string) in H; [|built]. tidy H.
  apply makes with (v := VBig secp_Gx) in H; [|built]. tidy H.
  apply makes with (v := VBig secp_Gy) in H; [|built]. tidy H.
  apply makes with (v := VStruct "PublicKey" [("X", VPtr 14); ("Y", VPtr 15); ("Network", VPtr 10)]%string) in H; [|built]. tidy H.
  exact H.
Qed.

(** The program then sets the number of its private key to 0, and the exported
    variable MainNetwork to nil. *)
Definition example_wrecked : state :=
  State (hset (hset (heap example_state) 12 (VBig 0)) 1 VNil) (source example_state) (logged example_state).
Lemma example_wrecked_history : history E example_wrecked example_held.
Proof.
  pose proof example_history as H. unfold example_wrecked. rewrite example_is in *. tidy H.
  apply overwrites with (a := 12%nat) (v := VBig 0) in H; [|held|built]. tidy H.
  apply overwrites with (a := 1%nat) (v := VNil) in H; [|held|built].
  exact H.
Qed.
Lemma example_wrecked_call : api_call (heap example_wrecked) "PrivateKey.GetPublicKey" [VPtr 13].
Proof.
  apply (call_GetPublicKey _ _ (Some (PrivateKey (Some 0) (Hex example_key) (WIF example_key) (Some MainNetwork)))).
  exists 13%nat, (VPtr 12), (VPtr 10). split; [reflexivity|]. split; [vm_compute; reflexivity|].
  split; [exists 12%nat; split; [reflexivity|vm_compute; reflexivity]|]. exists 10%nat. split; [reflexivity|]. vm_compute. reflexivity.
Qed.
Lemma example_field : field_is (heap example_state) (VPtr 13) "Network" (VPtr 10).
Proof. exists 13%nat. do 2 eexists. split; [reflexivity|]. split; [vm_compute; reflexivity|]. cbn [In]. auto 10. Qed.
Lemma example_pub_field : field_is (heap example_state) (VPtr 16) "Network" (VPtr 10).
Proof. exists 16%nat. do 2 eexists. split; [reflexivity|]. split; [vm_compute; reflexivity|]. cbn [In]. auto 10. Qed.
End Any.

Lemma example_derived :
  match run (fun _ => ref_lib) O 100 "PrivateKey.GetPublicKey" [VPtr 13] example_state with
  | Done [VPtr a; VBool true] s =>
      (length (heap example_state) <= a)%nat /\
      match nth_error (heap s) a with
      | Some (VStruct _ [(_, VPtr x); (_, VPtr y); (_, net)]) =>
          (length (heap example_state) <= x)%nat /\ (length (heap example_state) <= y)%nat /\
          nth_error (heap s) x = Some (VBig secp_Gx) /\ nth_error (heap s) y = Some (VBig secp_Gy) /\ net = VPtr 10
      | _ => False
      end
  | _ => False
  end.
Proof. vm_compute. repeat split; repeat constructor. Qed.

(** a private and a public key made after [example_state] *)
Definition later_cells : list value := Eval vm_compute in heap example_state ++
  [VBig 1; VStruct "PrivateKey" [("Key", VPtr 17); ("Hex", VStr (Hex example_key)); ("WIF", VStr (WIF example_key)); ("Network", VPtr 10)];
   VStruct "PublicKey" [("X", VPtr 20); ("Y", VPtr 21); ("Network", VPtr 10)]; VBig secp_Gx; VBig secp_Gy]%string.
Lemma later_from : (length (heap example_state) <= 17)%nat.
Proof. vm_compute. repeat constructor. Qed.
Lemma later_net : is_net later_cells (VPtr 10) (Some MainNetwork).
Proof. exists 10%nat. split; [reflexivity|]. vm_compute. reflexivity. Qed.
Lemma later_priv : made_priv (heap example_state) (VPtr 10) later_cells (VPtr 18) example_key.
Proof.
  pose proof later_from as L.
  exists 18%nat, (VPtr 17). split; [reflexivity|]. split; [lia|]. split; [vm_compute; reflexivity|].
  split; [exists 17%nat; split; [reflexivity|vm_compute; reflexivity]|].
  split; [right; exists 17%nat; split; [reflexivity|exact L]|exact later_net].
Qed.
Lemma later_pub : made_pub (heap example_state) (VPtr 10) later_cells (VPtr 19) example_pub.
Proof.
  pose proof later_from as L.
  exists 19%nat, (VPtr 20), (VPtr 21). split; [reflexivity|]. split; [lia|]. split; [vm_compute; reflexivity|].
  split; [exists 20%nat; split; [reflexivity|vm_compute; reflexivity]|].
  split; [right; exists 20%nat; split; [reflexivity|lia]|].
  split; [exists 21%nat; split; [reflexivity|vm_compute; reflexivity]|].
  split; [right; exists 21%nat; split; [reflexivity|lia]|].
  split; [discriminate|exact later_net].
Qed.
Lemma example_curve_var : var_is (heap example_wrecked) "secp256k1"
  (VStruct "ecdsa.Curve" [("A", VPtr 3); ("B", VPtr 4); ("P", VPtr 7);
     ("G", VStruct "ecdsa.Point" [("X", VPtr 5); ("Y", VPtr 6)]); ("N", VPtr 8); ("H", VPtr 9)]%string).
Proof. exists 0%nat. split; vm_compute; reflexivity. Qed.
