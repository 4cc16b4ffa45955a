(** * Concrete values used by the non-vacuity examples *)

From Verif Require Import GoBase GoNum Base58 GoRand Model.
Local Open Scope Z_scope.

Definition no_key : private_key := PrivateKey None [] [] None.

(** The key PrivateFromHex gives on [net]. *)
Definition key_on (net : network) (h : gostring) : private_key :=
  match PrivateFromHex h (Some net) with Ret (Ok k) => k | _ => no_key end.
Definition key_main := key_on MainNetwork.

Definition get {A} (d : A) (o : outcome (result A)) : A :=
  match o with Ret (Ok a) => a | _ => d end.

(** The key of private_key_test.go:127. *)
Definition hex1 : gostring := str "ef95df82b52ef5c2aac2acafa42bac95ec2ac0bb7044a1f6eb7408b06f1d2773".
Definition wif1 : gostring := str "5KdoUDYDYSYQbC4oyjTszeeEBhjydEsJpdM9v1ziTFAkEeR2oBb".

(** A random stream: a block that is too large, one that is too small, one that
    is accepted, and four more bytes. *)
Definition good_block : list byte := repeat x42 32.
Definition stream1 : list byte :=
  repeat xff 32 ++ (x00 :: repeat x11 31) ++ good_block ++ [x01; x02; x03; x04].
Definition good_value : Z := set_bytes good_block.

(** A different valid key whose WIF equals [wif1] up to letter case. *)
Definition hex2 : gostring := str "ef95df82b52ef7e03fc31d525a0a56be59f29055b745ae240cdcebbd72a165c2".
Definition wif2 : gostring := str "5KdoUDYDYSYqBC4oyJTSZEEEBhjYDeSjpdM9V1ZiTfakEer2oBb".

(** Witness of the identical-keys confusion, in the shape of C23. *)
Lemma different_keys_refused :
  exists h1 h2 k1 k2 n1 n2,
    PrivateFromHex h1 (Some MainNetwork) = Ret (Ok k1) /\ PrivateFromHex h2 (Some MainNetwork) = Ret (Ok k2) /\
    length h1 = 64%nat /\ length h2 = 64%nat /\
    Key k1 = Some n1 /\ Key k2 = Some n2 /\ 1 <= n1 < secp_N /\ 1 <= n2 < secp_N /\ n1 <> n2 /\
    AddPrivateKeys k1 k2 = Ret (Err EIdentical) /\ MultiplyPrivateKeys k1 k2 = Ret (Err EIdentical).
Proof.
  exists hex1, hex2, (key_main hex1), (key_main hex2).
  exists 0xef95df82b52ef5c2aac2acafa42bac95ec2ac0bb7044a1f6eb7408b06f1d2773.
  exists 0xef95df82b52ef7e03fc31d525a0a56be59f29055b745ae240cdcebbd72a165c2.
  split; [vm_compute; reflexivity|]. split; [vm_compute; reflexivity|].
  split; [reflexivity|]. split; [reflexivity|].
  split; [vm_compute; reflexivity|]. split; [vm_compute; reflexivity|].
  split; [unfold secp_N; lia|]. split; [unfold secp_N; lia|]. split; [discriminate|].
  split; vm_compute; reflexivity.
Qed.
