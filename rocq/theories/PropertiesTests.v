(** * The repository's tests that draw random numbers (C103)

    Theorems only; each is closed by an existing lemma. [ModelTests.v] is the two tests,
    for any number of rounds; [SpecTests.v] says which random sources let them run. *)

From Coq Require Import Lia.
From Verif Require Import GoBase GoNum GoRand Sha256 Model Spec SpecGo ModelTests SpecTests TestsFacts MnemWitness Witness.
Local Open Scope Z_scope.

(** The test of key generation passes on every source that has a usable block for every
    key, in all six assertions of all rounds. On other sources it crashes. *)
Theorem C103_generate_test_passes : forall n rd rest, draws (2 * n) rd rest ->
  TestGeneratePrivateKey n rd = Ret (repeat true (12 * n), rest).
Proof. exact generate_test_passes. Qed.
Print Assumptions C103_generate_test_passes.

Theorem C103_generate_test_crashes : forall n rd, (~ exists rest, draws (2 * n) rd rest) ->
  TestGeneratePrivateKey n rd = Panic PRand.
Proof. exact generate_test_crashes. Qed.
Print Assumptions C103_generate_test_crashes.

(** The test of NewMnemonic passes on every source that is long enough, unless the hash of
    one of the entropies drawn is so small that its bits do not suffice for the checksum;
    then it crashes. *)
Theorem C103_mnemonic_test : forall n rd, (120 * n <= length rd)%nat ->
  (Forall enough_hash (pieces (entropy_sizes n) rd) ->
   TestNewMnemonic n rd = Ret (repeat true (10 * n), skipn (120 * n) rd)) /\
  (~ Forall enough_hash (pieces (entropy_sizes n) rd) -> exists p, TestNewMnemonic n rd = Panic p).
Proof. exact mnemonic_test. Qed.
Print Assumptions C103_mnemonic_test.

(** On a source that is too short an assertion fails. *)
Theorem C103_mnemonic_test_short : forall n rd a rest, (length rd < 120 * n)%nat ->
  TestNewMnemonic n rd = Ret (a, rest) -> In false a.
Proof. exact mnemonic_test_short. Qed.
Print Assumptions C103_mnemonic_test_short.

(** Sources for any number of rounds: the same good block again and again. *)
Example C103_example_keys : forall n, draws (2 * n) (concat (repeat good_block (2 * n)) ++ []) [].
Proof. intros n. apply (draws_exist _ good_value); [reflexivity|vm_compute; reflexivity|vm_compute; split; discriminate]. Qed.
Example C103_example_no_key : ~ exists rest, draws (2 * 1) [x01] rest.
Proof.
  intros [rest H]. inversion H as [|? ? ? ? ? F _]; subst.
  assert (L : (32 <= length [x01])%nat); [|cbn in L; lia].
  remember [x01] as l eqn:E. clear - F. inversion F; subst; rewrite app_length; lia.
Qed.
(** One round of each length of phrase. *)
Example C103_example_mnemonic : (120 * 1 <= length (repeat x7f 120))%nat /\
  Forall enough_hash (pieces (entropy_sizes 1) (repeat x7f 120)).
Proof.
  split; [apply Nat.leb_le; reflexivity|]. cbn [entropy_sizes repeat app pieces].
  repeat (apply Forall_cons; [unfold enough_hash; apply Nat.leb_le; vm_compute; reflexivity|]). apply Forall_nil.
Qed.
