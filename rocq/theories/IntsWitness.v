(** * The examples of C97-C100 on a machine with 32-bit ints *)

From Coq Require Import String.
From Verif Require Import GoBase GoRand Model GoSem GoTree SpecSource SourceWitness SpecSession SessionWitness SpecRun.
From Verif Require Import SpecConc SpecCrew ConcWitness SpecMachine MachineWitness SpecInts SpecRunInts.
Local Open Scope Z_scope.

Lemma example_jobs_short : Forall (fun j => api_call (heap example_state) (calls j) (with_args j) /\ short_call 32 (calls j) (with_args j)) example_jobs.
Proof.
  apply Forall_and; [exact example_jobs_api|]. repeat constructor.
Qed.

Lemma example_calls_short : Forall (fun j => api_call (heap example_state) (fst j) (snd j) /\ short_call 32 (fst j) (snd j)) example_calls.
Proof.
  apply Forall_and; [exact example_calls_api|]. repeat constructor.
Qed.

Lemma example_crew_short : Forall (fun m => Forall (few_bytes 32) (knows m) /\ Forall (short_keys 32) (plan m)) example_crew.
Proof.
  repeat constructor.
Qed.

Lemma example_workers_short :
  Forall (fun w => Forall (few_bytes 32) (in_mind w) /\ Forall (short_keys 32) (to_do w)) example_workers.
Proof. apply Forall_map. exact example_crew_short. Qed.

Lemma long_wif w : len w = 2 ^ 30 -> ~ short_call 32 "CheckWIF" [VStr w] /\ short_call 64 "CheckWIF" [VStr w].
Proof.
  intros H. cbn [short_call]. rewrite H. split.
  - intros [A _]. exact (Z.lt_irrefl _ (A (or_introl eq_refl))).
  - split; [intros _; vm_compute; reflexivity|]. intros [=].
Qed.
