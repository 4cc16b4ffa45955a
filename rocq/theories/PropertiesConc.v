(** * Goroutines that use the package at the same time (C97, C98)

    Theorems only; each is closed by an existing lemma. [GoSource.v] is the Go
    source as syntax trees, [GoTree.v] runs it one step at a time, [SpecConc.v]
    is the scheduler and says what a call of the API is, [SpecCrew.v] runs whole
    programs of calls. The ecdsa dependency [E] is any library at all in C97. *)

From Coq Require Import String.
From Verif Require Import GoBase GoRand Model EcdsaContract EcRef FastLib GoSyntax GoSource GoSem GoTree GoTreeSim SpecSource SourceWitness.
From Verif Require Import SpecSession SessionWitness SpecRun SpecConc ConcFacts SpecCrew CrewFacts ConcWitness.

(** The steps, carried out one after the other, are the interpreter of C94. *)
Theorem C97_same_source : forall E wrap floor n f args s,
  handle floor (t_run_on E wrap n f args) s = run E (Limits floor wrap) n f args s.
Proof. exact h_run. Qed.
Print Assumptions C97_same_source.

(** A call of the API ends the same when every write to an object that existed
    before it is forbidden: it makes no such write, not even one that it undoes. *)
Theorem C97_writes_only_its_own : forall E s f args r, curve_ready (heap s) -> api_call (heap s) f args ->
  ends E f args s r -> ends_above E (length (heap s)) f args s r.
Proof. exact ends_apart. Qed.
Print Assumptions C97_writes_only_its_own.

(** Any number of goroutines, each making any call of the API on the same objects,
    under any schedule: at every moment the shared objects are as they were, no
    goroutine is about to write one, and a goroutine that has ended has ended as
    it would have alone, with the same results, the same objects of its own, the
    same lines logged and the same random bytes left. *)
Theorem C97_any_schedule : forall E sh jobs,
  curve_ready sh -> Forall (fun j => api_call sh (calls j) (with_args j)) jobs ->
  exists N, forall n w, (N <= n)%nat -> reaches (start E n sh jobs) w ->
    shared w = sh /\ length (threads w) = length jobs /\
    forall i j t, nth_error jobs i = Some j -> nth_error (threads w) i = Some t ->
      (forall a v k, code t = TWrite a v k -> (length sh <= a)%nat) /\ code t <> TStuck /\ code t <> TFuel /\
      (forall vs, code t = TRet vs ->
         ends E (calls j) (with_args j) (State sh (will_get j) []) (Done vs (State (sh ++ own t) (bytes t) (said t)))) /\
      (forall p, code t = TCrash p ->
         ends E (calls j) (with_args j) (State sh (will_get j) []) (Crash p (State (sh ++ own t) (bytes t) (said t)))).
Proof. exact any_schedule. Qed.
Print Assumptions C97_any_schedule.

(** No deadlock, and no schedule goes on for ever. *)
Theorem C97_no_deadlock : forall E sh jobs,
  curve_ready sh -> Forall (fun j => api_call sh (calls j) (with_args j)) jobs ->
  exists N, forall n w, (N <= n)%nat -> reaches (start E n sh jobs) w ->
    Forall finished (threads w) \/ exists w', step w w'.
Proof. exact no_deadlock. Qed.
Print Assumptions C97_no_deadlock.
Theorem C97_every_schedule_ends : forall A (f : nat -> world A), ~ forall i, step (f i) (f (S i)).
Proof. exact @no_endless_schedule. Qed.
Print Assumptions C97_every_schedule_ends.

(** Three goroutines on the objects of [example_state]: two export the same key,
    one passes nil. Taking turns, they end as they should. *)
Example C97_example_curve : curve_ready (heap example_state).
Proof. exact example_curve. Qed.
Example C97_example_jobs : Forall (fun j => api_call (heap example_state) (calls j) (with_args j)) example_jobs.
Proof. exact example_jobs_api. Qed.
Example C97_example_reached :
  let w := start (fun _ => ref_lib) 30 (heap example_state) example_jobs in reaches w (play w in_turn).
Proof. exact (play_reaches in_turn _). Qed.
Example C97_example_results :
  results (play (start (fun _ => ref_lib) 30 (heap example_state) example_jobs) in_turn) =
  [ (Some [VStr (str "0279be667ef9dcbbac55a06295ce870b07029bfcdb2dce28d959f2815b16f81798")], None);
    (Some [VStr (str "0479be667ef9dcbbac55a06295ce870b07029bfcdb2dce28d959f2815b16f81798483ada7726a3c4655da4fbfc0e1108a8fd17b448a68554199c47d08ffb10d4b8")], None);
    (None, Some PNil) ].
Proof. vm_compute. reflexivity. Qed.
(** The scheduler does show races: a goroutine that writes a shared object changes it for all. *)
Example C97_example_race :
  shared (play (World [VBig 1] [Thread (TWrite 0 (VBig 2) (TRet tt)) [] [] []]) [0%nat]) = [VBig 2].
Proof. reflexivity. Qed.

(** Any number of goroutines, each running any program of calls, starting with
    keys they may share, with any random bytes, under any schedule: at every
    moment the shared objects are as they were and no goroutine is about to write
    one; a goroutine that has ended holds values that carry the meanings the
    arithmetic gives to its own program, has the random bytes left that it should
    have, and has logged nothing; one that has panicked ran out of random bytes. *)
Theorem C98_any_crew : forall E sh ms,
  ecdsa_contract (E secp256k1_params) -> curve_ready sh -> Forall (ready sh) ms ->
  exists N, forall n w, (N <= n)%nat -> reaches (crew_start E n sh ms) w ->
    shared w = sh /\ length (threads w) = length ms /\
    forall i m t, nth_error ms i = Some m -> nth_error (threads w) i = Some t ->
      (forall a v k, code t = TWrite a v k -> (length sh <= a)%nat) /\ code t <> TStuck /\ code t <> TFuel /\
      (forall k, code t = TRet k -> exists l, meant_all (knows m) (plan m) (gets m) l (bytes t) /\
         Forall2 (carries (sh ++ own t)) k l /\ said t = []) /\
      (forall p, code t = TCrash p -> p = PRand /\ forall l rest, ~ meant_all (knows m) (plan m) (gets m) l rest).
Proof. exact crew_any_schedule. Qed.
Print Assumptions C98_any_crew.

Theorem C98_no_deadlock : forall E sh ms,
  ecdsa_contract (E secp256k1_params) -> curve_ready sh -> Forall (ready sh) ms ->
  exists N, forall n w, (N <= n)%nat -> reaches (crew_start E n sh ms) w ->
    Forall finished (threads w) \/ exists w', step w w'.
Proof. exact crew_no_deadlock. Qed.
Print Assumptions C98_no_deadlock.

(** Two goroutines that hold the same private key. *)
Example C98_example_library : ecdsa_contract fast_lib.
Proof. exact fast_lib_meets. Qed.
Example C98_example_crew : Forall (ready (heap example_state)) example_crew.
Proof. exact example_crew_ready. Qed.
