(** * Goroutines that share one memory, one reader and one screen (C99, C100)

    Theorems only; each is closed by an existing lemma. [GoSource.v] is the Go
    source as syntax trees, [GoTree.v] runs it one step at a time, and
    [SpecMachine.v] is the machine: an allocator for all goroutines, a random
    reader for all goroutines, a screen for all goroutines. The ecdsa dependency
    [E] is any library at all in C99. *)

From Coq Require Import String.
From Verif Require Import GoBase GoRand Model EcdsaContract EcRef FastLib GoSyntax GoSource GoSem GoTree SpecSource SourceWitness.
From Verif Require Import SpecSession SessionWitness SpecRun SpecConc SpecCrew ConcWitness.
From Verif Require Import GoRename GoRenameRun SpecMachine MachineFacts MachineEnds MachineCrew MachineWitness.

(** The source does not look at addresses: run on arguments that differ in
    addresses only, it makes the same steps up to those addresses, whatever
    addresses the allocator gives it on the way. *)
Theorem C99_blind_to_addresses : forall E wrap n r f vs ws, based r -> lrel r vs ws ->
  trel lrel r (t_run_on E wrap n f vs) (t_run_on E wrap n f ws).
Proof. exact run_rel. Qed.
Print Assumptions C99_blind_to_addresses.

(** Any number of goroutines, each making any call of the API, on one machine,
    under any schedule and any way of handing out the random bytes: at every
    moment the objects of the start are as they were, there is no data race, and
    not all goroutines are waiting. A goroutine reads only objects of the start or
    its own and writes only its own. One that has ended has ended as it would have
    alone with the random bytes it got: with the same panic, or with the same
    results and objects up to their addresses; it has logged the same lines. *)
Theorem C99_one_machine : forall E sh rd jobs,
  curve_ready sh -> whole_heap sh -> Forall (fun j => api_call sh (fst j) (snd j)) jobs ->
  exists N, forall n m, (N <= n)%nat ->
    comes_to (machine_start sh rd (map (fun j => t_run E n (fst j) (snd j)) jobs)) m ->
    firstn (length sh) (memory m) = sh /\ ~ race m /\ (Forall ended (routines m) \/ exists m', tick m m') /\
    length (routines m) = length jobs /\
    forall i f args ro, nth_error jobs i = Some (f, args) -> nth_error (routines m) i = Some ro ->
      keeps_apart m i (todo ro) /\ todo ro <> TStuck /\ todo ro <> TFuel /\
      (forall vs, todo ro = TRet vs -> exists ws h g,
         ends E f args (State sh (got ro) []) (Done ws (State h [] (lines_of i (screen m)))) /\
         copied (length sh) g h (memory m) /\ vs = map (rename g) ws) /\
      (forall p, todo ro = TCrash p -> exists h,
         ends E f args (State sh (got ro) []) (Crash p (State h [] (lines_of i (screen m))))).
Proof. exact one_machine. Qed.
Print Assumptions C99_one_machine.

(** No schedule goes on for ever. *)
Theorem C99_every_run_ends : forall A (f : nat -> machine A), ~ forall i, tick (f i) (f (S i)).
Proof. exact @no_endless_run. Qed.
Print Assumptions C99_every_run_ends.

(** Four goroutines on the objects of [example_state]. *)
Example C99_example_curve : curve_ready (heap example_state).
Proof. exact example_curve. Qed.
Example C99_example_whole : whole_heap (heap example_state).
Proof. exact example_whole. Qed.
Example C99_example_calls : Forall (fun j => api_call (heap example_state) (fst j) (snd j)) example_calls.
Proof. exact example_calls_api. Qed.
Example C99_example_reached : comes_to example_machine (mplay example_machine in_turn4).
Proof. exact (mplay_comes in_turn4 _). Qed.
Example C99_example_results :
  mresults (mplay example_machine in_turn4) =
  [ (Some [VStr (str "0279be667ef9dcbbac55a06295ce870b07029bfcdb2dce28d959f2815b16f81798")], None);
    (Some [VStr (str "0479be667ef9dcbbac55a06295ce870b07029bfcdb2dce28d959f2815b16f81798483ada7726a3c4655da4fbfc0e1108a8fd17b448a68554199c47d08ffb10d4b8")], None);
    (None, Some PNil); (None, Some PRand) ].
Proof. vm_compute. reflexivity. Qed.
(** The machine does show races, and writes of one goroutine to what another reads. *)
Example C99_example_race :
  race (machine_start [VBig 1] [] [TWrite 0 (VBig 2) (TRet tt); TRead 0 (fun _ => TRet tt)]).
Proof. exists 0%nat, 1%nat. do 2 eexists. exists 0%nat, true, false. repeat split. discriminate. Qed.
Example C99_example_change :
  memory (mplay (machine_start [VBig 1] [] [TWrite 0 (VBig 2) (TRet tt)]) [0%nat]) = [VBig 2].
Proof. reflexivity. Qed.
(** Addresses do depend on the schedule. *)
Example C99_example_addresses :
  let two := machine_start [] [] [TAlloc (VBig 1) (fun a => TRet a); TAlloc (VBig 2) (fun a => TRet a)] in
  map todo (routines (mplay two [0; 1]%nat)) = [TRet 0%nat; TRet 1%nat] /\
  map todo (routines (mplay two [1; 0]%nat)) = [TRet 1%nat; TRet 0%nat].
Proof. split; reflexivity. Qed.

(** Any number of goroutines, each running any program of calls, starting with
    keys they may share: as above, and one that has ended holds values that carry,
    in the common memory, the meanings the arithmetic gives to its own program
    with the random bytes it got; one that has panicked got too few. *)
Theorem C100_one_crew : forall E sh rd ws,
  ecdsa_contract (E secp256k1_params) -> curve_ready sh -> whole_heap sh -> Forall (fit sh) ws ->
  exists N, forall n m, (N <= n)%nat ->
    comes_to (machine_start sh rd (map (fun w => t_program E n (in_hand w) (to_do w)) ws)) m ->
    firstn (length sh) (memory m) = sh /\ ~ race m /\ (Forall ended (routines m) \/ exists m', tick m m') /\
    length (routines m) = length ws /\
    forall i w ro, nth_error ws i = Some w -> nth_error (routines m) i = Some ro ->
      keeps_apart m i (todo ro) /\ todo ro <> TStuck /\ todo ro <> TFuel /\
      (forall k, todo ro = TRet k -> exists l,
         meant_all (in_mind w) (to_do w) (got ro) l [] /\ Forall2 (carries (memory m)) k l /\ lines_of i (screen m) = []) /\
      (forall p, todo ro = TCrash p -> p = PRand /\ forall l rest, ~ meant_all (in_mind w) (to_do w) (got ro) l rest).
Proof. exact one_crew. Qed.
Print Assumptions C100_one_crew.

(** Two goroutines that hold the same private key. *)
Example C100_example_library : ecdsa_contract fast_lib.
Proof. exact fast_lib_meets. Qed.
Example C100_example_workers : Forall (fit (heap example_state)) example_workers.
Proof. exact example_workers_fit. Qed.
