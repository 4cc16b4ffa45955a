(** * Goroutines with ints of a machine (C106)

    Theorems only; each is closed by an existing lemma. C97-C100 once more, with
    the ints of a machine ([SpecInts.v]) instead of ints without limits.
    [SpecRunInts.v] says how long texts and keys may be. *)

From Coq Require Import String.
From Verif Require Import GoBase GoRand Model EcdsaContract EcRef FastLib GoSyntax GoSource GoSem GoTree SpecSource SourceWitness.
From Verif Require Import SpecSession SessionWitness SpecRun SpecConc SpecCrew ConcWitness SpecMachine MachineWitness.
From Verif Require Import SpecInts SpecRunInts IntsFacts ConcInts IntsWitness.
Local Open Scope Z_scope.

(** As C97: any calls of the API at the same time, on shared objects. *)
Theorem C106_any_schedule : forall E bits L sh jobs,
  ints_of bits L -> 32 <= bits ->
  curve_ready sh -> Forall (fun j => api_call sh (calls j) (with_args j) /\ short_call bits (calls j) (with_args j)) jobs ->
  exists N, forall n w, (N <= n)%nat -> reaches (start_on E (as_int L) n sh jobs) w ->
    shared w = sh /\ length (threads w) = length jobs /\
    forall i j t, nth_error jobs i = Some j -> nth_error (threads w) i = Some t ->
      (forall a v k, code t = TWrite a v k -> (length sh <= a)%nat) /\ code t <> TStuck /\ code t <> TFuel /\
      (forall vs, code t = TRet vs ->
         ends_above E L (calls j) (with_args j) (State sh (will_get j) []) (Done vs (State (sh ++ own t) (bytes t) (said t)))) /\
      (forall p, code t = TCrash p ->
         ends_above E L (calls j) (with_args j) (State sh (will_get j) []) (Crash p (State (sh ++ own t) (bytes t) (said t)))).
Proof. exact (fun E bits L sh jobs HM Hb => ints_any_schedule E bits L HM Hb sh jobs). Qed.
Print Assumptions C106_any_schedule.

Theorem C106_no_deadlock : forall E bits L sh jobs,
  ints_of bits L -> 32 <= bits ->
  curve_ready sh -> Forall (fun j => api_call sh (calls j) (with_args j) /\ short_call bits (calls j) (with_args j)) jobs ->
  exists N, forall n w, (N <= n)%nat -> reaches (start_on E (as_int L) n sh jobs) w ->
    Forall finished (threads w) \/ exists w', step w w'.
Proof. exact (fun E bits L sh jobs HM Hb => ints_no_deadlock E bits L HM Hb sh jobs). Qed.
Print Assumptions C106_no_deadlock.

(** As C98: any programs at the same time, with shared keys. *)
Theorem C106_any_crew : forall E bits L sh ms,
  ints_of bits L -> 32 <= bits ->
  ecdsa_contract (E secp256k1_params) -> curve_ready sh -> Forall (ready sh) ms ->
  Forall (fun m => Forall (few_bytes bits) (knows m) /\ Forall (short_keys bits) (plan m)) ms ->
  exists N, forall n w, (N <= n)%nat -> reaches (crew_start_on E (as_int L) n sh ms) w ->
    shared w = sh /\ length (threads w) = length ms /\
    forall i m t, nth_error ms i = Some m -> nth_error (threads w) i = Some t ->
      (forall a v k, code t = TWrite a v k -> (length sh <= a)%nat) /\ code t <> TStuck /\ code t <> TFuel /\
      (forall k, code t = TRet k -> exists l, meant_all (knows m) (plan m) (gets m) l (bytes t) /\
         Forall2 (carries (sh ++ own t)) k l /\ said t = []) /\
      (forall p, code t = TCrash p -> p = PRand /\ forall l rest, ~ meant_all (knows m) (plan m) (gets m) l rest).
Proof. exact (fun E bits L sh ms HM Hb => ints_any_crew E bits L HM Hb sh ms). Qed.
Print Assumptions C106_any_crew.

Theorem C106_crew_no_deadlock : forall E bits L sh ms,
  ints_of bits L -> 32 <= bits ->
  ecdsa_contract (E secp256k1_params) -> curve_ready sh -> Forall (ready sh) ms ->
  Forall (fun m => Forall (few_bytes bits) (knows m) /\ Forall (short_keys bits) (plan m)) ms ->
  exists N, forall n w, (N <= n)%nat -> reaches (crew_start_on E (as_int L) n sh ms) w ->
    Forall finished (threads w) \/ exists w', step w w'.
Proof. exact (fun E bits L sh ms HM Hb => ints_crew_no_deadlock E bits L HM Hb sh ms). Qed.
Print Assumptions C106_crew_no_deadlock.

(** As C99: one memory, one allocator, one reader. *)
Theorem C106_one_machine : forall E bits L sh rd jobs,
  ints_of bits L -> 32 <= bits ->
  curve_ready sh -> whole_heap sh -> Forall (fun j => api_call sh (fst j) (snd j) /\ short_call bits (fst j) (snd j)) jobs ->
  exists N, forall n m, (N <= n)%nat ->
    comes_to (machine_start sh rd (map (fun j => t_run_on E (as_int L) n (fst j) (snd j)) jobs)) m ->
    firstn (length sh) (memory m) = sh /\ ~ race m /\ (Forall ended (routines m) \/ exists m', tick m m') /\
    length (routines m) = length jobs /\
    forall i f args ro, nth_error jobs i = Some (f, args) -> nth_error (routines m) i = Some ro ->
      keeps_apart m i (todo ro) /\ todo ro <> TStuck /\ todo ro <> TFuel /\
      (forall vs, todo ro = TRet vs -> exists ws h g,
         ends_above E L f args (State sh (got ro) []) (Done ws (State h [] (lines_of i (screen m)))) /\
         copied (length sh) g h (memory m) /\ vs = map (rename g) ws) /\
      (forall p, todo ro = TCrash p -> exists h,
         ends_above E L f args (State sh (got ro) []) (Crash p (State h [] (lines_of i (screen m))))).
Proof. exact (fun E bits L sh rd jobs HM Hb => ints_one_machine E bits L HM Hb sh rd jobs). Qed.
Print Assumptions C106_one_machine.

(** As C100: any programs on one machine. *)
Theorem C106_one_crew : forall E bits L sh rd ws,
  ints_of bits L -> 32 <= bits ->
  ecdsa_contract (E secp256k1_params) -> curve_ready sh -> whole_heap sh -> Forall (fit sh) ws ->
  Forall (fun w => Forall (few_bytes bits) (in_mind w) /\ Forall (short_keys bits) (to_do w)) ws ->
  exists N, forall n m, (N <= n)%nat ->
    comes_to (machine_start sh rd (map (fun w => t_program_on E (as_int L) n (in_hand w) (to_do w)) ws)) m ->
    firstn (length sh) (memory m) = sh /\ ~ race m /\ (Forall ended (routines m) \/ exists m', tick m m') /\
    length (routines m) = length ws /\
    forall i w ro, nth_error ws i = Some w -> nth_error (routines m) i = Some ro ->
      keeps_apart m i (todo ro) /\ todo ro <> TStuck /\ todo ro <> TFuel /\
      (forall k, todo ro = TRet k -> exists l,
         meant_all (in_mind w) (to_do w) (got ro) l [] /\ Forall2 (carries (memory m)) k l /\ lines_of i (screen m) = []) /\
      (forall p, todo ro = TCrash p -> p = PRand /\ forall l rest, ~ meant_all (in_mind w) (to_do w) (got ro) l rest).
Proof. exact (fun E bits L sh rd ws HM Hb => ints_one_crew E bits L HM Hb sh rd ws). Qed.
Print Assumptions C106_one_crew.

(** The examples of C97-C100 are short enough, and 32-bit ints that wrap around
    are such ints. *)
Example C106_example_ints : ints_of 32 (with_ints 32).
Proof. exact (with_ints_of 32 ltac:(lia)). Qed.
Example C106_example_jobs : Forall (fun j => api_call (heap example_state) (calls j) (with_args j) /\ short_call 32 (calls j) (with_args j)) example_jobs.
Proof. exact example_jobs_short. Qed.
Example C106_example_crew : Forall (ready (heap example_state)) example_crew /\
  Forall (fun m => Forall (few_bytes 32) (knows m) /\ Forall (short_keys 32) (plan m)) example_crew.
Proof. exact (conj example_crew_ready example_crew_short). Qed.
Example C106_example_calls : Forall (fun j => api_call (heap example_state) (fst j) (snd j) /\ short_call 32 (fst j) (snd j)) example_calls.
Proof. exact example_calls_short. Qed.
Example C106_example_workers : Forall (fit (heap example_state)) example_workers /\
  Forall (fun w => Forall (few_bytes 32) (in_mind w) /\ Forall (short_keys 32) (to_do w)) example_workers.
Proof. exact (conj example_workers_fit example_workers_short). Qed.
Example C106_example_results :
  results (play (start_on (fun _ => ref_lib) (wrap_int 32) 30 (heap example_state) example_jobs) in_turn) =
  [ (Some [VStr (str "0279be667ef9dcbbac55a06295ce870b07029bfcdb2dce28d959f2815b16f81798")], None);
    (Some [VStr (str "0479be667ef9dcbbac55a06295ce870b07029bfcdb2dce28d959f2815b16f81798483ada7726a3c4655da4fbfc0e1108a8fd17b448a68554199c47d08ffb10d4b8")], None);
    (None, Some PNil) ].
Proof. vm_compute. reflexivity. Qed.
(** A WIF of 2^30 characters is too long for a call on a machine with 32-bit ints. *)
Example C106_example_long : forall w, len w = 2 ^ 30 -> ~ short_call 32 "CheckWIF" [VStr w] /\ short_call 64 "CheckWIF" [VStr w].
Proof. exact long_wif. Qed.
