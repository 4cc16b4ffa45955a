(** * Programs of calls on a machine with 32-bit or 64-bit ints (C105)

    Theorems only; each is closed by an existing lemma. As C95, but the ints of
    the Go source are those of a machine ([SpecInts.v]). The only condition on
    the program is that no private key is typed in with an absurd length. *)

From Coq Require Import String.
From Verif Require Import GoBase GoNum Model Spec CurveSpec EcdsaContract SpecSession GoSyntax GoSource GoSem SpecSource SpecRun SpecInts SpecRunInts.
From Verif Require Import SourceAll SourceWitness Session SessionWitness FastLib RunFacts IntsFacts RunInts.
Local Open Scope Z_scope.

(** Every program, run on a machine with ints of at least 32 bits, ends as the
    meanings of its requests say. *)
Theorem C105_every_run : forall E bits L rs s,
  ints_of bits L -> 32 <= bits ->
  ecdsa_contract (E secp256k1_params) -> curve_ready (heap s) -> Forall sensible rs -> Forall (short_keys bits) rs ->
  (forall ms rest, meant_all [] rs (source s) ms rest ->
     exists k s', runs_on E L [] s rs k s' /\ Forall2 (carries (heap s')) k ms /\ source s' = rest /\ logged s' = logged s) /\
  ((forall ms rest, ~ meant_all [] rs (source s) ms rest) -> dies_on E L [] s rs PRand).
Proof. exact (fun E bits L rs s HM Hb => run_meant_on E bits L HM Hb rs s). Qed.
Print Assumptions C105_every_run.

(** The source leaves no choice, whatever its ints. *)
Theorem C105_one_end : forall E L k s rs k1 s1, runs_on E L k s rs k1 s1 ->
  (forall k2 s2, runs_on E L k s rs k2 s2 -> k1 = k2 /\ s1 = s2) /\ (forall p, ~ dies_on E L k s rs p).
Proof. exact (fun E L k s rs k1 s1 H => conj (runs_fun E L k s rs k1 s1 H) (runs_dies E L k s rs k1 s1 H)). Qed.
Print Assumptions C105_one_end.

(** So a program tells the same story on any two machines: the values it holds
    at the end mean the same, and as many random bytes are left. *)
Theorem C105_same_story : forall E bits1 L1 bits2 L2 rs s,
  ints_of bits1 L1 -> 32 <= bits1 -> ints_of bits2 L2 -> 32 <= bits2 ->
  ecdsa_contract (E secp256k1_params) -> curve_ready (heap s) -> Forall sensible rs ->
  Forall (short_keys bits1) rs -> Forall (short_keys bits2) rs ->
  (forall k1 s1, runs_on E L1 [] s rs k1 s1 ->
     exists ms k2 s2, runs_on E L2 [] s rs k2 s2 /\ Forall2 (carries (heap s1)) k1 ms /\ Forall2 (carries (heap s2)) k2 ms /\
       source s2 = source s1 /\ logged s2 = logged s1) /\
  (forall p, dies_on E L1 [] s rs p -> dies_on E L2 [] s rs p).
Proof. exact same_story. Qed.
Print Assumptions C105_same_story.

(** The program of C93 types in no long key, on a machine with 32-bit ints. *)
Example C105_example_short : Forall (short_keys 32) program.
Proof. exact program_short. Qed.
Example C105_example_ints : ints_of 32 (with_ints 32).
Proof. exact (with_ints_of 32 ltac:(lia)). Qed.
Example C105_example_run : exists k s',
  runs_on (fun _ => fast_lib) (with_ints 32) [] (State (heap example_state) random_bytes []) program k s' /\
  Forall2 (carries (heap s')) k meanings /\ source s' = [x07].
Proof.
  destruct (proj1 (run_meant_on (fun _ => fast_lib) 32 (with_ints 32) (with_ints_of 32 ltac:(lia)) ltac:(lia) program
                     (State (heap example_state) random_bytes []) fast_lib_meets example_curve program_sensible program_short)
              meanings [x07] program_meanings)
    as (k & s' & H1 & H2 & H3 & _).
  exists k, s'. auto.
Qed.
(** A text of 2^28 characters is too long for 32 bits and not for 64. *)
Example C105_example_long : forall t n, len t = 2 ^ 28 -> ~ short_keys 32 (EnterHex t n) /\ short_keys 64 (EnterHex t n).
Proof. intros t n H. cbn [short_keys]. rewrite H. split; [apply Z.lt_irrefl|vm_compute; reflexivity]. Qed.
