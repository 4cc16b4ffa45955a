(** * Every program run on the source text computes what the arithmetic says (C95)

    Theorems only; each is closed by an existing lemma. [SpecRun.v] says what it
    is to run a program of calls on the Go source; the requests and the meanings
    of their answers are those of [SpecSession.v]. *)

From Coq Require Import String.
From Verif Require Import GoBase GoNum Model Spec CurveSpec EcdsaContract SpecSession GoSyntax GoSource GoSem SpecSource SpecRun.
From Verif Require Import SourceAll SourceWitness Session SessionWitness FastLib RunFacts.
Local Open Scope Z_scope.

(** Any program, any random bytes, any heap an initialised package may have: if
    the requests have meanings, the run ends with values that carry them, read on
    the last heap, and the bytes left over are the same; if they have none, the
    run ends with the panic of a random source that ran out. *)
Theorem C95_every_run : forall E rs s,
  ecdsa_contract (E secp256k1_params) -> curve_ready (heap s) -> Forall sensible rs ->
  (forall ms rest, meant_all [] rs (source s) ms rest ->
     exists k s', runs E [] s rs k s' /\ Forall2 (carries (heap s')) k ms /\ source s' = rest /\ logged s' = logged s) /\
  ((forall ms rest, ~ meant_all [] rs (source s) ms rest) -> dies E [] s rs PRand).
Proof. exact run_meant. Qed.
Print Assumptions C95_every_run.

(** The source leaves no choice. *)
Theorem C95_one_end : forall E k s rs k1 s1, runs E k s rs k1 s1 ->
  (forall k2 s2, runs E k s rs k2 s2 -> k1 = k2 /\ s1 = s2) /\ (forall p, ~ dies E k s rs p).
Proof. exact (fun E k s rs k1 s1 H => conj (runs_fun E _ k s rs k1 s1 H) (runs_dies E _ k s rs k1 s1 H)). Qed.
Print Assumptions C95_one_end.

(** The state [example_state] with the random bytes of the program of C93. *)
Example C95_example_state : curve_ready (heap example_state).
Proof. exact example_curve. Qed.
Example C95_example_program : Forall sensible program.
Proof. exact program_sensible. Qed.
Example C95_example_meanings : meant_all [] program random_bytes meanings [x07].
Proof. exact program_meanings. Qed.
Example C95_example_library : ecdsa_contract fast_lib.
Proof. exact fast_lib_meets. Qed.
(** So the program runs on the source. *)
Example C95_example_run : exists k s',
  runs (fun _ => fast_lib) [] (State (heap example_state) random_bytes []) program k s' /\
  Forall2 (carries (heap s')) k meanings /\ source s' = [x07].
Proof.
  destruct (proj1 (run_meant (fun _ => fast_lib) program (State (heap example_state) random_bytes [])
                     fast_lib_meets example_curve program_sensible) meanings [x07] program_meanings)
    as (k & s' & H1 & H2 & H3 & _).
  exists k, s'. auto.
Qed.
Example C95_example_cut_short :
  dies (fun _ => fast_lib) [] (State (heap example_state) (repeat xff 32) []) [Generate MainNetwork] PRand.
Proof.
  assert (session fast_lib [] [Generate MainNetwork] (repeat xff 32) = Panic PRand) as S by (vm_compute; reflexivity).
  pose proof (session_follows (fun _ => fast_lib) [Generate MainNetwork] [] [] (State (heap example_state) (repeat xff 32) [])
                example_curve (Forall2_nil _)) as F.
  cbn [source] in F. rewrite S in F. exact F.
Qed.
