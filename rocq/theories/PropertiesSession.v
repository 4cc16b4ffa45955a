(** * Every session computes what the arithmetic says (C93)

    Theorems only; each is closed by an existing lemma. Specifications: [Spec.v],
    [CurveSpec.v] and [SpecSession.v], whose second part gives the meaning of
    every answer in numbers modulo N without using the package. *)

From Verif Require Import GoBase GoNum Sha256 Base58 GoRand Model HexFacts Spec SpecFacts CurveSpec EcdsaContract EcRef EcFacts.
From Verif Require Import SpecSession Session PubCurve FastLib SessionWitness.
Local Open Scope Z_scope.

(** Any program, any random bytes: the answers are those the meanings call for,
    and the bytes left over are the same. The program is cut short only when the
    random source runs out of blocks in range. *)
Theorem C93_every_session : forall E rs rd, ecdsa_contract E -> Forall sensible rs ->
  (forall ms rest, meant_all [] rs rd ms rest ->
     exists answers, session E [] rs rd = Ret (answers, rest) /\ Forall2 stands_for ms answers) /\
  (forall answers rest, session E [] rs rd = Ret (answers, rest) ->
     exists ms, meant_all [] rs rd ms rest /\ Forall2 stands_for ms answers) /\
  (forall p, session E [] rs rd = Panic p -> p = PRand /\ forall ms rest, ~ meant_all [] rs rd ms rest).
Proof. exact (fun E rs rd HE => session_exact E HE rs rd). Qed.
Print Assumptions C93_every_session.

(** The requests and the random bytes leave no choice of meanings. *)
Theorem C93_meanings_determined : forall rs rd ms rest ms' rest',
  meant_all [] rs rd ms rest -> meant_all [] rs rd ms' rest' -> ms = ms' /\ rest = rest'.
Proof. exact (fun rs rd ms rest ms' rest' H => meant_all_fun ref_lib ref_lib_meets [] rs rd ms rest H ms' rest'). Qed.
Print Assumptions C93_meanings_determined.

(** A session with every kind of request: [program], [random_bytes] and
    [meanings] are listed in [SessionWitness.v]. *)
Example C93_example_sensible : Forall sensible program.
Proof. exact program_sensible. Qed.
Example C93_example : meant_all [] program random_bytes meanings [x07].
Proof. exact program_meanings. Qed.
Example C93_example_library : ecdsa_contract fast_lib.
Proof. exact fast_lib_meets. Qed.
(** It can be cut short: one block of the source, above N. *)
Example C93_example_cut_short : session fast_lib [] [Generate MainNetwork] (repeat xff 32) = Panic PRand.
Proof. vm_compute. reflexivity. Qed.
