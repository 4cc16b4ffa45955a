(** * Go statements

    The control flow of Go the package uses: sequences, [if], [for] with a
    post statement, [break], [return]. A statement works on a state of type [S]
    (the local variables and the log) and can return a value of type [R].
    Nothing here terminates by construction: a [for] is unfolded by the
    inductive relation [exec] only, which counts the iterations. *)

From Coq Require Import Lia.
From Verif Require Import GoBase.

Inductive cmd (S R : Type) :=
| Do (f : S -> outcome S)                    (* an assignment or call that may panic *)
| Seq (a b : cmd S R)
| If (c : S -> bool) (a b : cmd S R)
| For (c : S -> bool) (post : S -> S) (body : cmd S R)   (* for ; c; post { body } *)
| Break
| Return (f : S -> R).
Arguments Do {S R} f.
Arguments Seq {S R} a b.
Arguments If {S R} c a b.
Arguments For {S R} c post body.
Arguments Break {S R}.
Arguments Return {S R} f.

Definition Set_ {S R} (f : S -> S) : cmd S R := Do (fun s => Ret (f s)).
Definition Skip {S R} : cmd S R := Set_ (fun s => s).

(** How a statement ends, with the state it leaves. *)
Inductive ending (S R : Type) :=
| Next (s : S)
| Broken (s : S)
| Returned (s : S) (r : R)
| Crashed (s : S) (p : panic).
Arguments Next {S R} s.
Arguments Broken {S R} s.
Arguments Returned {S R} s r.
Arguments Crashed {S R} s p.

(** [exec c s e n]: from [s] the statement [c] ends as [e] after [n] iterations
    of loops. *)
Inductive exec {S R} : cmd S R -> S -> ending S R -> nat -> Prop :=
| exec_do f s s' : f s = Ret s' -> exec (Do f) s (Next s') 0
| exec_do_panic f s p : f s = Panic p -> exec (Do f) s (Crashed s p) 0
| exec_seq a b s s' e n m : exec a s (Next s') n -> exec b s' e m -> exec (Seq a b) s e (n + m)
| exec_seq_end a b s e n : exec a s e n -> (forall s', e <> Next s') -> exec (Seq a b) s e n
| exec_if_true c a b s e n : c s = true -> exec a s e n -> exec (If c a b) s e n
| exec_if_false c a b s e n : c s = false -> exec b s e n -> exec (If c a b) s e n
| exec_for_done c post body s : c s = false -> exec (For c post body) s (Next s) 0
| exec_for_more c post body s s' e n m : c s = true -> exec body s (Next s') n ->
    exec (For c post body) (post s') e m -> exec (For c post body) s e (1 + n + m)
| exec_for_break c post body s s' n : c s = true -> exec body s (Broken s') n ->
    exec (For c post body) s (Next s') (1 + n)
| exec_for_return c post body s s' r n : c s = true -> exec body s (Returned s' r) n ->
    exec (For c post body) s (Returned s' r) (1 + n)
| exec_for_crash c post body s s' p n : c s = true -> exec body s (Crashed s' p) n ->
    exec (For c post body) s (Crashed s' p) (1 + n)
| exec_break s : exec Break s (Broken s) 0
| exec_return f s : exec (Return f) s (Returned s (f s)) 0.

Lemma exec_set {S R} (f : S -> S) s : exec (Set_ f : cmd S R) s (Next (f s)) 0.
Proof. apply exec_do. reflexivity. Qed.
Lemma exec_skip {S R} (s : S) : exec (Skip : cmd S R) s (Next s) 0.
Proof. apply exec_set. Qed.

(** Every run of a statement from a state is the same. *)
Lemma exec_fun {S R} (c : cmd S R) s e n : exec c s e n -> forall e' n', exec c s e' n' -> e' = e /\ n' = n.
Proof.
  induction 1 as [f s s' H|f s p H|a b s s' e n m Ha IHa Hb IHb|a b s e n Ha IHa He|c a b s e n Hc Ha IHa|c a b s e n Hc Hb IHb
    |c post body s Hc|c post body s s' e n m Hc Hb IHb Hr IHr|c post body s s' n Hc Hb IHb
    |c post body s s' r n Hc Hb IHb|c post body s s' p n Hc Hb IHb|s|f s];
    intros e' n' H'; inversion H'; subst; try congruence;
    repeat match goal with
    | IH : forall e' n', exec ?x ?t e' n' -> _, K : exec ?x ?t _ _ |- _ =>
        let A := fresh in let B := fresh in destruct (IH _ _ K) as [A B]; clear K; try discriminate A; try (injection A; clear A; intros); subst
    end; try (split; congruence).
Qed.
