(** * Programs that overwrite what they can reach (C107) *)

From Coq Require Import String.
From Verif Require Import GoBase Model GoSem SpecSource SpecConc.
Local Open Scope Z_scope.

(** the addresses that occur in a value *)
Fixpoint pointers (v : value) : list nat :=
  match v with
  | VPtr a => [a]
  | VStruct _ fs => (fix all (l : list (string * value)) : list nat :=
                       match l with [] => [] | p :: l' => pointers (snd p) ++ all l' end) fs
  | _ => []
  end.

(** The objects a program can get at from the values [hs] it holds, by following
    pointers. *)
Inductive reach (h : list value) (hs : list value) : nat -> Prop :=
| reach_held v a : In v hs -> In a (pointers v) -> reach h hs a
| reach_step b c a : reach h hs b -> nth_error h b = Some c -> In a (pointers c) -> reach h hs a.

(** a value the program can put together from what it can get at *)
Definition within (h : list value) (hs : list value) (v : value) : Prop :=
  forall a, In a (pointers v) -> reach h hs a.

Section History.
Context (E : curve_params -> ecdsa_lib).

(** [history s hs]: a program may have brought about the state [s] and hold the
    values [hs]. It starts with the two exported variables of the package. It may
    make objects; overwrite any object it can get at, in any way; get other random
    bytes; call the package with values it has; and recover from a panic of a call. *)
Inductive history : state -> list value -> Prop :=
| begins rd lg s a b : ends E "init" [] (State start_heap rd lg) (Done [] s) ->
    global "MainNetwork" = Some a -> global "TestNetwork" = Some b ->
    history s [VPtr a; VPtr b]
| makes s hs v : history s hs -> within (heap s) hs v ->
    history (State (heap s ++ [v]) (source s) (logged s)) (VPtr (length (heap s)) :: hs)
| overwrites s hs a v : history s hs -> reach (heap s) hs a -> within (heap s) hs v ->
    history (State (hset (heap s) a v) (source s) (logged s)) hs
| receives s hs rd : history s hs -> history (State (heap s) rd (logged s)) hs
| calls_package s hs f args vs s' : history s hs -> Forall (within (heap s) hs) args ->
    api_call (heap s) f args -> ends E f args s (Done vs s') -> history s' (vs ++ hs)
| recovers s hs f args p s' : history s hs -> Forall (within (heap s) hs) args ->
    api_call (heap s) f args -> ends E f args s (Crash p s') -> history s' hs.
End History.
