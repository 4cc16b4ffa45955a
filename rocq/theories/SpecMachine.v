(** * Goroutines on one machine (C99, C100)

    The goroutines of [SpecConc.v] and [SpecCrew.v] once more, on a machine with
    one memory, one allocator, one random reader and one screen. An object is an
    entry of the memory; a new one goes to the next free address, whichever
    goroutine asks. The memory notes who has made an object: nobody, if it was
    there at the start.

    rand.Int takes some of the bytes the reader still has, not necessarily the
    next ones (while it draws, other goroutines may draw too). It takes just what
    it needs, or too few and fails. A goroutine for which the reader has failed
    gets no more bytes. *)

From Coq Require Import String.
From Verif Require Import GoBase Model GoRand GoSem GoTree SpecSource SpecSession SpecRun SpecCrew.

(** [shuffle l m n]: [l] is part of [n], in order, and [m] is what remains *)
Inductive shuffle {A} : list A -> list A -> list A -> Prop :=
| shuffle_none : shuffle [] [] []
| shuffle_take a l m n : shuffle l m n -> shuffle (a :: l) m (a :: n)
| shuffle_leave a l m n : shuffle l m n -> shuffle l (a :: m) (a :: n).

(** A goroutine: what it has still to do, the random bytes it has got, and
    whether the reader has failed. *)
Record routine (A : Type) := Routine { todo : tree A; got : list byte; failed : bool }.
Record machine (A : Type) := Machine {
  memory : list value; makers : list (option nat);
  reader : list byte; screen : list (nat * gostring); routines : list (routine A) }.
Arguments Routine {A}. Arguments todo {A}. Arguments got {A}. Arguments failed {A}.
Arguments Machine {A}. Arguments memory {A}. Arguments makers {A}. Arguments reader {A}.
Arguments screen {A}. Arguments routines {A}.

(** goroutine number [i] makes a step *)
Inductive moves {A} (i : nat) : routine A -> list value -> list (option nat) -> list byte -> list (nat * gostring) ->
                                routine A -> list value -> list (option nat) -> list byte -> list (nat * gostring) -> Prop :=
| moves_read a k g d mem mk rd sc :
    moves i (Routine (TRead a k) g d) mem mk rd sc (Routine (k (nth_error mem a)) g d) mem mk rd sc
| moves_write a v k g d mem mk rd sc :
    moves i (Routine (TWrite a v k) g d) mem mk rd sc (Routine k g d) (hset mem a v) mk rd sc
| moves_alloc v k g d mem mk rd sc :
    moves i (Routine (TAlloc v k) g d) mem mk rd sc (Routine (k (length mem)) g d) (mem ++ [v]) (mk ++ [Some i]) rd sc
| moves_random max k g d mem mk rd sc used rest z :
    shuffle used rest rd -> (d = true -> used = []) -> rand_int max used = Some (z, []) ->
    moves i (Routine (TRandom max k) g d) mem mk rd sc (Routine (k (Some z)) (g ++ used) d) mem mk rest sc
| moves_no_random max k g d mem mk rd sc used rest :
    shuffle used rest rd -> (d = true -> used = []) -> rand_int max used = None ->
    moves i (Routine (TRandom max k) g d) mem mk rd sc (Routine (k None) (g ++ used) true) mem mk rest sc
| moves_log l k g d mem mk rd sc :
    moves i (Routine (TLog l k) g d) mem mk rd sc (Routine k g d) mem mk rd (sc ++ [(i, l)]).

Inductive tick {A} : machine A -> machine A -> Prop :=
| one_tick before ro after mem mk rd sc ro' mem' mk' rd' sc' :
    moves (length before) ro mem mk rd sc ro' mem' mk' rd' sc' ->
    tick (Machine mem mk rd sc (before ++ ro :: after)) (Machine mem' mk' rd' sc' (before ++ ro' :: after)).
Inductive comes_to {A} : machine A -> machine A -> Prop :=
| comes_none m : comes_to m m
| comes_more m m1 m2 : comes_to m m1 -> tick m1 m2 -> comes_to m m2.

Definition ended {A} (ro : routine A) : Prop := match todo ro with TRet _ | TCrash _ => True | _ => False end.

(** the objects [h] of the start, the bytes [rd] of the reader, what each goroutine does *)
Definition machine_start {A} (h : list value) (rd : list byte) (ts : list (tree A)) : machine A :=
  Machine h (map (fun _ => None) h) rd [] (map (fun t => Routine t [] false) ts).

(** No pointer dangles, and the package's variables exist. *)
Fixpoint points_below (n : nat) (v : value) : Prop :=
  match v with
  | VPtr a => (a < n)%nat
  | VStruct _ fs => (fix all (fs : list (string * value)) : Prop :=
                       match fs with [] => True | (_, v) :: fs' => points_below n v /\ all fs' end) fs
  | _ => True
  end.
Definition whole_heap (h : list value) : Prop :=
  Forall (points_below (length h)) h /\ forall x a, global x = Some a -> (a < length h)%nat.

(** what goroutine [i] has logged *)
Definition lines_of (i : nat) (sc : list (nat * gostring)) : list gostring :=
  map snd (filter (fun p => Nat.eqb (fst p) i) sc).

(** Goroutine [i] is about to use only what it may: it reads objects of the start
    or its own, and writes objects of its own. *)
Definition keeps_apart {A} (m : machine A) (i : nat) (t : tree A) : Prop :=
  match t with
  | TRead a _ => nth_error (makers m) a = Some None \/ nth_error (makers m) a = Some (Some i)
  | TWrite a _ _ => nth_error (makers m) a = Some (Some i)
  | _ => True
  end.

(** the object goroutine [i] is about to use, and whether it writes it *)
Definition about_to {A} (t : tree A) : option (nat * bool) :=
  match t with TRead a _ => Some (a, false) | TWrite a _ _ => Some (a, true) | _ => None end.
(** a data race *)
Definition race {A} (m : machine A) : Prop :=
  exists i j ro1 ro2 a w1 w2, i <> j /\
    nth_error (routines m) i = Some ro1 /\ nth_error (routines m) j = Some ro2 /\
    about_to (todo ro1) = Some (a, w1) /\ about_to (todo ro2) = Some (a, w2) /\ (w1 || w2)%bool = true.

(** a value with other addresses *)
Fixpoint rename (f : nat -> nat) (v : value) : value :=
  match v with
  | VPtr a => VPtr (f a)
  | VStruct t fs => VStruct t (map (fun p => (fst p, rename f (snd p))) fs)
  | _ => v
  end.
(** [mem] has a copy of [h], with other addresses for all but the first [n] objects *)
Definition copied (n : nat) (f : nat -> nat) (h mem : list value) : Prop :=
  (forall a, (a < n)%nat -> f a = a) /\
  (forall a b, (a < length h)%nat -> (b < length h)%nat -> f a = f b -> a = b) /\
  (forall a v, nth_error h a = Some v -> nth_error mem (f a) = Some (rename f v)).

(** a goroutine with a program of calls: what it holds, what that means, the program *)
Record worker := Worker { in_hand : list held; in_mind : list meaning; to_do : list request }.
Definition fit (h : list value) (w : worker) : Prop :=
  Forall2 (carries h) (in_hand w) (in_mind w) /\ Forall proper (in_mind w) /\ Forall sensible (to_do w).
