(** * Meaning of the heap programs: sequential, concurrent, and their values

    Used by the statements of C51-C53 and C56-C58. *)

From Verif Require Import GoBase GoNum Base58 GoRand Model Heap.
Local Open Scope Z_scope.

Definition heap := list obj.
Definition lookup (h : heap) (a : addr) : option obj := nth_error h a.
Fixpoint update (h : heap) (a : addr) (o : obj) : heap :=
  match h, a with
  | [], _ => []
  | _ :: h', O => o :: h'
  | x :: h', S a' => x :: update h' a' o
  end.

(** Every object of [h] is still there, unchanged, in [h']. *)
Definition preserves (h h' : heap) : Prop := forall a o, lookup h a = Some o -> lookup h' a = Some o.

(** ** One goroutine alone *)

(** Result of running a program to the end: the heap, the unread rest of the
    random source, the lines logged, the outcome. A dangling address (there are
    none in Go) panics. *)
Fixpoint run {A} (p : prog A) (h : heap) (src : list byte) : heap * list byte * list gostring * outcome A :=
  match p with
  | PRet a => (h, src, [], Ret a)
  | PPanic e => (h, src, [], Panic e)
  | PAlloc o k => run (k (length h)) (h ++ [o]) src
  | PRead a k => match lookup h a with
                 | Some o => run (k o) h src
                 | None => (h, src, [], Panic PNil)
                 end
  | PWrite a o k => match lookup h a with
                    | Some _ => run k (update h a o) src
                    | None => (h, src, [], Panic PNil)
                    end
  | PRandom n k => if (n <=? length src)%nat
                   then run (k (Some (firstn n src))) h (skipn n src)
                   else run (k None) h []
  | PLogLine s k => let '(h', src', l, r) := run k h src in (h', src', s :: l, r)
  end.

(** ** Many goroutines *)

(** A goroutine: the rest of its program, the random bytes it has received and
    the lines it has logged so far (the last two only record history). *)
Record thread (A : Type) := Thread { code : prog A; drawn : list byte; lines : list gostring }.
Arguments Thread {A}. Arguments code {A}. Arguments drawn {A}. Arguments lines {A}.

Record world (A : Type) := World { wheap : heap; wsource : list byte; wlog : list gostring;
                                   wthreads : list (thread A) }.
Arguments World {A}. Arguments wheap {A}. Arguments wsource {A}. Arguments wlog {A}. Arguments wthreads {A}.

(** One step of one goroutine. *)
Inductive tstep {A} : heap -> list byte -> list gostring -> thread A ->
                      heap -> list byte -> list gostring -> thread A -> Prop :=
| t_alloc h src lg o k d l :
    tstep h src lg (Thread (PAlloc o k) d l) (h ++ [o]) src lg (Thread (k (length h)) d l)
| t_read h src lg a k o d l : lookup h a = Some o ->
    tstep h src lg (Thread (PRead a k) d l) h src lg (Thread (k o) d l)
| t_write h src lg a o k d l : (exists o', lookup h a = Some o') ->
    tstep h src lg (Thread (PWrite a o k) d l) (update h a o) src lg (Thread k d l)
| t_random bs h src lg n k d l : length bs = n ->
    tstep h (bs ++ src) lg (Thread (PRandom n k) d l) h src lg (Thread (k (Some bs)) (d ++ bs) l)
| t_random_fails h src lg n k d l : (length src < n)%nat ->
    tstep h src lg (Thread (PRandom n k) d l) h [] lg (Thread (k None) (d ++ src) l)
| t_log h src lg s k d l :
    tstep h src lg (Thread (PLogLine s k) d l) h src (lg ++ [s]) (Thread k d (l ++ [s])).

(** One step of the world: any goroutine may move. *)
Inductive step {A} : world A -> world A -> Prop :=
| step_thread h src lg ts1 t ts2 h' src' lg' t' :
    tstep h src lg t h' src' lg' t' ->
    step (World h src lg (ts1 ++ t :: ts2)) (World h' src' lg' (ts1 ++ t' :: ts2)).

Inductive steps {A} : world A -> world A -> Prop :=
| steps_refl w : steps w w
| steps_step w w' w'' : steps w w' -> step w' w'' -> steps w w''.

(** The world in which the goroutines running [ps] have just been started. *)
Definition start {A} (h : heap) (src : list byte) (ps : list (prog A)) : world A :=
  World h src [] (map (fun p => Thread p [] []) ps).

(** The object the next step of a program reads (false) or writes (true). *)
Definition next_access {A} (p : prog A) : option (addr * bool) :=
  match p with
  | PRead a _ => Some (a, false)
  | PWrite a _ _ => Some (a, true)
  | _ => None
  end.

(** ** The value a pointer stands for *)

Section Views.
Context (at_ : addr -> option obj).

Definition int_at (p : ptr) (v : option Z) : Prop :=
  match p with
  | None => v = None
  | Some a => exists z, at_ a = Some (OInt z) /\ v = Some z
  end.
Definition net_at (p : ptr) (v : option network) : Prop :=
  match p with
  | None => v = None
  | Some a => exists n, at_ a = Some (ONet n) /\ v = Some n
  end.
Definition words_at (p : ptr) (v : wordlist) : Prop :=
  match p with
  | None => v = None
  | Some a => exists l, at_ a = Some (OWords l) /\ v = Some l
  end.
Definition priv_at (a : addr) (v : private_key) : Prop :=
  exists k n, at_ a = Some (OPriv k (Hex v) (WIF v) n) /\ int_at k (Key v) /\ net_at n (KNetwork v).
Definition pub_at (a : addr) (v : public_key) : Prop :=
  exists x y n, at_ a = Some (OPub x y n) /\ int_at x (PX v) /\ int_at y (PY v) /\ net_at n (PNetwork v).

(** The package variables hold the constants of btc.go. *)
Definition globals_at (g : globals) : Prop :=
  at_ (gA g) = Some (OInt secp_A) /\ at_ (gB g) = Some (OInt secp_B) /\
  at_ (gGx g) = Some (OInt secp_Gx) /\ at_ (gGy g) = Some (OInt secp_Gy) /\
  at_ (gP g) = Some (OInt secp_P) /\ at_ (gN g) = Some (OInt secp_N) /\ at_ (gH g) = Some (OInt secp_H) /\
  at_ (gMain g) = Some (ONet MainNetwork) /\ at_ (gTest g) = Some (ONet TestNetwork).

End Views.

(** ** Histories of calls

    A goroutine makes a sequence of calls. Its variables are slots: the ones it
    starts with (shared with others), then the result of each call, usable as
    an argument of the next calls. *)

Inductive slot (N K U W : Type) :=
| SNet (n : N) | SPriv (k : K) | SPub (u : U) | SWords (w : W)
| SStr (s : gostring) | SBool (b : bool) | SBytes (b : option (list byte))
| SErr (e : goerror)       (* (nil, err) *)
| SNone                    (* (nil, false) *)
| SPanic (p : panic)       (* the call panicked (and the caller recovered) *)
| SBad.                    (* an argument of the wrong type: no such Go program *)
Arguments SNet {N K U W}. Arguments SPriv {N K U W}. Arguments SPub {N K U W}. Arguments SWords {N K U W}.
Arguments SStr {N K U W}. Arguments SBool {N K U W}. Arguments SBytes {N K U W}. Arguments SErr {N K U W}.
Arguments SNone {N K U W}. Arguments SPanic {N K U W}. Arguments SBad {N K U W}.

(** A slot of the machine holds pointers; a slot of the value model, values. *)
Definition pslot := slot ptr addr addr ptr.
Definition vslot := slot (option network) private_key public_key wordlist.

Definition slot_at (at_ : addr -> option obj) (p : pslot) (v : vslot) : Prop :=
  match p, v with
  | SNet p, SNet v => net_at at_ p v
  | SPriv p, SPriv v => priv_at at_ p v
  | SPub p, SPub v => pub_at at_ p v
  | SWords p, SWords v => words_at at_ p v
  | SStr s, SStr s' => s = s'
  | SBool b, SBool b' => b = b'
  | SBytes b, SBytes b' => b = b'
  | SErr e, SErr e' => e = e'
  | SNone, SNone => True
  | SPanic e, SPanic e' => e = e'
  | SBad, SBad => True
  | _, _ => False
  end.

(** A string argument: a literal or an earlier result. *)
Inductive sarg := Lit (s : gostring) | Slot (i : nat).

(** The thirteen exported functions and methods. A [nat] is a slot. *)
Inductive call :=
| CCheckWIF (s : sarg)
| CPrivateFromWIF (s : sarg) (net : nat)
| CPrivateFromHex (s : sarg) (net : nat)
| CGeneratePrivateKey (net : nat)
| CAddPrivateKeys (a b : nat)
| CMultiplyPrivateKeys (a b : nat)
| CPublicFromHex (s : sarg) (net : nat)
| CGetPublicKey (a : nat)
| CFormat (a : nat) (compressed : bool)
| CAddress (a : nat) (compressed : bool)
| CAddPublicKeys (a b : nat) (compressed : bool)
| CNewSeedFromMnemonic (m pass : sarg) (wl : nat)
| CNewMnemonic (words : Z) (wl : nat).

Section Args.
Context {N K U W : Type} (env : list (slot N K U W)).
Definition get_net (i : nat) : option N := match nth_error env i with Some (SNet n) => Some n | _ => None end.
Definition get_priv (i : nat) : option K := match nth_error env i with Some (SPriv n) => Some n | _ => None end.
Definition get_pub (i : nat) : option U := match nth_error env i with Some (SPub n) => Some n | _ => None end.
Definition get_words (i : nat) : option W := match nth_error env i with Some (SWords n) => Some n | _ => None end.
Definition get_str (s : sarg) : option gostring :=
  match s with
  | Lit s => Some s
  | Slot i => match nth_error env i with Some (SStr s) => Some s | _ => None end
  end.
End Args.

(** The panic of a call, recovered. *)
Fixpoint try {A} (p : prog A) : prog (outcome A) :=
  match p with
  | PRet a => PRet (Ret a)
  | PPanic e => PRet (Panic e)
  | PAlloc o k => PAlloc o (fun a => try (k a))
  | PRead a k => PRead a (fun o => try (k o))
  | PWrite a o k => PWrite a o (try k)
  | PRandom n k => PRandom n (fun r => try (k r))
  | PLogLine s k => PLogLine s (try k)
  end.

Definition slot_of {N K U W A} (f : A -> slot N K U W) (o : outcome A) : slot N K U W :=
  match o with Ret a => f a | Panic e => SPanic e end.
Definition slot_res {N K U W A} (f : A -> slot N K U W) (r : result A) : slot N K U W :=
  match r with Ok a => f a | Err e => SErr e end.
Definition slot_opt {N K U W A} (f : A -> slot N K U W) (r : option A) : slot N K U W :=
  match r with Some a => f a | None => SNone end.

Definition with_arg {A B} (bad : B) (o : option A) (f : A -> B) : B :=
  match o with Some a => f a | None => bad end.

(** The call on pointers. [fuel] bounds the attempts of the retry loops. *)
Definition p_call (L : hlib) (g : globals) (fuel : nat) (env : list pslot) (c : call) : prog pslot :=
  let bad := PRet SBad in
  let go {A} (m : prog A) (f : A -> pslot) : prog pslot := do o <- try m; PRet (slot_of f o) in
  match c with
  | CCheckWIF s => with_arg bad (get_str env s) (fun s => go (pure (CheckWIF s)) SBool)
  | CPrivateFromWIF s n =>
      with_arg bad (get_str env s) (fun s => with_arg bad (get_net env n) (fun n =>
        go (h_PrivateFromWIF s n) (slot_res SPriv)))
  | CPrivateFromHex s n =>
      with_arg bad (get_str env s) (fun s => with_arg bad (get_net env n) (fun n =>
        go (h_PrivateFromHex s n) (slot_res SPriv)))
  | CGeneratePrivateKey n => with_arg bad (get_net env n) (fun n => go (h_GeneratePrivateKey fuel n) SPriv)
  | CAddPrivateKeys a b =>
      with_arg bad (get_priv env a) (fun a => with_arg bad (get_priv env b) (fun b =>
        go (h_AddPrivateKeys g a b) (slot_res SPriv)))
  | CMultiplyPrivateKeys a b =>
      with_arg bad (get_priv env a) (fun a => with_arg bad (get_priv env b) (fun b =>
        go (h_MultiplyPrivateKeys g a b) (slot_res SPriv)))
  | CPublicFromHex s n =>
      with_arg bad (get_str env s) (fun s => with_arg bad (get_net env n) (fun n =>
        go (h_PublicFromHex L g s n) (slot_res SPub)))
  | CGetPublicKey a => with_arg bad (get_priv env a) (fun a => go (h_GetPublicKey L g a) (slot_opt SPub))
  | CFormat a c => with_arg bad (get_pub env a) (fun a => go (h_Format a c) SStr)
  | CAddress a c => with_arg bad (get_pub env a) (fun a => go (h_Address a c) (slot_res SStr))
  | CAddPublicKeys a b c =>
      with_arg bad (get_pub env a) (fun a => with_arg bad (get_pub env b) (fun b =>
        go (h_AddPublicKeys L g a b c) (slot_res SPub)))
  | CNewSeedFromMnemonic m p w =>
      with_arg bad (get_str env m) (fun m => with_arg bad (get_str env p) (fun p =>
        with_arg bad (get_words env w) (fun w => go (h_NewSeedFromMnemonic m p w) (slot_res SBytes))))
  | CNewMnemonic n w => with_arg bad (get_words env w) (fun w => go (h_NewMnemonic fuel n w) (slot_res SStr))
  end.

(** What NewMnemonic leaves of the random source (mnemonic.go:79-110): nothing
    is read before the arguments are checked. *)
Definition mnemonic_rest (words : Z) (wl : wordlist) (src : list byte) : list byte :=
  match wl, entropy_length words with
  | Some _, Some e => match rand_int (2 ^ e) src with Some (_, rest) => rest | None => [] end
  | _, _ => src
  end.

(** The same call in the value model, running alone, with [d] as all the random
    bytes there are: the lines it logs and its result. [None] if the call does
    not use up [d]. *)
Definition v_call (E : ecdsa_lib) (env : list vslot) (c : call) (d : list byte) : option (list gostring * vslot) :=
  let result (rest : list byte) (l : list gostring) (r : vslot) :=
    match rest with [] => Some (l, r) | _ :: _ => None end in
  let bad := result d [] SBad in
  let plain := result d [] in
  match c with
  | CCheckWIF s => with_arg bad (get_str env s) (fun s => plain (slot_of SBool (CheckWIF s)))
  | CPrivateFromWIF s n =>
      with_arg bad (get_str env s) (fun s => with_arg bad (get_net env n) (fun n =>
        plain (slot_of (slot_res SPriv) (PrivateFromWIF s n))))
  | CPrivateFromHex s n =>
      with_arg bad (get_str env s) (fun s => with_arg bad (get_net env n) (fun n =>
        plain (slot_of (slot_res SPriv) (PrivateFromHex s n))))
  | CGeneratePrivateKey n =>
      with_arg bad (get_net env n) (fun n =>
        match GeneratePrivateKey n d with
        | Ret (k, rest) => result rest [] (SPriv k)
        | Panic e => Some ([], SPanic e)
        end)
  | CAddPrivateKeys a b =>
      with_arg bad (get_priv env a) (fun a => with_arg bad (get_priv env b) (fun b =>
        plain (slot_of (slot_res SPriv) (AddPrivateKeys a b))))
  | CMultiplyPrivateKeys a b =>
      with_arg bad (get_priv env a) (fun a => with_arg bad (get_priv env b) (fun b =>
        plain (slot_of (slot_res SPriv) (MultiplyPrivateKeys a b))))
  | CPublicFromHex s n =>
      with_arg bad (get_str env s) (fun s => with_arg bad (get_net env n) (fun n =>
        plain (slot_of (slot_res SPub) (PublicFromHex E s n))))
  | CGetPublicKey a => with_arg bad (get_priv env a) (fun a => plain (slot_of (slot_opt SPub) (GetPublicKey E a)))
  | CFormat a c => with_arg bad (get_pub env a) (fun a => plain (slot_of SStr (Format a c)))
  | CAddress a c => with_arg bad (get_pub env a) (fun a => plain (slot_of (slot_res SStr) (Address a c)))
  | CAddPublicKeys a b c =>
      with_arg bad (get_pub env a) (fun a => with_arg bad (get_pub env b) (fun b =>
        plain (slot_of (slot_res SPub) (AddPublicKeys E a b c))))
  | CNewSeedFromMnemonic m p w =>
      with_arg bad (get_str env m) (fun m => with_arg bad (get_str env p) (fun p =>
        with_arg bad (get_words env w) (fun w =>
          let '(l, r) := NewSeedFromMnemonic m p w in result d l (slot_of (slot_res SBytes) r))))
  | CNewMnemonic n w =>
      with_arg bad (get_words env w) (fun w =>
        result (mnemonic_rest n w d) [] (slot_of (slot_res SStr) (NewMnemonic n w d)))
  end.

(** A goroutine's sequence of calls, on pointers and on values. [ds] are the
    random bytes of each call. *)
Fixpoint p_script (L : hlib) (g : globals) (fuel : nat) (env : list pslot) (cs : list call) : prog (list pslot) :=
  match cs with
  | [] => PRet env
  | c :: cs' => do r <- p_call L g fuel env c; p_script L g fuel (env ++ [r]) cs'
  end.
Fixpoint v_script (E : ecdsa_lib) (env : list vslot) (cs : list call) (ds : list (list byte))
  : option (list gostring * list vslot) :=
  match cs, ds with
  | [], [] => Some ([], env)
  | c :: cs', d :: ds' =>
      match v_call E env c d with
      | Some (l, r) =>
          match v_script E (env ++ [r]) cs' ds' with
          | Some (l', env') => Some (l ++ l', env')
          | None => None
          end
      | None => None
      end
  | _, _ => None
  end.

(** The calls that read the random source. *)
Definition reads_random (c : call) : bool :=
  match c with CGeneratePrivateKey _ | CNewMnemonic _ _ => true | _ => false end.

(** The call mentions only the first [n] variables. *)
Definition in_scope_s (n : nat) (s : sarg) : Prop := match s with Lit _ => True | Slot i => (i < n)%nat end.
Definition in_scope (n : nat) (c : call) : Prop :=
  match c with
  | CCheckWIF s => in_scope_s n s
  | CPrivateFromWIF s i | CPrivateFromHex s i | CPublicFromHex s i => in_scope_s n s /\ (i < n)%nat
  | CGeneratePrivateKey i | CGetPublicKey i | CFormat i _ | CAddress i _ | CNewMnemonic _ i => (i < n)%nat
  | CAddPrivateKeys i j | CMultiplyPrivateKeys i j | CAddPublicKeys i j _ => (i < n)%nat /\ (j < n)%nat
  | CNewSeedFromMnemonic s t i => in_scope_s n s /\ in_scope_s n t /\ (i < n)%nat
  end.

(** ** Goroutines that each make a sequence of calls *)

(** The variables a goroutine starts with and the calls it makes. *)
Definition job := (list pslot * list call)%type.
Definition jobs_start (L : hlib) (g : globals) (fuel : nat) (h : heap) (src : list byte) (jobs : list job) : world (list pslot) :=
  start h src (map (fun j => p_script L g fuel (fst j) (snd j)) jobs).
(** Goroutine i starts with variables that stand for the values venvs_i. *)
Definition jobs_ok (h : heap) (jobs : list job) (venvs : list (list vslot)) : Prop :=
  Forall2 (fun j venv => Forall2 (slot_at (lookup h)) (fst j) venv) jobs venvs.

(** [merge xs l]: [l] is a merge of the lists [xs], each in its own order. *)
Inductive merge {B} : list (list B) -> list B -> Prop :=
| merge_nil xs : Forall (fun x => x = []) xs -> merge xs []
| merge_snoc xs1 x xs2 b l : merge (xs1 ++ x :: xs2) l -> merge (xs1 ++ (x ++ [b]) :: xs2) (l ++ [b]).

(** The Network field of a key object. *)
Definition network_of (h : heap) (a : addr) : option ptr :=
  match lookup h a with
  | Some (OPriv _ _ _ n) => Some n
  | Some (OPub _ _ n) => Some n
  | _ => None
  end.

(** ** What is assumed of the library code

    [behaves F own tr lg p Q]: started with the objects [own] as its own, next
    to objects [F] that nobody writes, in the presence of other goroutines that
    do not touch its own objects, the program reads only objects that exist,
    writes only its own, and ends in a state satisfying [Q] (own objects, random
    bytes received, lines logged, outcome). New objects are its own. *)
Definition omap := addr -> option obj.
Definition oset (m : omap) (a : addr) (o : obj) : omap := fun b => if Nat.eqb b a then Some o else m b.
Definition look (F own : omap) : omap := fun a => match own a with Some o => Some o | None => F a end.

Fixpoint behaves {A} (F own : omap) (tr : list byte) (lg : list gostring) (p : prog A)
  (Q : omap -> list byte -> list gostring -> outcome A -> Prop) : Prop :=
  match p with
  | PRet a => Q own tr lg (Ret a)
  | PPanic e => Q own tr lg (Panic e)
  | PAlloc o k => forall a, look F own a = None -> behaves F (oset own a o) tr lg (k a) Q
  | PRead a k => exists o, look F own a = Some o /\ behaves F own tr lg (k o) Q
  | PWrite a o k => own a <> None /\ behaves F (oset own a o) tr lg k Q
  | PRandom n k =>
      (forall bs, length bs = n -> behaves F own (tr ++ bs) lg (k (Some bs)) Q) /\
      (forall bs, (length bs < n)%nat -> behaves F own (tr ++ bs) lg (k None) Q)
  | PLogLine s k => behaves F own tr (lg ++ [s]) k Q
  end.

(** A library routine: started anywhere, it leaves everything that existed
    unchanged, reads no random bytes, logs nothing, returns, and its result
    satisfies [R] in the heap it leaves. *)
Definition routine {A} (F own : omap) (p : prog A) (R : omap -> A -> Prop) : Prop :=
  forall tr lg, behaves F own tr lg p (fun own' tr' lg' o =>
    (forall a ob, look F own a = Some ob -> look F own' a = Some ob) /\
    (forall a, own a <> None -> own' a <> None) /\
    tr' = tr /\ lg' = lg /\ exists v, o = Ret v /\ R (look F own') v).

(** The methods compute what [E] says (the pointers they return may be new
    objects or existing ones). *)
Record hlib_meets (L : hlib) (g : globals) (E : ecdsa_lib) : Prop := {
  meets_GetY : forall F own x vx, globals_at (look F own) g ->
    look F own x = Some (OInt vx) ->
    routine F own (h_GetY L g x) (fun at_ r =>
      snd r = snd (lib_GetY E vx) /\ (snd r = true -> int_at at_ (fst r) (Some (fst (lib_GetY E vx)))));
  meets_MultMod : forall F own x y vx vy, globals_at (look F own) g ->
    look F own x = Some (OInt vx) -> look F own y = Some (OInt vy) ->
    routine F own (h_MultMod L g x y) (fun at_ r => int_at at_ r (Some (lib_MultMod E vx vy)));
  meets_ScalarMult : forall F own k x y vk vx vy, globals_at (look F own) g ->
    look F own k = Some (OInt vk) -> look F own x = Some (OInt vx) -> look F own y = Some (OInt vy) ->
    routine F own (h_ScalarMult L g k (x, y)) (fun at_ r =>
      snd r = snd (lib_ScalarMult E vk (vx, vy)) /\
      (snd r = true -> int_at at_ (fst (fst r)) (Some (fst (fst (lib_ScalarMult E vk (vx, vy))))) /\
                       int_at at_ (snd (fst r)) (Some (snd (fst (lib_ScalarMult E vk (vx, vy)))))));
  meets_AddPoints : forall F own x y x' y' vx vy vx' vy', globals_at (look F own) g ->
    look F own x = Some (OInt vx) -> look F own y = Some (OInt vy) ->
    look F own x' = Some (OInt vx') -> look F own y' = Some (OInt vy') ->
    routine F own (h_AddPoints L g (x, y) (x', y')) (fun at_ r =>
      snd r = snd (lib_AddPoints E (vx, vy) (vx', vy')) /\
      (snd r = true -> int_at at_ (fst (fst r)) (Some (fst (fst (lib_AddPoints E (vx, vy) (vx', vy'))))) /\
                       int_at at_ (snd (fst r)) (Some (snd (fst (lib_AddPoints E (vx, vy) (vx', vy'))))))) }.
