(** * Goroutines that call the package at the same time (C97)

    Goroutines that start on one heap, the shared one. Each makes a call, and the
    scheduler may switch from one to another between any two steps of
    [GoTree.v].

    The addresses of the objects a goroutine makes are its own: number [a] is the
    shared object [a] if there is one, and otherwise the object number
    [a - length shared] this goroutine has made. (The package cannot tell one
    address from another: in [GoSem.v] pointers are only followed and compared
    with nil.) A goroutine may well write the shared objects: that it does not
    is what is to be proved. Each goroutine has a list of the random bytes it
    will get; the bytes of rand.Reader may be handed out in any way, and the
    theorems are for all lists. *)

From Coq Require Import String.
From Verif Require Import GoBase Model GoRand GoSem GoTree SpecSource.

(** A call of the exported API, with arguments of the right types: a string, a
    bool, an int, a word list or nil, a pointer to an object of the heap or nil. *)
Inductive api_call (h : list value) : string -> list value -> Prop :=
| call_CheckWIF w : api_call h "CheckWIF" [VStr w]
| call_PrivateFromHex x v net : is_net h v net -> api_call h "PrivateFromHex" [VStr x; v]
| call_PrivateFromWIF x v net : is_net h v net -> api_call h "PrivateFromWIF" [VStr x; v]
| call_GeneratePrivateKey v net : is_net h v net -> api_call h "GeneratePrivateKey" [v]
| call_AddPrivateKeys v p w q :
    is_priv_ptr h v p -> is_priv_ptr h w q -> api_call h "AddPrivateKeys" [v; w]
| call_MultiplyPrivateKeys v p w q :
    is_priv_ptr h v p -> is_priv_ptr h w q -> api_call h "MultiplyPrivateKeys" [v; w]
| call_GetPublicKey v p : is_priv_ptr h v p -> api_call h "PrivateKey.GetPublicKey" [v]
| call_PublicFromHex x v net : is_net h v net -> api_call h "PublicFromHex" [VStr x; v]
| call_AddPublicKeys v p w q c :
    is_pub_ptr h v p -> is_pub_ptr h w q -> api_call h "AddPublicKeys" [v; w; VBool c]
| call_Format v p c : is_pub_ptr h v p -> api_call h "PublicKey.Format" [v; VBool c]
| call_Address v p c : is_pub_ptr h v p -> api_call h "PublicKey.Address" [v; VBool c]
| call_NewMnemonic n v wl : is_words v wl -> api_call h "NewMnemonic" [VInt n; v]
| call_NewSeedFromMnemonic m p v wl :
    is_words v wl -> api_call h "NewSeedFromMnemonic" [VStr m; VStr p; v].

(** A goroutine: what it has still to do, the objects it has made, the random
    bytes it will get, the lines it has logged. *)
Record thread (A : Type) := Thread { code : tree A; own : list value; bytes : list byte; said : list gostring }.
Record world (A : Type) := World { shared : list value; threads : list (thread A) }.
Arguments Thread {A}. Arguments code {A}. Arguments own {A}. Arguments bytes {A}. Arguments said {A}.
Arguments World {A}. Arguments shared {A}. Arguments threads {A}.

Inductive thread_step {A} (sh : list value) : thread A -> list value -> thread A -> Prop :=
| step_read a k ow rd lg :
    thread_step sh (Thread (TRead a k) ow rd lg) sh (Thread (k (nth_error (sh ++ ow) a)) ow rd lg)
| step_write_shared a v k ow rd lg : (a < length sh)%nat ->
    thread_step sh (Thread (TWrite a v k) ow rd lg) (hset sh a v) (Thread k ow rd lg)
| step_write_own a v k ow rd lg : (length sh <= a)%nat ->
    thread_step sh (Thread (TWrite a v k) ow rd lg) sh (Thread k (hset ow (a - length sh) v) rd lg)
| step_alloc v k ow rd lg :
    thread_step sh (Thread (TAlloc v k) ow rd lg) sh (Thread (k (length sh + length ow)%nat) (ow ++ [v]) rd lg)
| step_random m k ow rd lg z rest : rand_int m rd = Some (z, rest) ->
    thread_step sh (Thread (TRandom m k) ow rd lg) sh (Thread (k (Some z)) ow rest lg)
| step_no_random m k ow rd lg : rand_int m rd = None ->
    thread_step sh (Thread (TRandom m k) ow rd lg) sh (Thread (k None) ow [] lg)
| step_log l k ow rd lg :
    thread_step sh (Thread (TLog l k) ow rd lg) sh (Thread k ow rd (lg ++ [l])).

(** the scheduler lets one goroutine make a step *)
Inductive step {A} : world A -> world A -> Prop :=
| one_step sh before t after sh' t' : thread_step sh t sh' t' ->
    step (World sh (before ++ t :: after)) (World sh' (before ++ t' :: after)).
Inductive reaches {A} : world A -> world A -> Prop :=
| reaches_none w : reaches w w
| reaches_more w w1 w2 : reaches w w1 -> step w1 w2 -> reaches w w2.

(** a goroutine that has returned or panicked *)
Definition finished {A} (t : thread A) : Prop :=
  match code t with TRet _ | TCrash _ => True | _ => False end.

(** what each goroutine calls, and the random bytes it will get *)
Record job := Job { calls : string; with_args : list value; will_get : list byte }.
(** [n] bounds depth and loops, as in [GoSem.run]; [wrap] is what becomes of the
    result of int arithmetic *)
Definition start_on (E : curve_params -> ecdsa_lib) (wrap : Z -> Z) (n : nat) (sh : list value) (jobs : list job) : world (list value) :=
  World sh (map (fun j => Thread (t_run_on E wrap n (calls j) (with_args j)) [] (will_get j) []) jobs).
(** with ints without limits *)
Notation start E := (start_on E (fun z => z)).
