(** * What the syntax trees of [GoSyntax.v] mean

    An interpreter for the part of Go the package is written in, with a heap.
    Nothing here is taken from [Model.v] except the record [ecdsa_lib] of the
    ecdsa dependency: the language comes from the Go specification, the
    library functions from the same definitions as in [Model.v]
    ([GoBase.v], [GoNum.v], [GoRand.v], [Sha256.v], [Ripemd160.v], [Base58.v]).

    Simplifications: an [int] is an unbounded integer unless the limits say
    otherwise (C101 is about ints of any number of bits); a value next to a
    non-nil error is nil (the package never reads one); no goroutines ([GoTree.v]
    runs the same source one access at a time and interleaves them). Whatever the
    interpreter has no rule for is [Stuck], which the theorems about the source
    exclude. *)

From Coq Require Import String.
From Verif Require Import GoBase GoNum Sha256 Ripemd160 Base58 GoRand Model GoSyntax GoSource.
Local Open Scope Z_scope.

(** ** Values and state *)

(** [VBig] and [VHash] are what a cell behind a *big.Int and a hash.Hash holds;
    every nil is [VNil]. *)
Inductive value :=
| VNil
| VBool (b : bool)
| VInt (z : Z)
| VByte (b : byte)
| VStr (s : gostring)
| VBytes (bs : list byte)
| VStrs (ws : list gostring)
| VErr (e : goerror)
| VReader
| VPtr (a : nat)
| VStruct (t : string) (fields : list (string * value))
| VBig (z : Z)
| VHash (alg : string) (written : list byte).

(** The heap, what the random source will still deliver, the lines logged. *)
Record state := State { heap : list value; source : list byte; logged : list gostring }.

Inductive res (A : Type) :=
| Done (a : A) (s : state)
| Crash (p : panic) (s : state)
| Stuck
| Fuel.
Arguments Done {A} a s.
Arguments Crash {A} p s.
Arguments Stuck {A}.
Arguments Fuel {A}.

Definition andthen {A B} (r : res A) (k : A -> state -> res B) : res B :=
  match r with
  | Done a s => k a s
  | Crash p s => Crash p s
  | Stuck => Stuck
  | Fuel => Fuel
  end.

Definition cell (s : state) (a : nat) : option value := nth_error (heap s) a.
Definition hset (h : list value) (a : nat) (v : value) : list value :=
  firstn a h ++ match skipn a h with [] => [] | _ :: t => v :: t end.
Definition store (s : state) (a : nat) (v : value) : state :=
  State (hset (heap s) a v) (source s) (logged s).
Definition alloc (s : state) (v : value) : nat * state :=
  (length (heap s), State (heap s ++ [v]) (source s) (logged s)).
Definition with_source (s : state) (rd : list byte) : state := State (heap s) rd (logged s).
Definition log_line (s : state) (l : gostring) : state := State (heap s) (source s) (logged s ++ [l]).
(** a fresh cell, and the pointer to it *)
Definition fresh (v : value) (s : state) : res (list value) :=
  let '(a, s') := alloc s v in Done [VPtr a] s'.
Definition one (r : res (list value)) (k : value -> state -> res (list value)) : res (list value) :=
  andthen r (fun vs s => match vs with [v] => k v s | _ => Stuck end).

Fixpoint assoc {A} (x : string) (l : list (string * A)) : option A :=
  match l with
  | [] => None
  | (y, a) :: l' => if String.eqb x y then Some a else assoc x l'
  end.
Fixpoint put {A} (x : string) (a : A) (l : list (string * A)) : list (string * A) :=
  match l with
  | [] => []
  | (y, b) :: l' => if String.eqb x y then (y, a) :: l' else (y, b) :: put x a l'
  end.

(** ** Types and zero values *)

(** the structs of the ecdsa package; those of /repo come from struct.go *)
Definition library_types : list (string * list (string * string)) :=
  [("ecdsa.Point", [("X", "*big.Int"); ("Y", "*big.Int")]);
   ("ecdsa.Curve", [("A", "*big.Int"); ("B", "*big.Int"); ("P", "*big.Int"); ("G", "ecdsa.Point");
                    ("N", "*big.Int"); ("H", "*big.Int")])]%string.
Fixpoint zero (depth : nat) (t : string) : value :=
  if String.eqb t "string" then VStr []
  else if String.eqb t "int" then VInt 0
  else match depth with
       | O => VNil
       | S d =>
           match assoc t (source_types ++ library_types) with
           | Some fs => VStruct t (map (fun p => (fst p, zero d (snd p))) fs)
           | None => VNil
           end
       end.

(** ** Variables *)

(** A variable of struct type owns a heap cell, so that it has an address;
    any other one just holds its value. *)
Inductive slot := SVal (v : value) | SCell (a : nat).
Definition frame := list (string * slot).
Definition env := list frame.

Fixpoint find_var (x : string) (e : env) : option slot :=
  match e with
  | [] => None
  | fr :: e' => match assoc x fr with Some sl => Some sl | None => find_var x e' end
  end.
Fixpoint set_var (x : string) (v : value) (e : env) : env :=
  match e with
  | [] => []
  | fr :: e' => match assoc x fr with Some _ => put x (SVal v) fr :: e' | None => fr :: set_var x v e' end
  end.

(** The package's variables live in the first cells of the heap. *)
Fixpoint global_from (x : string) (l : list (string * string)) (a : nat) : option nat :=
  match l with
  | [] => None
  | (y, _) :: l' => if String.eqb x y then Some a else global_from x l' (S a)
  end.
Definition global (x : string) : option nat := global_from x source_vars 0.
Definition start_heap : list value := map (fun p => zero 3 (snd p)) source_vars.

Definition place (x : string) (e : env) : option slot :=
  match find_var x e with
  | Some sl => Some sl
  | None => match global x with Some a => Some (SCell a) | None => None end
  end.

Definition predeclared (x : string) : option value :=
  if String.eqb x "true" then Some (VBool true)
  else if String.eqb x "false" then Some (VBool false)
  else if String.eqb x "rand.Reader" then Some VReader
  else None.

Definition read_var (x : string) (e : env) (s : state) : res (list value) :=
  match place x e with
  | Some (SVal v) => Done [v] s
  | Some (SCell a) => match cell s a with Some v => Done [v] s | None => Stuck end
  | None => match predeclared x with Some v => Done [v] s | None => Stuck end
  end.

(** a new variable in the innermost scope *)
Definition declare (x : string) (v : value) (e : env) (s : state) : env * state :=
  if String.eqb x "_" then (e, s)
  else
    let add sl := match e with [] => [[(x, sl)]] | fr :: e' => ((x, sl) :: fr) :: e' end in
    match v with
    | VStruct _ _ => let '(a, s') := alloc s v in (add (SCell a), s')
    | _ => (add (SVal v), s)
    end.

Fixpoint set_path (v : value) (path : list string) (new : value) : option value :=
  match path with
  | [] => Some new
  | f :: path' =>
      match v with
      | VStruct t fs =>
          match assoc f fs with
          | Some old =>
              match set_path old path' new with
              | Some v' => Some (VStruct t (put f v' fs))
              | None => None
              end
          | None => None
          end
      | _ => None
      end
  end.

(** the variable and the fields that an assignable expression names *)
Fixpoint path_of (l : expr) (acc : list string) : option (string * list string) :=
  match l with
  | Var x => Some (x, acc)
  | Field l' f => path_of l' (f :: acc)
  | _ => None
  end.

(** The parameters of a curve value: the methods of the ecdsa dependency may
    depend on all of them. *)
Record curve_params := Params { cA : Z; cB : Z; cP : Z; cGx : Z; cGy : Z; cN : Z; cH : Z }.

(** Two limits of the machine. No cell below [lowest] may be written: a program
    that tries to is stuck there. Go has no such limit; it is 0 when programs are
    run ([ends]), and larger only to say that a call does not write, even for a
    moment, the objects it was given ([ends_above]). [as_int] is what becomes of
    the result of int arithmetic: it stays as it is on a machine with [unbounded]
    integers and wraps around on a real one ([SpecInts.v]). *)
Record limits := Limits { lowest : nat; as_int : Z -> Z }.
Definition unbounded (floor : nat) : limits := Limits floor (fun z => z).
Coercion unbounded : nat >-> limits.

Section Writing.
Context (floor : nat).

Definition write {A} (s : state) (a : nat) (v : value) (x : A) : res A :=
  if (a <? floor)%nat then Stuck else Done x (store s a v).

Definition store_path (a : nat) (path : list string) (v : value) (e : env) (s : state) : res env :=
  match cell s a with
  | Some old => match set_path old path v with Some new => write s a new e | None => Stuck end
  | None => Stuck
  end.

(** [l = v] *)
Definition assign (l : expr) (v : value) (e : env) (s : state) : res env :=
  match path_of l [] with
  | Some (x, path) =>
      if String.eqb x "_" then Done e s
      else
        match place x e, path with
        | Some (SVal _), [] => Done (set_var x v e) s
        | Some (SVal (VPtr a)), _ => store_path a path v e s
        | Some (SVal VNil), _ => Crash PNil s
        | Some (SCell a), _ => store_path a path v e s
        | _, _ => Stuck
        end
  | None => Stuck
  end.
Fixpoint assign_all (ls : list expr) (vs : list value) (e : env) (s : state) : res env :=
  match ls, vs with
  | [], [] => Done e s
  | l :: ls', v :: vs' => andthen (assign l v e s) (fun e' s' => assign_all ls' vs' e' s')
  | _, _ => Stuck
  end.

(** [x, y := ...]: a name already in the innermost scope is assigned, the
    others are new. *)
Definition define (x : string) (v : value) (e : env) (s : state) : res env :=
  match e with
  | fr :: _ =>
      match assoc x fr with
      | Some _ => assign (Var x) v e s
      | None => let '(e', s') := declare x v e s in Done e' s'
      end
  | [] => Stuck
  end.
Fixpoint define_all (xs : list string) (vs : list value) (e : env) (s : state) : res env :=
  match xs, vs with
  | [], [] => Done e s
  | x :: xs', v :: vs' => andthen (define x v e s) (fun e' s' => define_all xs' vs' e' s')
  | _, _ => Stuck
  end.
Fixpoint bind_params (xs : list string) (vs : list value) (e : env) (s : state) : option (env * state) :=
  match xs, vs with
  | [], [] => Some (e, s)
  | x :: xs', v :: vs' => let '(e', s') := declare x v e s in bind_params xs' vs' e' s'
  | _, _ => None
  end.

(** ** Library functions *)

(** the number behind a *big.Int; using a nil one panics *)
Definition big_at {A} (v : value) (s : state) (k : Z -> res A) : res A :=
  match v with
  | VPtr a => match cell s a with Some (VBig z) => k z | _ => Stuck end
  | VNil => Crash PNil s
  | _ => Stuck
  end.
Definition bytes_of (v : value) : option (list byte) :=
  match v with VBytes bs => Some bs | VNil => Some [] | _ => None end.
Definition or_error {A} (r : result A) (f : A -> value) (s : state) : res (list value) :=
  match r with Ok a => Done [f a; VNil] s | Err e => Done [VNil; VErr e] s end.
Definition or_panic {A} (r : outcome A) (f : A -> value) (s : state) : res (list value) :=
  match r with Ret a => Done [f a] s | Panic p => Crash p s end.

(** errors.New: the messages of the package *)
Definition error_table : list (string * goerror) :=
  [("wif invalid", EWifInvalid);
   ("different network", EDifferentNetwork);
   ("private keys are identical", EIdentical);
   ("point is not on secp256k1 curve", ENotOnSecp);
   ("unsupported public key format", EUnsupportedFormat);
   ("point is not on curve", ENotOnCurve);
   ("invalid mnemonic", EInvalidMnemonic);
   ("invalid checksum", EInvalidChecksum);
   ("invalid wordlist", EInvalidWordlist);
   ("unsupported mnemonic length", EUnsupportedLength)]%string.
Fixpoint error_of (m : gostring) (t : list (string * goerror)) : option goerror :=
  match t with
  | [] => None
  | (x, e) :: t' => if str_eqb m (str x) then Some e else error_of m t'
  end.

(** strings in UTF-8: string(b) for a byte b *)
Definition string_of_byte (b : byte) : gostring :=
  let z := b2z b in
  if z <? 128 then [b] else [z2b (192 + z / 64); z2b (128 + z mod 64)].

(** one operand of log.Println *)
Definition printed (v : value) : option gostring :=
  match v with VStr s => Some s | VInt z => Some (sprintf_d z) | _ => None end.
Fixpoint println (vs : list value) : option gostring :=
  match vs with
  | [] => Some []
  | [v] => printed v
  | v :: vs' =>
      match printed v, println vs' with
      | Some a, Some b => Some (a ++ space :: b)
      | _, _ => None
      end
  end.

(** fmt.Sprintf with one verb, "%x" or "%b", of a *big.Int or an int; a nil
    *big.Int prints as "<nil>" *)
Definition sprintf (f : gostring) (z : Z) : option gostring :=
  if str_eqb f (str "%x") then Some (sprintf_x z)
  else if str_eqb f (str "%b") then Some (sprintf_b z)
  else None.
Definition known_verb (f : gostring) : bool := str_eqb f (str "%x") || str_eqb f (str "%b").

(** reflect.DeepEqual of two pointers to structs of strings *)
Fixpoint same_strings (f g : list (string * value)) : option bool :=
  match f, g with
  | [], [] => Some true
  | (x, VStr a) :: f', (y, VStr b) :: g' =>
      if String.eqb x y then
        match same_strings f' g' with
        | Some r => Some (str_eqb a b && r)
        | None => None
        end
      else None
  | _, _ => None
  end.
Definition deep_equal (v w : value) (s : state) : option bool :=
  match v, w with
  | VNil, VNil => Some true
  | VNil, VPtr _ | VPtr _, VNil => Some false
  | VPtr a, VPtr b =>
      match cell s a, cell s b with
      | Some (VStruct t f), Some (VStruct u g) => if String.eqb t u then same_strings f g else None
      | _, _ => None
      end
  | _, _ => None
  end.

Definition opt {A} (o : option A) (f : A -> value) (s : state) : res (list value) :=
  match o with Some a => Done [f a] s | None => Stuck end.

(** functions of the language and of the imported packages *)
Definition builtin (f : string) (args : list value) (s : state) : res (list value) :=
  if String.eqb f "len" then
    match args with
    | [VStr x] => Done [VInt (len x)] s
    | [VStrs l] => Done [VInt (len l)] s
    | _ => Stuck
    end
  else if String.eqb f "append" then
    match args with
    | [VNil; VStr x] => Done [VStrs [x]] s
    | [VStrs l; VStr x] => Done [VStrs (l ++ [x])] s
    | _ => Stuck
    end
  else if String.eqb f "string" then
    match args with [VByte b] => Done [VStr (string_of_byte b)] s | _ => Stuck end
  else if String.eqb f "int64" then
    match args with [VInt z] => Done [VInt z] s | _ => Stuck end
  else if String.eqb f "panic" then
    match args with [VErr ERandRead] => Crash PRand s | _ => Stuck end
  else if String.eqb f "errors.New" then
    match args with [VStr m] => opt (error_of m error_table) VErr s | _ => Stuck end
  else if String.eqb f "base58.Decode" then
    match args with [VStr x] => or_error (b58decode x) VBytes s | _ => Stuck end
  else if String.eqb f "base58.Encode" then
    match args with [VBytes x] => Done [VStr (b58encode x)] s | _ => Stuck end
  else if String.eqb f "hex.DecodeString" then
    match args with [VStr x] => or_error (hex_decode x) VBytes s | _ => Stuck end
  else if String.eqb f "hex.EncodeToString" then
    match args with [VBytes x] => Done [VStr (hex_encode x)] s | _ => Stuck end
  else if String.eqb f "sha256.New" then
    match args with [] => fresh (VHash "sha256" []) s | _ => Stuck end
  else if String.eqb f "ripemd160.New" then
    match args with [] => fresh (VHash "ripemd160" []) s | _ => Stuck end
  else if String.eqb f "big.NewInt" then
    match args with [VInt z] => fresh (VBig z) s | _ => Stuck end
  else if String.eqb f "fmt.Sprintf" then
    match args with
    | [VStr t; VInt z] => opt (sprintf t z) VStr s
    | [VStr t; VPtr a] =>
        match cell s a with Some (VBig z) => opt (sprintf t z) VStr s | _ => Stuck end
    | [VStr t; VNil] => if known_verb t then Done [VStr (str "<nil>")] s else Stuck
    | _ => Stuck
    end
  else if String.eqb f "log.Println" then
    match println args with Some l => Done [] (log_line s l) | None => Stuck end
  else if String.eqb f "rand.Int" then
    match args with
    | [VReader; m] =>
        big_at m s (fun max =>
          if max <=? 0 then Stuck
          else match rand_int max (source s) with
               | Some (z, rest) =>
                   let '(a, s') := alloc (with_source s rest) (VBig z) in Done [VPtr a; VNil] s'
               | None => Done [VNil; VErr ERandRead] (with_source s [])
               end)
    | _ => Stuck
    end
  else if String.eqb f "reflect.DeepEqual" then
    match args with [v; w] => opt (deep_equal v w s) VBool s | _ => Stuck end
  else if String.eqb f "strings.ToLower" then
    match args with [VStr x] => Done [VStr (to_lower x)] s | _ => Stuck end
  else if String.eqb f "strings.Split" then
    match args with
    | [VStr x; VStr sep] => if str_eqb sep (str " ") then Done [VStrs (split_space x)] s else Stuck
    | _ => Stuck
    end
  else if String.eqb f "strings.Join" then
    match args with
    | [VStrs l; VStr sep] => if str_eqb sep (str " ") then Done [VStr (join_space l)] s else Stuck
    | [VNil; VStr sep] => Done [VStr []] s
    | _ => Stuck
    end
  else Stuck.

Definition wrap64 (z : Z) : Z := (z + 2 ^ 63) mod 2 ^ 64 - 2 ^ 63.

(** methods of *big.Int; the receiver [a] holds [z] *)
Definition big_method (m : string) (a : nat) (z : Z) (args : list value) (s : state) : res (list value) :=
  let result (r : Z) := write s a (VBig r) [VPtr a] in
  let both f := match args with
                | [x; y] => big_at x s (fun u => big_at y s (fun v => f u v))
                | _ => Stuck
                end in
  if String.eqb m "SetString" then
    match args with
    | [VStr x; VInt base] =>
        let parse := if base =? 16 then Some (set_string16 x)
                     else if base =? 2 then Some (set_string2 x) else None in
        match parse with
        | Some (Some r) => write s a (VBig r) [VPtr a; VBool true]
        | Some None => Done [VNil; VBool false] s
        | None => Stuck
        end
    | _ => Stuck
    end
  else if String.eqb m "Add" then both (fun u v => result (u + v))
  else if String.eqb m "Mul" then both (fun u v => result (u * v))
  else if String.eqb m "Mod" then both (fun u v => if v =? 0 then Stuck else result (big_mod u v))
  else if String.eqb m "Exp" then
    match args with
    | [x; y; VNil] => big_at x s (fun u => big_at y s (fun v => if v <? 0 then Stuck else result (u ^ v)))
    | _ => Stuck
    end
  else if String.eqb m "Set" then
    match args with [x] => big_at x s (fun u => result u) | _ => Stuck end
  else if String.eqb m "SetInt64" then
    match args with [VInt u] => result u | _ => Stuck end
  else if String.eqb m "SetBytes" then
    match args with [VBytes u] => result (set_bytes u) | _ => Stuck end
  else if String.eqb m "Cmp" then
    match args with
    | [y] => big_at y s (fun v => Done [VInt (if z =? v then 0 else if z <? v then -1 else 1)] s)
    | _ => Stuck
    end
  else if String.eqb m "Bit" then
    match args with [VInt i] => if i <? 0 then Stuck else Done [VInt (big_bit z i)] s | _ => Stuck end
  else if String.eqb m "Bytes" then
    match args with [] => Done [VBytes (big_bytes z)] s | _ => Stuck end
  else if String.eqb m "Int64" then
    match args with [] => Done [VInt (wrap64 z)] s | _ => Stuck end
  else Stuck.

(** methods of hash.Hash *)
Definition hash_method (m : string) (a : nat) (alg : string) (bs : list byte)
    (args : list value) (s : state) : res (list value) :=
  if String.eqb m "Write" then
    match args with
    | [v] => match bytes_of v with
             | Some new => write s a (VHash alg (bs ++ new)) [VInt (len new); VNil]
             | None => Stuck
             end
    | _ => Stuck
    end
  else if String.eqb m "Sum" then
    match args with
    | [VNil] =>
        if String.eqb alg "sha256" then Done [VBytes (sha256 bs)] s
        else if String.eqb alg "ripemd160" then Done [VBytes (ripemd160 bs)] s
        else Stuck
    | _ => Stuck
    end
  else Stuck.

End Writing.

Section Program.
(** [E] is the ecdsa dependency. *)
Context (E : curve_params -> ecdsa_lib) (L : limits).

(** ** The ecdsa dependency *)

Definition big_field {A} (fs : list (string * value)) (f : string) (s : state) (k : Z -> res A) : res A :=
  match assoc f fs with Some v => big_at v s k | None => Stuck end.
Definition point_at {A} (v : value) (s : state) (k : point -> res A) : res A :=
  match v with
  | VStruct t fs =>
      if String.eqb t "ecdsa.Point" then
        big_field fs "X" s (fun x => big_field fs "Y" s (fun y => k (x, y)))
      else Stuck
  | _ => Stuck
  end.
Definition params_at {A} (fs : list (string * value)) (s : state) (k : curve_params -> res A) : res A :=
  big_field fs "A" s (fun a => big_field fs "B" s (fun b => big_field fs "P" s (fun p =>
  big_field fs "N" s (fun n => big_field fs "H" s (fun h =>
  match assoc "G"%string fs with
  | Some g => point_at g s (fun '(x, y) => k (Params a b p x y n h))
  | None => Stuck
  end))))).
(** a point result: two fresh numbers *)
Definition point_result (r : point * bool) (s : state) : res (list value) :=
  let '((x, y), ok) := r in
  let '(ax, s1) := alloc s (VBig x) in
  let '(ay, s2) := alloc s1 (VBig y) in
  Done [VStruct "ecdsa.Point" [("X", VPtr ax); ("Y", VPtr ay)]%string; VBool ok] s2.

Definition curve_method (m : string) (fs : list (string * value)) (args : list value) (s : state)
  : res (list value) :=
  params_at fs s (fun c =>
    if String.eqb m "GetY" then
      match args with
      | [x] => big_at x s (fun x =>
                 let '(y, ok) := lib_GetY (E c) x in
                 let '(a, s') := alloc s (VBig y) in Done [VPtr a; VBool ok] s')
      | _ => Stuck
      end
    else if String.eqb m "MultMod" then
      match args with
      | [x; y] => big_at x s (fun x => big_at y s (fun y => fresh (VBig (lib_MultMod (E c) x y)) s))
      | _ => Stuck
      end
    else if String.eqb m "ScalarMult" then
      match args with
      | [k; p] => big_at k s (fun k => point_at p s (fun p => point_result (lib_ScalarMult (E c) k p) s))
      | _ => Stuck
      end
    else if String.eqb m "AddPoints" then
      match args with
      | [p; q] => point_at p s (fun p => point_at q s (fun q => point_result (lib_AddPoints (E c) p q) s))
      | _ => Stuck
      end
    else Stuck).

(** ** Expressions *)

(** [==]; comparing with nil asks whether the other side is nil *)
Definition equal (v w : value) : option bool :=
  match v, w with
  | VNil, VNil => Some true
  | VNil, (VPtr _ | VErr _ | VStrs _ | VBytes _) | (VPtr _ | VErr _ | VStrs _ | VBytes _), VNil => Some false
  | VStr a, VStr b => Some (str_eqb a b)
  | VInt a, VInt b => Some (a =? b)
  | _, _ => None
  end.
(** [wrap] is what becomes of the result of int arithmetic *)
Definition binary (wrap : Z -> Z) (o : binop) (v w : value) (s : state) : res (list value) :=
  match o with
  | OpEq => opt (equal v w) VBool s
  | OpNe => opt (equal v w) (fun b => VBool (negb b)) s
  | OpLt => match v, w with VInt a, VInt b => Done [VBool (a <? b)] s | _, _ => Stuck end
  | OpAdd => match v, w with
             | VInt a, VInt b => Done [VInt (wrap (a + b))] s
             | VStr a, VStr b => Done [VStr (a ++ b)] s
             | _, _ => Stuck
             end
  | OpSub => match v, w with VInt a, VInt b => Done [VInt (wrap (a - b))] s | _, _ => Stuck end
  | OpDiv => match v, w with
             | VInt a, VInt b => if b =? 0 then Stuck else Done [VInt (wrap (Z.quot a b))] s
             | _, _ => Stuck
             end
  | OpOr => Stuck
  end.

Definition field (v : value) (f : string) (s : state) : res (list value) :=
  match v with
  | VStruct _ fs => opt (assoc f fs) (fun v => v) s
  | VPtr a => match cell s a with
              | Some (VStruct _ fs) => opt (assoc f fs) (fun v => v) s
              | _ => Stuck
              end
  | VNil => Crash PNil s
  | _ => Stuck
  end.
Definition element (v i : value) (s : state) : res (list value) :=
  match v, i with
  | VStr x, VInt i => or_panic (index x i) VByte s
  | VStrs l, VInt i => or_panic (index l i) VStr s
  | VNil, VInt i => Crash PIndex s
  | _, _ => Stuck
  end.
Definition substring (v lo hi : value) (s : state) : res (list value) :=
  match v, lo, hi with
  | VStr x, VInt lo, VInt hi => or_panic (slice x lo hi) VStr s
  | _, _, _ => Stuck
  end.

Definition find_func (f : string) : option func :=
  find (fun g => String.eqb f (f_name g)) source_funcs.

Section Body.
(** calling a function of the package *)
Context (call : string -> list value -> state -> res (list value)).

Definition call_func (f : string) (vs : list value) (s : state) : res (list value) :=
  match find_func f with
  | Some _ => call f vs s
  | None => builtin f vs s
  end.
Definition call_method (v : value) (m : string) (vs : list value) (s : state) : res (list value) :=
  match v with
  | VNil => Crash PNil s
  | VStruct t fs => if String.eqb t "ecdsa.Curve" then curve_method m fs vs s else Stuck
  | VPtr a =>
      match cell s a with
      | Some (VBig z) => big_method (lowest L) m a z vs s
      | Some (VHash alg bs) => hash_method (lowest L) m a alg bs vs s
      | Some (VStruct t _) => call (t ++ "." ++ m)%string (VPtr a :: vs) s
      | _ => Stuck
      end
  | _ => Stuck
  end.

Fixpoint eval (e : expr) (en : env) (s : state) {struct e} : res (list value) :=
  let all := fix all (es : list expr) (s : state) : res (list value) :=
    match es with
    | [] => Done [] s
    | e :: es' => one (eval e en s) (fun v s => andthen (all es' s) (fun vs s => Done (v :: vs) s))
    end in
  match e with
  | Nil => Done [VNil] s
  | Var x => read_var x en s
  | Int z => Done [VInt z] s
  | Str x => Done [VStr (str x)] s
  | New t => if String.eqb t "big.Int" then fresh (VBig 0) s else Stuck
  | Field e f => one (eval e en s) (fun v s => field v f s)
  | Index e i => one (eval e en s) (fun v s => one (eval i en s) (fun i s => element v i s))
  | Slice e lo hi =>
      one (eval e en s) (fun v s => one (eval lo en s) (fun lo s => one (eval hi en s) (fun hi s =>
        substring v lo hi s)))
  | Call f args => andthen (all args s) (fun vs s => call_func f vs s)
  | Method e m args => one (eval e en s) (fun v s => andthen (all args s) (fun vs s => call_method v m vs s))
  | Addr (Var x) => match place x en with Some (SCell a) => Done [VPtr a] s | _ => Stuck end
  | Addr e => one (eval e en s) (fun v s => match v with VStruct _ _ => fresh v s | _ => Stuck end)
  | Not e => one (eval e en s) (fun v s => match v with VBool b => Done [VBool (negb b)] s | _ => Stuck end)
  | Bin OpOr a b =>
      one (eval a en s) (fun v s =>
        match v with VBool true => Done [VBool true] s | VBool false => eval b en s | _ => Stuck end)
  | Bin o a b => one (eval a en s) (fun v s => one (eval b en s) (fun w s => binary (as_int L) o v w s))
  | Lit t fs =>
      (fix fields (l : list (string * expr)) (acc : value) (s : state) : res (list value) :=
         match l with
         | [] => Done [acc] s
         | (f, e) :: l' =>
             one (eval e en s) (fun v s =>
               match set_path acc [f] v with Some acc' => fields l' acc' s | None => Stuck end)
         end) fs (zero 3 t) s
  end.
Fixpoint eval_all (es : list expr) (en : env) (s : state) : res (list value) :=
  match es with
  | [] => Done [] s
  | e :: es' => one (eval e en s) (fun v s => andthen (eval_all es' en s) (fun vs s => Done (v :: vs) s))
  end.

(** ** Statements *)

Inductive flow := Next (e : env) | Broken (e : env) | Returned (vs : list value).

Definition test {A} (r : res (list value)) (k : bool -> state -> res A) : res A :=
  andthen r (fun vs s => match vs with [VBool b] => k b s | _ => Stuck end).
(** leave the innermost scope *)
Definition leave (r : res flow) : res flow :=
  andthen r (fun c s =>
    match c with
    | Next e => Done (Next (tl e)) s
    | Broken e => Done (Broken (tl e)) s
    | Returned vs => Done (Returned vs) s
    end).
(** what a loop or switch makes of a break *)
Definition catch_break (r : res flow) : res flow :=
  andthen r (fun c s => match c with Broken e => Done (Next e) s | _ => Done c s end).

(** [for ; cond; post { body }], at most [n] rounds *)
Fixpoint for_loop (n : nat) (cond : env -> state -> res (list value))
    (post body : env -> state -> res flow) (e : env) (s : state) : res flow :=
  match n with
  | O => Fuel
  | S n' =>
      test (cond e s) (fun b s =>
        if b then
          andthen (body e s) (fun c s =>
            match c with
            | Next e => andthen (post e s) (fun c s =>
                          match c with Next e => for_loop n' cond post body e s | _ => Stuck end)
            | Broken e => Done (Next e) s
            | Returned vs => Done (Returned vs) s
            end)
        else Done (Next e) s)
  end.
(** [for k, v := range words { body }] *)
Fixpoint range_loop (wrap : Z -> Z) (ws : list gostring) (i : Z) (k v : string)
    (body : env -> state -> res flow) (e : env) (s : state) : res flow :=
  match ws with
  | [] => Done (Next e) s
  | w :: ws' =>
      let '(e1, s1) := declare k (VInt i) ([] :: e) s in
      let '(e2, s2) := declare v (VStr w) e1 s1 in
      andthen (leave (body e2 s2)) (fun c s =>
        match c with
        | Next e => range_loop wrap ws' (wrap (i + 1)) k v body e s
        | Broken e => Done (Next e) s
        | Returned vs => Done (Returned vs) s
        end)
  end.

(** [n] bounds the rounds of each loop. *)
Fixpoint exec (n : nat) (st : stmt) (e : env) (s : state) {struct st} : res flow :=
  let block := fix block (b : list stmt) (e : env) (s : state) : res flow :=
    match b with
    | [] => Done (Next e) s
    | st :: b' => andthen (exec n st e s) (fun c s => match c with Next e => block b' e s | _ => Done c s end)
    end in
  let scope b e s := leave (block b ([] :: e) s) in
  match st with
  | Define xs x => andthen (eval x e s) (fun vs s => andthen (define_all (lowest L) xs vs e s) (fun e s => Done (Next e) s))
  | Assign ls x => andthen (eval x e s) (fun vs s => andthen (assign_all (lowest L) ls vs e s) (fun e s => Done (Next e) s))
  | AddAssign l x =>
      andthen (eval (Bin OpAdd l x) e s) (fun vs s =>
        andthen (assign_all (lowest L) [l] vs e s) (fun e s => Done (Next e) s))
  | VarDecl x t => let '(e', s') := declare x (zero 3 t) e s in Done (Next e') s'
  | Do x => andthen (eval x e s) (fun _ s => Done (Next e) s)
  | If c a b => test (eval c e s) (fun t s => if t then scope a e s else scope b e s)
  | For init c post body =>
      leave (andthen (block init ([] :: e) s) (fun f s =>
        match f with
        | Next e => for_loop n (eval c) (block post) (scope body) e s
        | _ => Stuck
        end))
  | Range k v x body =>
      andthen (eval x e s) (fun vs s =>
        match vs with
        | [VStrs ws] => range_loop (as_int L) ws 0 k v (scope body) e s
        | [VNil] => range_loop (as_int L) [] 0 k v (scope body) e s
        | _ => Stuck
        end)
  | Switch x cases d =>
      andthen (eval x e s) (fun vs s =>
        match vs with
        | [v] =>
            catch_break
              ((fix pick (cs : list (expr * list stmt)) (s : state) : res flow :=
                  match cs with
                  | [] => scope d e s
                  | (g, b) :: cs' =>
                      andthen (eval g e s) (fun ws s =>
                        match ws with
                        | [w] => match equal v w with
                                 | Some true => scope b e s
                                 | Some false => pick cs' s
                                 | None => Stuck
                                 end
                        | _ => Stuck
                        end)
                  end) cases s)
        | _ => Stuck
        end)
  | Break => Done (Broken e) s
  | Return es =>
      match es with
      | [x] => andthen (eval x e s) (fun vs s => Done (Returned vs) s)
      | _ => andthen (eval_all es e s) (fun vs s => Done (Returned vs) s)
      end
  end.
Fixpoint exec_block (n : nat) (b : list stmt) (e : env) (s : state) : res flow :=
  match b with
  | [] => Done (Next e) s
  | st :: b' => andthen (exec n st e s) (fun c s => match c with Next e => exec_block n b' e s | _ => Done c s end)
  end.

End Body.

(** ** Calls *)

(** [run n f args s]: call [f]; [n] bounds the depth of calls and the rounds of
    each loop. *)
Fixpoint run (n : nat) (f : string) (args : list value) (s : state) : res (list value) :=
  match n with
  | O => Fuel
  | S n' =>
      match find_func f with
      | None => Stuck
      | Some g =>
          match bind_params (f_params g) args [[]] s with
          | None => Stuck
          | Some (e, s) =>
              andthen (exec_block (run n') n' (f_body g) e s) (fun c s =>
                match c with
                | Returned vs => Done vs s
                | Next _ => Done [] s
                | Broken _ => Stuck
                end)
          end
      end
  end.

(** the call ends this way, however large the bound, from some bound on *)
Definition ends_above (f : string) (args : list value) (s : state) (r : res (list value)) : Prop :=
  exists N, forall n, (N <= n)%nat -> run n f args s = r.

End Program.

(** the same without a floor *)
Definition ends E (f : string) args s r : Prop := ends_above E (unbounded O) f args s r.
