(** * The interpreter of [GoSem.v], one step at a time

    The same rules, but every read, write and allocation of a heap cell, every
    rand.Int and every line logged is a step of its own, so that other
    goroutines can run in between. [handle] carries the steps out one after the
    other; [GoTreeSim.v] proves that this is [GoSem.run].

    As in [GoSem.v], a whole struct is one cell, and so is what is behind a
    *big.Int or a hash.Hash; an ecdsa method reads its operands cell by cell and
    its own objects are not seen by anyone else. *)

From Coq Require Import String.
From Verif Require Import GoBase GoNum Sha256 Ripemd160 Base58 GoRand Model GoSyntax GoSource GoSem.
Local Open Scope Z_scope.

Inductive tree (A : Type) :=
| TRet (a : A)
| TCrash (p : panic)
| TStuck
| TFuel
| TRead (a : nat) (k : option value -> tree A)
| TWrite (a : nat) (v : value) (k : tree A)
| TAlloc (v : value) (k : nat -> tree A)
| TRandom (max : Z) (k : option Z -> tree A)    (* rand.Int; None: the reader failed *)
| TLog (l : gostring) (k : tree A).
Arguments TRet {A}. Arguments TCrash {A}. Arguments TStuck {A}. Arguments TFuel {A}.
Arguments TRead {A}. Arguments TWrite {A}. Arguments TAlloc {A}. Arguments TRandom {A}. Arguments TLog {A}.

Fixpoint tbind {A B} (t : tree A) (f : A -> tree B) : tree B :=
  match t with
  | TRet a => f a
  | TCrash p => TCrash p
  | TStuck => TStuck
  | TFuel => TFuel
  | TRead a k => TRead a (fun v => tbind (k v) f)
  | TWrite a v k => TWrite a v (tbind k f)
  | TAlloc v k => TAlloc v (fun a => tbind (k a) f)
  | TRandom m k => TRandom m (fun z => tbind (k z) f)
  | TLog l k => TLog l (tbind k f)
  end.

(** all steps at once; no cell below [floor] may be written *)
Fixpoint handle (floor : nat) {A} (t : tree A) (s : state) : res A :=
  match t with
  | TRet a => Done a s
  | TCrash p => Crash p s
  | TStuck => Stuck
  | TFuel => Fuel
  | TRead a k => handle floor (k (cell s a)) s
  | TWrite a v k => if (a <? floor)%nat then Stuck else handle floor k (store s a v)
  | TAlloc v k => handle floor (k (length (heap s))) (State (heap s ++ [v]) (source s) (logged s))
  | TRandom m k =>
      match rand_int m (source s) with
      | Some (z, rest) => handle floor (k (Some z)) (with_source s rest)
      | None => handle floor (k None) (with_source s [])
      end
  | TLog l k => handle floor k (log_line s l)
  end.

(** a rule of [GoSem.v] that does not look at the state *)
Definition pure {A} (f : state -> res A) : tree A :=
  match f (State [] [] []) with
  | Done a _ => TRet a
  | Crash p _ => TCrash p
  | Stuck => TStuck
  | Fuel => TFuel
  end.

Definition t_one (t : tree (list value)) (k : value -> tree (list value)) : tree (list value) :=
  tbind t (fun vs => match vs with [v] => k v | _ => TStuck end).
Definition t_fresh (v : value) : tree (list value) := TAlloc v (fun a => TRet [VPtr a]).

Definition t_read_var (x : string) (e : env) : tree (list value) :=
  match place x e with
  | Some (SVal v) => TRet [v]
  | Some (SCell a) => TRead a (fun c => match c with Some v => TRet [v] | None => TStuck end)
  | None => match predeclared x with Some v => TRet [v] | None => TStuck end
  end.

Definition t_declare (x : string) (v : value) (e : env) : tree env :=
  if String.eqb x "_" then TRet e
  else
    let add sl := match e with [] => [[(x, sl)]] | fr :: e' => ((x, sl) :: fr) :: e' end in
    match v with
    | VStruct _ _ => TAlloc v (fun a => TRet (add (SCell a)))
    | _ => TRet (add (SVal v))
    end.

Definition t_store_path (a : nat) (path : list string) (v : value) (e : env) : tree env :=
  TRead a (fun c =>
    match c with
    | Some old => match set_path old path v with Some new => TWrite a new (TRet e) | None => TStuck end
    | None => TStuck
    end).

Definition t_assign (l : expr) (v : value) (e : env) : tree env :=
  match path_of l [] with
  | Some (x, path) =>
      if String.eqb x "_" then TRet e
      else
        match place x e, path with
        | Some (SVal _), [] => TRet (set_var x v e)
        | Some (SVal (VPtr a)), _ => t_store_path a path v e
        | Some (SVal VNil), _ => TCrash PNil
        | Some (SCell a), _ => t_store_path a path v e
        | _, _ => TStuck
        end
  | None => TStuck
  end.
Fixpoint t_assign_all (ls : list expr) (vs : list value) (e : env) : tree env :=
  match ls, vs with
  | [], [] => TRet e
  | l :: ls', v :: vs' => tbind (t_assign l v e) (fun e' => t_assign_all ls' vs' e')
  | _, _ => TStuck
  end.
Definition t_define (x : string) (v : value) (e : env) : tree env :=
  match e with
  | fr :: _ =>
      match assoc x fr with
      | Some _ => t_assign (Var x) v e
      | None => t_declare x v e
      end
  | [] => TStuck
  end.
Fixpoint t_define_all (xs : list string) (vs : list value) (e : env) : tree env :=
  match xs, vs with
  | [], [] => TRet e
  | x :: xs', v :: vs' => tbind (t_define x v e) (fun e' => t_define_all xs' vs' e')
  | _, _ => TStuck
  end.
Fixpoint t_bind_params (xs : list string) (vs : list value) (e : env) : tree env :=
  match xs, vs with
  | [], [] => TRet e
  | x :: xs', v :: vs' => tbind (t_declare x v e) (fun e' => t_bind_params xs' vs' e')
  | _, _ => TStuck
  end.

Definition t_big_at {A} (v : value) (k : Z -> tree A) : tree A :=
  match v with
  | VPtr a => TRead a (fun c => match c with Some (VBig z) => k z | _ => TStuck end)
  | VNil => TCrash PNil
  | _ => TStuck
  end.

Definition t_opt {A} (o : option A) (f : A -> value) : tree (list value) :=
  match o with Some a => TRet [f a] | None => TStuck end.

Definition t_deep_equal (v w : value) : tree (list value) :=
  match v, w with
  | VPtr a, VPtr b =>
      TRead a (fun c => TRead b (fun d =>
        match c, d with
        | Some (VStruct t f), Some (VStruct u g) =>
            if String.eqb t u then t_opt (same_strings f g) VBool else TStuck
        | _, _ => TStuck
        end))
  | _, _ => pure (fun s => opt (deep_equal v w s) VBool s)
  end.

Definition t_builtin (f : string) (args : list value) : tree (list value) :=
  if String.eqb f "sha256.New" then
    match args with [] => t_fresh (VHash "sha256" []) | _ => TStuck end
  else if String.eqb f "ripemd160.New" then
    match args with [] => t_fresh (VHash "ripemd160" []) | _ => TStuck end
  else if String.eqb f "big.NewInt" then
    match args with [VInt z] => t_fresh (VBig z) | _ => TStuck end
  else if String.eqb f "fmt.Sprintf" then
    match args with
    | [VStr t; VPtr a] =>
        TRead a (fun c => match c with Some (VBig z) => t_opt (sprintf t z) VStr | _ => TStuck end)
    | _ => pure (builtin f args)
    end
  else if String.eqb f "log.Println" then
    match println args with Some l => TLog l (TRet []) | None => TStuck end
  else if String.eqb f "rand.Int" then
    match args with
    | [VReader; m] =>
        t_big_at m (fun max =>
          if max <=? 0 then TStuck
          else TRandom max (fun r =>
                 match r with
                 | Some z => TAlloc (VBig z) (fun a => TRet [VPtr a; VNil])
                 | None => TRet [VNil; VErr ERandRead]
                 end))
    | _ => TStuck
    end
  else if String.eqb f "reflect.DeepEqual" then
    match args with [v; w] => t_deep_equal v w | _ => TStuck end
  else pure (builtin f args).

Definition t_big_method (m : string) (a : nat) (z : Z) (args : list value) : tree (list value) :=
  let result (r : Z) := TWrite a (VBig r) (TRet [VPtr a]) in
  let both f := match args with
                | [x; y] => t_big_at x (fun u => t_big_at y (fun v => f u v))
                | _ => TStuck
                end in
  if String.eqb m "SetString" then
    match args with
    | [VStr x; VInt base] =>
        let parse := if base =? 16 then Some (set_string16 x)
                     else if base =? 2 then Some (set_string2 x) else None in
        match parse with
        | Some (Some r) => TWrite a (VBig r) (TRet [VPtr a; VBool true])
        | Some None => TRet [VNil; VBool false]
        | None => TStuck
        end
    | _ => TStuck
    end
  else if String.eqb m "Add" then both (fun u v => result (u + v))
  else if String.eqb m "Mul" then both (fun u v => result (u * v))
  else if String.eqb m "Mod" then both (fun u v => if v =? 0 then TStuck else result (big_mod u v))
  else if String.eqb m "Exp" then
    match args with
    | [x; y; VNil] => t_big_at x (fun u => t_big_at y (fun v => if v <? 0 then TStuck else result (u ^ v)))
    | _ => TStuck
    end
  else if String.eqb m "Set" then
    match args with [x] => t_big_at x (fun u => result u) | _ => TStuck end
  else if String.eqb m "SetInt64" then
    match args with [VInt u] => result u | _ => TStuck end
  else if String.eqb m "SetBytes" then
    match args with [VBytes u] => result (set_bytes u) | _ => TStuck end
  else if String.eqb m "Cmp" then
    match args with
    | [y] => t_big_at y (fun v => TRet [VInt (if z =? v then 0 else if z <? v then -1 else 1)])
    | _ => TStuck
    end
  else if String.eqb m "Bit" then
    match args with [VInt i] => if i <? 0 then TStuck else TRet [VInt (big_bit z i)] | _ => TStuck end
  else if String.eqb m "Bytes" then
    match args with [] => TRet [VBytes (big_bytes z)] | _ => TStuck end
  else if String.eqb m "Int64" then
    match args with [] => TRet [VInt (wrap64 z)] | _ => TStuck end
  else TStuck.

Definition t_hash_method (m : string) (a : nat) (alg : string) (bs : list byte) (args : list value) : tree (list value) :=
  if String.eqb m "Write" then
    match args with
    | [v] => match bytes_of v with
             | Some new => TWrite a (VHash alg (bs ++ new)) (TRet [VInt (len new); VNil])
             | None => TStuck
             end
    | _ => TStuck
    end
  else if String.eqb m "Sum" then
    match args with
    | [VNil] =>
        if String.eqb alg "sha256" then TRet [VBytes (sha256 bs)]
        else if String.eqb alg "ripemd160" then TRet [VBytes (ripemd160 bs)]
        else TStuck
    | _ => TStuck
    end
  else TStuck.

Definition t_big_field {A} (fs : list (string * value)) (f : string) (k : Z -> tree A) : tree A :=
  match assoc f fs with Some v => t_big_at v k | None => TStuck end.
Definition t_point_at {A} (v : value) (k : point -> tree A) : tree A :=
  match v with
  | VStruct t fs =>
      if String.eqb t "ecdsa.Point" then
        t_big_field fs "X" (fun x => t_big_field fs "Y" (fun y => k (x, y)))
      else TStuck
  | _ => TStuck
  end.
Definition t_params_at {A} (fs : list (string * value)) (k : curve_params -> tree A) : tree A :=
  t_big_field fs "A" (fun a => t_big_field fs "B" (fun b => t_big_field fs "P" (fun p =>
  t_big_field fs "N" (fun n => t_big_field fs "H" (fun h =>
  match assoc "G"%string fs with
  | Some g => t_point_at g (fun '(x, y) => k (Params a b p x y n h))
  | None => TStuck
  end))))).
Definition t_point_result (r : point * bool) : tree (list value) :=
  let '((x, y), ok) := r in
  TAlloc (VBig x) (fun ax => TAlloc (VBig y) (fun ay =>
    TRet [VStruct "ecdsa.Point" [("X", VPtr ax); ("Y", VPtr ay)]%string; VBool ok])).

(** [wrap] is what becomes of the result of int arithmetic, as in [GoSem.v] *)
Section Program.
Context (E : curve_params -> ecdsa_lib) (wrap : Z -> Z).

Definition t_curve_method (m : string) (fs : list (string * value)) (args : list value) : tree (list value) :=
  t_params_at fs (fun c =>
    if String.eqb m "GetY" then
      match args with
      | [x] => t_big_at x (fun x =>
                 let '(y, ok) := lib_GetY (E c) x in
                 TAlloc (VBig y) (fun a => TRet [VPtr a; VBool ok]))
      | _ => TStuck
      end
    else if String.eqb m "MultMod" then
      match args with
      | [x; y] => t_big_at x (fun x => t_big_at y (fun y => t_fresh (VBig (lib_MultMod (E c) x y))))
      | _ => TStuck
      end
    else if String.eqb m "ScalarMult" then
      match args with
      | [k; p] => t_big_at k (fun k => t_point_at p (fun p => t_point_result (lib_ScalarMult (E c) k p)))
      | _ => TStuck
      end
    else if String.eqb m "AddPoints" then
      match args with
      | [p; q] => t_point_at p (fun p => t_point_at q (fun q => t_point_result (lib_AddPoints (E c) p q)))
      | _ => TStuck
      end
    else TStuck).

Definition t_field (v : value) (f : string) : tree (list value) :=
  match v with
  | VStruct _ fs => t_opt (assoc f fs) (fun v => v)
  | VPtr a => TRead a (fun c =>
                match c with
                | Some (VStruct _ fs) => t_opt (assoc f fs) (fun v => v)
                | _ => TStuck
                end)
  | VNil => TCrash PNil
  | _ => TStuck
  end.

Section Body.
Context (call : string -> list value -> tree (list value)).

Definition t_call_func (f : string) (vs : list value) : tree (list value) :=
  match find_func f with
  | Some _ => call f vs
  | None => t_builtin f vs
  end.
Definition t_call_method (v : value) (m : string) (vs : list value) : tree (list value) :=
  match v with
  | VNil => TCrash PNil
  | VStruct t fs => if String.eqb t "ecdsa.Curve" then t_curve_method m fs vs else TStuck
  | VPtr a =>
      TRead a (fun c =>
        match c with
        | Some (VBig z) => t_big_method m a z vs
        | Some (VHash alg bs) => t_hash_method m a alg bs vs
        | Some (VStruct t _) => call (t ++ "." ++ m)%string (VPtr a :: vs)
        | _ => TStuck
        end)
  | _ => TStuck
  end.

Fixpoint t_eval (e : expr) (en : env) {struct e} : tree (list value) :=
  let all := fix all (es : list expr) : tree (list value) :=
    match es with
    | [] => TRet []
    | e :: es' => t_one (t_eval e en) (fun v => tbind (all es') (fun vs => TRet (v :: vs)))
    end in
  match e with
  | Nil => TRet [VNil]
  | Var x => t_read_var x en
  | Int z => TRet [VInt z]
  | Str x => TRet [VStr (str x)]
  | New t => if String.eqb t "big.Int" then t_fresh (VBig 0) else TStuck
  | Field e f => t_one (t_eval e en) (fun v => t_field v f)
  | Index e i => t_one (t_eval e en) (fun v => t_one (t_eval i en) (fun i => pure (element v i)))
  | Slice e lo hi =>
      t_one (t_eval e en) (fun v => t_one (t_eval lo en) (fun lo => t_one (t_eval hi en) (fun hi =>
        pure (substring v lo hi))))
  | Call f args => tbind (all args) (fun vs => t_call_func f vs)
  | Method e m args => t_one (t_eval e en) (fun v => tbind (all args) (fun vs => t_call_method v m vs))
  | Addr (Var x) => match place x en with Some (SCell a) => TRet [VPtr a] | _ => TStuck end
  | Addr e => t_one (t_eval e en) (fun v => match v with VStruct _ _ => t_fresh v | _ => TStuck end)
  | Not e => t_one (t_eval e en) (fun v => match v with VBool b => TRet [VBool (negb b)] | _ => TStuck end)
  | Bin OpOr a b =>
      t_one (t_eval a en) (fun v =>
        match v with VBool true => TRet [VBool true] | VBool false => t_eval b en | _ => TStuck end)
  | Bin o a b => t_one (t_eval a en) (fun v => t_one (t_eval b en) (fun w => pure (binary wrap o v w)))
  | Lit t fs =>
      (fix fields (l : list (string * expr)) (acc : value) : tree (list value) :=
         match l with
         | [] => TRet [acc]
         | (f, e) :: l' =>
             t_one (t_eval e en) (fun v =>
               match set_path acc [f] v with Some acc' => fields l' acc' | None => TStuck end)
         end) fs (zero 3 t)
  end.
Fixpoint t_eval_all (es : list expr) (en : env) : tree (list value) :=
  match es with
  | [] => TRet []
  | e :: es' => t_one (t_eval e en) (fun v => tbind (t_eval_all es' en) (fun vs => TRet (v :: vs)))
  end.

Definition t_test {A} (t : tree (list value)) (k : bool -> tree A) : tree A :=
  tbind t (fun vs => match vs with [VBool b] => k b | _ => TStuck end).
Definition t_leave (t : tree flow) : tree flow :=
  tbind t (fun c =>
    match c with
    | Next e => TRet (Next (tl e))
    | Broken e => TRet (Broken (tl e))
    | Returned vs => TRet (Returned vs)
    end).
Definition t_catch_break (t : tree flow) : tree flow :=
  tbind t (fun c => match c with Broken e => TRet (Next e) | _ => TRet c end).

Fixpoint t_for_loop (n : nat) (cond : env -> tree (list value))
    (post body : env -> tree flow) (e : env) : tree flow :=
  match n with
  | O => TFuel
  | S n' =>
      t_test (cond e) (fun b =>
        if b then
          tbind (body e) (fun c =>
            match c with
            | Next e => tbind (post e) (fun c =>
                          match c with Next e => t_for_loop n' cond post body e | _ => TStuck end)
            | Broken e => TRet (Next e)
            | Returned vs => TRet (Returned vs)
            end)
        else TRet (Next e))
  end.
Fixpoint t_range_loop (ws : list gostring) (i : Z) (k v : string)
    (body : env -> tree flow) (e : env) : tree flow :=
  match ws with
  | [] => TRet (Next e)
  | w :: ws' =>
      tbind (t_declare k (VInt i) ([] :: e)) (fun e1 =>
      tbind (t_declare v (VStr w) e1) (fun e2 =>
      tbind (t_leave (body e2)) (fun c =>
        match c with
        | Next e => t_range_loop ws' (wrap (i + 1)) k v body e
        | Broken e => TRet (Next e)
        | Returned vs => TRet (Returned vs)
        end)))
  end.

Fixpoint t_exec (n : nat) (st : stmt) (e : env) {struct st} : tree flow :=
  let block := fix block (b : list stmt) (e : env) : tree flow :=
    match b with
    | [] => TRet (Next e)
    | st :: b' => tbind (t_exec n st e) (fun c => match c with Next e => block b' e | _ => TRet c end)
    end in
  let scope b e := t_leave (block b ([] :: e)) in
  match st with
  | Define xs x => tbind (t_eval x e) (fun vs => tbind (t_define_all xs vs e) (fun e => TRet (Next e)))
  | Assign ls x => tbind (t_eval x e) (fun vs => tbind (t_assign_all ls vs e) (fun e => TRet (Next e)))
  | AddAssign l x =>
      tbind (t_eval (Bin OpAdd l x) e) (fun vs =>
        tbind (t_assign_all [l] vs e) (fun e => TRet (Next e)))
  | VarDecl x t => tbind (t_declare x (zero 3 t) e) (fun e' => TRet (Next e'))
  | Do x => tbind (t_eval x e) (fun _ => TRet (Next e))
  | If c a b => t_test (t_eval c e) (fun t => if t then scope a e else scope b e)
  | For init c post body =>
      t_leave (tbind (block init ([] :: e)) (fun f =>
        match f with
        | Next e => t_for_loop n (t_eval c) (block post) (scope body) e
        | _ => TStuck
        end))
  | Range k v x body =>
      tbind (t_eval x e) (fun vs =>
        match vs with
        | [VStrs ws] => t_range_loop ws 0 k v (scope body) e
        | [VNil] => t_range_loop [] 0 k v (scope body) e
        | _ => TStuck
        end)
  | Switch x cases d =>
      tbind (t_eval x e) (fun vs =>
        match vs with
        | [v] =>
            t_catch_break
              ((fix pick (cs : list (expr * list stmt)) : tree flow :=
                  match cs with
                  | [] => scope d e
                  | (g, b) :: cs' =>
                      tbind (t_eval g e) (fun ws =>
                        match ws with
                        | [w] => match equal v w with
                                 | Some true => scope b e
                                 | Some false => pick cs'
                                 | None => TStuck
                                 end
                        | _ => TStuck
                        end)
                  end) cases)
        | _ => TStuck
        end)
  | Break => TRet (Broken e)
  | Return es =>
      match es with
      | [x] => tbind (t_eval x e) (fun vs => TRet (Returned vs))
      | _ => tbind (t_eval_all es e) (fun vs => TRet (Returned vs))
      end
  end.
Fixpoint t_exec_block (n : nat) (b : list stmt) (e : env) : tree flow :=
  match b with
  | [] => TRet (Next e)
  | st :: b' => tbind (t_exec n st e) (fun c => match c with Next e => t_exec_block n b' e | _ => TRet c end)
  end.

End Body.

Fixpoint t_run_on (n : nat) (f : string) (args : list value) : tree (list value) :=
  match n with
  | O => TFuel
  | S n' =>
      match find_func f with
      | None => TStuck
      | Some g =>
          tbind (t_bind_params (f_params g) args [[]]) (fun e =>
            tbind (t_exec_block (t_run_on n') n' (f_body g) e) (fun c =>
              match c with
              | Returned vs => TRet vs
              | Next _ => TRet []
              | Broken _ => TStuck
              end))
      end
  end.

End Program.
(** with ints without limits *)
Notation t_run E := (t_run_on E (fun z => z)).
