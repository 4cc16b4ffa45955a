(** * Syntax trees for the part of Go the package is written in

    [GoSource.v] holds the package's own source in this form, generated by
    tools/go2coq.py; [GoSem.v] says what the trees mean. *)

From Coq Require Import String ZArith List.

Inductive binop := OpOr | OpEq | OpNe | OpLt | OpAdd | OpSub | OpDiv.

(** Qualified names of other packages ([hex.DecodeString]) are single names. *)
Inductive expr :=
| Nil
| Var (x : string)
| Int (z : Z)
| Str (s : string)
| New (t : string)                                  (* new(T) *)
| Field (e : expr) (f : string)                     (* e.f *)
| Index (e i : expr)                                (* e[i] *)
| Slice (e lo hi : expr)                            (* e[lo:hi] *)
| Call (f : string) (args : list expr)              (* f(args) *)
| Method (e : expr) (m : string) (args : list expr) (* e.m(args) *)
| Addr (e : expr)                                   (* &e *)
| Not (e : expr)                                    (* !e *)
| Bin (o : binop) (a b : expr)
| Lit (t : string) (fields : list (string * expr)). (* T{f: e, ...} *)

Inductive stmt :=
| Define (xs : list string) (e : expr)              (* x, y := e *)
| Assign (ls : list expr) (e : expr)                (* l, m = e *)
| AddAssign (l e : expr)                            (* l += e; l++ is l += 1 *)
| VarDecl (x t : string)                            (* var x T *)
| Do (e : expr)                                     (* e *)
| If (c : expr) (a b : list stmt)
| For (init : list stmt) (c : expr) (post body : list stmt)
| Range (k v : string) (e : expr) (body : list stmt)   (* for k, v := range e *)
| Switch (e : expr) (cases : list (expr * list stmt)) (default : list stmt)
| Break
| Return (es : list expr).

(** A function; the receiver of a method [T.m] is its first parameter. *)
Record func := Func { f_name : string; f_params : list string; f_body : list stmt }.
