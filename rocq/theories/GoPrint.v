(** * How the package's text is read: words of Go, and how trees are written in them

    [GoSource.v] holds syntax trees. This file says, without a parser, what it means
    for a text to be the text of some trees: the text is cut into Go's words
    ([tokens_of], with comments dropped and semicolons put in at line ends as the Go
    specification says), the trees are written out as words ([file_tokens]), and the
    two lists of words must be the same list. *)

From Coq Require Import String Ascii ZArith List Bool.
Import ListNotations.
From Verif Require Import GoSyntax.
Local Open Scope string_scope.

(** ** Words *)

Inductive token :=
| TName (s : string)      (* a name or a keyword *)
| TInt (z : Z)            (* a decimal number *)
| TStr (s : string)       (* "s", with no escapes in it *)
| TOp (s : string).       (* punctuation *)

Definition among (s : string) (l : list string) : bool := existsb (String.eqb s) l.

(** The keywords of Go. *)
Definition keywords : list string :=
  ["break"; "default"; "func"; "interface"; "select"; "case"; "defer"; "go"; "map";
   "struct"; "chan"; "else"; "goto"; "package"; "switch"; "const"; "fallthrough"; "if";
   "range"; "type"; "continue"; "for"; "import"; "return"; "var"].

(** A line whose last word is one of these gets a semicolon at its end. *)
Definition ends_line (t : token) : bool :=
  match t with
  | TName s => negb (among s keywords) || among s ["break"; "continue"; "fallthrough"; "return"]
  | TInt _ | TStr _ => true
  | TOp s => among s ["++"; "--"; ")"; "]"; "}"]
  end.

Local Open Scope char_scope.
Local Open Scope bool_scope.

Definition between (lo hi c : ascii) : bool :=
  (N_of_ascii lo <=? N_of_ascii c)%N && (N_of_ascii c <=? N_of_ascii hi)%N.
Definition letter (c : ascii) : bool := between "a" "z" c || between "A" "Z" c || Ascii.eqb c "_".
Definition digit (c : ascii) : bool := between "0" "9" c.
Definition digit_value (c : ascii) : Z := Z.of_N (N_of_ascii c) - 48.
Definition newline (c : ascii) : bool := Ascii.eqb c "010".
Definition blank (c : ascii) : bool := Ascii.eqb c " " || Ascii.eqb c "009" || Ascii.eqb c "013".

Local Open Scope string_scope.

Definition one (c : ascii) : string := String c EmptyString.
Definition mark (c : ascii) : bool :=
  among (one c) ["+"; "-"; "*"; "/"; "%"; "&"; "|"; "^"; "<"; ">"; "="; "!"; "("; ")"; "[";
                 "]"; "{"; "}"; ","; ";"; "."; ":"].
(** The marks of two characters. *)
Definition marks : list string :=
  ["<<"; ">>"; "&^"; "+="; "-="; "*="; "/="; "%="; "&="; "|="; "^="; "&&"; "||"; "<-";
   "++"; "--"; "=="; "!="; "<="; ">="; ":="; ".."].

(** Where the reader is: between words, inside one (its characters so far, last
    first), or inside a comment. A comment [/* ... */] remembers whether it just saw a
    star and whether it ran over a line end. *)
Inductive place :=
| Outside
| InName (acc : string)
| InInt (z : Z)
| InStr (acc : string)
| InMark (c : ascii)
| InLine
| InComment (star over : bool).

Fixpoint turn (acc s : string) : string :=
  match s with EmptyString => acc | String c s' => turn (String c acc) s' end.

Definition semicolon (ends : bool) : list token := if ends then [TOp ";"] else [].

(** The reader between two words meets [c]; [ends] says whether a line ending here gets
    a semicolon. *)
Definition outside (ends : bool) (c : ascii) : option (list token * place) :=
  if newline c then Some (semicolon ends, Outside)
  else if blank c then Some ([], Outside)
  else if letter c then Some ([], InName (one c))
  else if digit c then Some ([], InInt (digit_value c))
  else if Ascii.eqb c """" then Some ([], InStr "")
  else if mark c then Some ([], InMark c)
  else None.

(** A word is over, and [c] comes after it. *)
Definition after (t : token) (c : ascii) : option (list token * place) :=
  match outside (ends_line t) c with Some (ts, p) => Some (t :: ts, p) | None => None end.

Definition read_char (ends : bool) (p : place) (c : ascii) : option (list token * place) :=
  match p with
  | Outside => outside ends c
  | InName acc =>
      if letter c || digit c then Some ([], InName (String c acc)) else after (TName (turn "" acc)) c
  | InInt z =>
      if digit c then if (z =? 0)%Z then None else Some ([], InInt (10 * z + digit_value c)%Z)
      else if letter c || Ascii.eqb c "." then None
      else after (TInt z) c
  | InStr acc =>
      if Ascii.eqb c """" then Some ([TStr (turn "" acc)], Outside)
      else if newline c || Ascii.eqb c "\" then None
      else Some ([], InStr (String c acc))
  | InMark o =>
      if Ascii.eqb o "/" && Ascii.eqb c "/" then Some ([], InLine)
      else if Ascii.eqb o "/" && Ascii.eqb c "*" then Some ([], InComment false false)
      else if among (String o (one c)) marks then Some ([TOp (String o (one c))], Outside)
      else after (TOp (one o)) c
  | InLine => if newline c then outside ends c else Some ([], InLine)
  | InComment star over =>
      if star && Ascii.eqb c "/" then Some (semicolon (over && ends), Outside)
      else Some ([], InComment (Ascii.eqb c "*") (over || newline c))
  end.

Fixpoint read_text (ends : bool) (p : place) (s : string) : option (list token) :=
  match s with
  | EmptyString =>
      match p with
      | Outside | InLine => Some (semicolon ends)
      | InName _ | InInt _ | InMark _ =>
          match read_char ends p "010" with Some (ts, _) => Some ts | None => None end
      | InStr _ | InComment _ _ => None
      end
  | String c s' =>
      match read_char ends p c with
      | None => None
      | Some (ts, p') =>
          match read_text (last (map ends_line ts) ends) p' s' with
          | None => None
          | Some us => Some (ts ++ us)%list
          end
      end
  end.

(** The words of a text, or [None] where it leaves the part of Go's lexical grammar
    described here: escapes in strings, raw strings, characters, numbers other than
    decimal ones, names outside ASCII. *)
Definition tokens_of (text : string) : option (list token) := read_text false Outside text.

(** ** Writing trees out as words *)

Local Open Scope list_scope.

(** [x] or [p.x] *)
Fixpoint split_dot (s : string) : option (string * string) :=
  match s with
  | EmptyString => None
  | String c s' =>
      if Ascii.eqb c "." then Some (EmptyString, s')
      else match split_dot s' with Some (a, b) => Some (String c a, b) | None => None end
  end.

Definition name_tokens (x : string) : list token :=
  match split_dot x with
  | None => [TName x]
  | Some (p, y) => [TName p; TOp "."; TName y]
  end.

(** [T], [p.T], [*T], [[]T] *)
Fixpoint type_tokens (t : string) : list token :=
  match t with
  | String "*" t' => TOp "*" :: type_tokens t'
  | String "[" (String "]" t') => TOp "[" :: TOp "]" :: type_tokens t'
  | _ => name_tokens t
  end.

Fixpoint commas (l : list (list token)) : list token :=
  match l with
  | [] => []
  | [x] => x
  | x :: l' => x ++ TOp "," :: commas l'
  end.

Definition op_text (o : binop) : string :=
  match o with
  | OpOr => "||" | OpEq => "==" | OpNe => "!=" | OpLt => "<"
  | OpAdd => "+" | OpSub => "-" | OpDiv => "/"
  end.

(** Go's table of precedences; 6 is for expressions with an operator in front, 7 for
    those that need no parentheses anywhere. *)
Definition strength (o : binop) : nat :=
  match o with
  | OpOr => 1 | OpEq | OpNe | OpLt => 3 | OpAdd | OpSub => 4 | OpDiv => 5
  end.
Definition level (e : expr) : nat :=
  match e with
  | Bin o _ _ => strength o
  | Not _ | Addr _ => 6
  | Int z => if (z <? 0)%Z then 6 else 7
  | _ => 7
  end.

Definition parens (needed : bool) (ts : list token) : list token :=
  if needed then TOp "(" :: ts ++ [TOp ")"] else ts.

(** Expressions; parentheses exactly where precedence asks for them. *)
Fixpoint expr_tokens (e : expr) : list token :=
  let at_level n a := parens (level a <? n)%nat (expr_tokens a) in
  match e with
  | Nil => [TName "nil"]
  | Var x => name_tokens x
  | Int z => if (z <? 0)%Z then [TOp "-"; TInt (- z)] else [TInt z]
  | Str s => [TStr s]
  | New t => TName "new" :: TOp "(" :: type_tokens t ++ [TOp ")"]
  | Field a f => at_level 7 a ++ [TOp "."; TName f]
  | Index a i => at_level 7 a ++ TOp "[" :: expr_tokens i ++ [TOp "]"]
  | Slice a lo hi =>
      at_level 7 a ++ TOp "[" :: expr_tokens lo ++ TOp ":" :: expr_tokens hi ++ [TOp "]"]
  | Call f args => name_tokens f ++ TOp "(" :: commas (map expr_tokens args) ++ [TOp ")"]
  | Method a m args =>
      at_level 7 a ++ TOp "." :: TName m :: TOp "(" :: commas (map expr_tokens args) ++ [TOp ")"]
  | Addr a => TOp "&" :: at_level 6 a
  | Not a => TOp "!" :: at_level 6 a
  | Bin o a b => at_level (strength o) a ++ TOp (op_text o) :: at_level (S (strength o)) b
  | Lit t fs =>
      name_tokens t ++ TOp "{" ::
      flat_map (fun p => TName (fst p) :: TOp ":" :: expr_tokens (snd p) ++ [TOp ","]) fs ++ [TOp "}"]
  end.

Definition exprs_tokens (es : list expr) : list token := commas (map expr_tokens es).

(** Statements, without the semicolon after them. *)
Fixpoint stmt_tokens (s : stmt) : list token :=
  let block l :=
    TOp "{" :: flat_map (fun s => stmt_tokens s ++ [TOp ";"]) l ++ [TOp "}"] in
  match s with
  | Define xs e => commas (map (fun x => [TName x]) xs) ++ TOp ":=" :: expr_tokens e
  | Assign ls e => exprs_tokens ls ++ TOp "=" :: expr_tokens e
  | AddAssign l (Int 1) => expr_tokens l ++ [TOp "++"]
  | AddAssign l e => expr_tokens l ++ TOp "+=" :: expr_tokens e
  | VarDecl x t => TName "var" :: TName x :: type_tokens t
  | Do e => expr_tokens e
  | If c a b =>
      TName "if" :: expr_tokens c ++ block a ++
      match b with
      | [] => []
      | [If _ _ _ as s'] => TName "else" :: stmt_tokens s'
      | _ => TName "else" :: block b
      end
  | For init c post body =>
      TName "for" ::
      match init, post with
      | [], [] => expr_tokens c
      | _, _ =>
          flat_map stmt_tokens init ++ TOp ";" :: expr_tokens c ++ TOp ";" ::
          flat_map stmt_tokens post
      end ++ block body
  | Range k v e body =>
      TName "for" :: TName k :: (if String.eqb v "_" then [] else [TOp ","; TName v]) ++
      TOp ":=" :: TName "range" :: expr_tokens e ++ block body
  | Switch e cases default =>
      TName "switch" :: expr_tokens e ++ TOp "{" ::
      flat_map (fun p => TName "case" :: expr_tokens (fst p) ++ TOp ":" ::
                         flat_map (fun s => stmt_tokens s ++ [TOp ";"]) (snd p)) cases ++
      match default with
      | [] => []
      | _ => TName "default" :: TOp ":" :: flat_map (fun s => stmt_tokens s ++ [TOp ";"]) default
      end ++ [TOp "}"]
  | Break => [TName "break"]
  | Return es => TName "return" :: exprs_tokens es
  end.

Definition stmts_tokens (l : list stmt) : list token :=
  flat_map (fun s => stmt_tokens s ++ [TOp ";"]) l.
Definition block_tokens (l : list stmt) : list token := TOp "{" :: stmts_tokens l ++ [TOp "}"].

(** ** Files *)

(** What a file declares. A function keeps the types the trees of [GoSyntax] drop. *)
Inductive decl :=
| DVar (x t : string)
| DStruct (n : string) (fields : list (string * string))
| DType (n t : string)                              (* type n t *)
| DList (x t : string) (texts : list string)        (* var x = t{"...", ...} *)
| DFunc (receiver : option (string * string)) (n : string)
        (params : list (string * string)) (results : list string) (body : list stmt).

Record go_file := GoFile { gf_package : string; gf_imports : list string; gf_decls : list decl }.

Definition typed_tokens (p : string * string) : list token := TName (fst p) :: type_tokens (snd p).

Definition decl_tokens (d : decl) : list token :=
  match d with
  | DVar x t => TName "var" :: TName x :: type_tokens t
  | DStruct n fs =>
      TName "type" :: TName n :: TName "struct" :: TOp "{" ::
      flat_map (fun p => typed_tokens p ++ [TOp ";"]) fs ++ [TOp "}"]
  | DType n t => TName "type" :: TName n :: type_tokens t
  | DList x t ws =>
      TName "var" :: TName x :: TOp "=" :: name_tokens t ++ TOp "{" ::
      flat_map (fun w => [TStr w; TOp ","]) ws ++ [TOp "}"]
  | DFunc r n ps rs b =>
      TName "func" ::
      match r with None => [] | Some p => TOp "(" :: typed_tokens p ++ [TOp ")"] end ++
      TName n :: TOp "(" :: commas (map typed_tokens ps) ++ TOp ")" ::
      match rs with
      | [] => []
      | [t] => type_tokens t
      | _ => TOp "(" :: commas (map type_tokens rs) ++ [TOp ")"]
      end ++ block_tokens b
  end.

Definition file_tokens (f : go_file) : list token :=
  TName "package" :: TName (gf_package f) :: TOp ";" ::
  match gf_imports f with
  | [] => []
  | is => TName "import" :: TOp "(" :: flat_map (fun i => [TStr i; TOp ";"]) is ++ [TOp ")"; TOp ";"]
  end ++
  flat_map (fun d => decl_tokens d ++ [TOp ";"]) (gf_decls f).

(** A text is the text of a file. *)
Definition is_text_of (text : string) (f : go_file) : Prop :=
  tokens_of text = Some (file_tokens f).

(** ** The package of a list of files

    What [GoSyntax.v] keeps of them: a method is a function named [T.m] whose first
    parameter is the receiver, and types of parameters and results are dropped. *)

Definition unstar (t : string) : string :=
  match t with String "*" t' => t' | _ => t end.

Definition decl_types (d : decl) : list (string * list (string * string)) :=
  match d with DStruct n fs => [(n, fs)] | _ => [] end.
Definition decl_vars (d : decl) : list (string * string) :=
  match d with DVar x t => [(x, t)] | _ => [] end.
Definition decl_lists (d : decl) : list (string * list string) :=
  match d with DList x _ ws => [(x, ws)] | _ => [] end.
Definition decl_funcs (d : decl) : list func :=
  match d with
  | DFunc None n ps _ b => [Func n (map fst ps) b]
  | DFunc (Some (r, t)) n ps _ b =>
      [Func (unstar t ++ "." ++ n)%string (r :: map fst ps) b]
  | _ => []
  end.

Definition package_of (fs : list go_file) :=
  let ds := flat_map gf_decls fs in
  (flat_map decl_types ds, flat_map decl_vars ds, flat_map decl_funcs ds).

(** The lists of texts they declare. *)
Definition lists_of (fs : list go_file) : list (string * list string) :=
  flat_map decl_lists (flat_map gf_decls fs).

(** ** Trees that are trees of Go

    Two trees can only be confused by their words if a name in them is not a name: a
    variable called [nil], or one called like an imported package ([Var "rand"] with the
    field [Reader] against the imported [rand.Reader]). [proper] excludes these, and the
    shapes no Go statement has. *)

Fixpoint last_part (acc path : string) : string :=
  match path with
  | EmptyString => turn "" acc
  | String "/" p => last_part "" p
  | String c p => last_part (String c acc) p
  end.
(** The name an import is used by: the last element of its path. *)
Definition import_name (path : string) : string := last_part "" path.

Section Proper.
Variable packages : list string.

Definition reserved (x : string) : bool := among x keywords || among x ["nil"; "new"].

(** A name of this package or a local one. *)
Definition own_name (x : string) : bool :=
  negb (reserved x) && negb (among x packages) &&
  match split_dot x with None => true | Some _ => false end.
(** A name of an imported package, or one of the former. *)
Definition any_name (x : string) : bool :=
  match split_dot x with
  | None => own_name x
  | Some (p, _) => among p packages && negb (reserved p)
  end.

(** In the head of an [if], [for] or [switch], Go has no composite literals: [literals]
    is false there. *)
Fixpoint proper_expr (literals : bool) (e : expr) : bool :=
  match e with
  | Nil | Int _ | Str _ | New _ => true
  | Var x => any_name x
  | Field a _ => proper_expr literals a
  | Index a b => proper_expr literals a && proper_expr literals b
  | Slice a b c => proper_expr literals a && proper_expr literals b && proper_expr literals c
  | Call f args => any_name f && forallb (proper_expr literals) args
  | Method a _ args => proper_expr literals a && forallb (proper_expr literals) args
  | Addr a | Not a => proper_expr literals a
  | Bin _ a b => proper_expr literals a && proper_expr literals b
  | Lit t fs => literals && any_name t && forallb (fun p => proper_expr literals (snd p)) fs
  end.

Definition some {A} (l : list A) : bool := match l with [] => false | _ => true end.

(** Statements that may stand before and after the condition of a [for]. *)
Definition proper_simple (literals : bool) (s : stmt) : bool :=
  match s with
  | Define xs e => some xs && forallb own_name xs && proper_expr literals e
  | Assign ls e => some ls && forallb (proper_expr literals) ls && proper_expr literals e
  | AddAssign l e => proper_expr literals l && proper_expr literals e
  | Do e => proper_expr literals e
  | _ => false
  end.

Fixpoint proper_stmt (s : stmt) : bool :=
  match s with
  | Define _ _ | Assign _ _ | AddAssign _ _ | Do _ => proper_simple true s
  | VarDecl _ _ | Break => true
  | If c a b => proper_expr false c && forallb proper_stmt a && forallb proper_stmt b
  | For init c post body =>
      match init, post with
      | [], [] => true
      | [i], [p] => proper_simple false i && proper_simple false p
      | _, _ => false
      end && proper_expr false c && forallb proper_stmt body
  | Range k v e body =>
      own_name k && own_name v && proper_expr false e && forallb proper_stmt body
  | Switch e cases default =>
      proper_expr false e &&
      forallb (fun p => proper_expr true (fst p) && forallb proper_stmt (snd p)) cases &&
      forallb proper_stmt default
  | Return es => forallb (proper_expr true) es
  end.

Definition proper_decl (d : decl) : bool :=
  match d with DFunc _ _ _ _ b => forallb proper_stmt b | _ => true end.

End Proper.

Definition proper (f : go_file) : bool :=
  forallb (proper_decl (map import_name (gf_imports f))) (gf_decls f).

(** ** Writing words down

    The other direction: a text for a list of words, each followed by a blank. *)

Fixpoint digits (fuel : nat) (z : Z) (acc : string) : string :=
  let c := ascii_of_N (Z.to_N (48 + z mod 10)) in
  match fuel with
  | O => String c acc
  | S n => if (z <? 10)%Z then String c acc else digits n (z / 10) (String c acc)
  end.

Definition spelling (t : token) : string :=
  match t with
  | TName s | TOp s => s
  | TInt z => digits (Z.to_nat (Z.log2 z)) z ""
  | TStr s => """" ++ s ++ """"
  end.

Fixpoint every (f : ascii -> bool) (s : string) : bool :=
  match s with EmptyString => true | String c s' => f c && every f s' end.

(** Words that can be written: names are made of letters and digits, numbers are not
    negative, strings need no escapes, marks are marks of Go. *)
Definition writable (t : token) : bool :=
  match t with
  | TName (String c s) => letter c && every (fun c => letter c || digit c) s
  | TInt z => (0 <=? z)%Z
  | TStr s => every (fun c => negb (Ascii.eqb c """" || newline c || Ascii.eqb c "\")) s
  | TOp (String c EmptyString) => mark c
  | TOp s => among s marks
  | TName EmptyString => false
  end.

Fixpoint written (ts : list token) : string :=
  match ts with [] => "" | t :: ts' => spelling t ++ " " ++ written ts' end.
