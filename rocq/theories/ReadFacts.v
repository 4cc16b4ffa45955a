(** * Proofs about [GoPrint.v]: the words of a file determine its trees

    A reader for words is written here only to prove that no two proper files have the
    same words; no statement mentions it. *)

From Coq Require Import String Ascii ZArith List Bool Lia Arith.
Import ListNotations.
From Verif Require Import GoSyntax GoPrint.
Local Open Scope string_scope.
Local Open Scope list_scope.

(** ** Names and types *)

Lemma split_dot_join x a b : split_dot x = Some (a, b) -> x = (a ++ "." ++ b)%string.
Proof.
  revert a b; induction x as [|c x IH]; intros a b H; [discriminate|].
  cbn [split_dot] in H. destruct (Ascii.eqb_spec c ".") as [->|Hc].
  - injection H as <- <-. reflexivity.
  - destruct (split_dot x) as [[a' b']|]; [|discriminate].
    injection H as <- <-. rewrite (IH a' b' eq_refl). reflexivity.
Qed.

Definition is_op (s : string) (ts : list token) : option (list token) :=
  match ts with TOp o :: ts' => if String.eqb o s then Some ts' else None | _ => None end.
Definition is_kw (s : string) (ts : list token) : option (list token) :=
  match ts with TName o :: ts' => if String.eqb o s then Some ts' else None | _ => None end.

Fixpoint take_type (ts : list token) : option (string * list token) :=
  match ts with
  | TOp o :: ts' =>
      if String.eqb o "*" then
        match take_type ts' with Some (t, r) => Some (String "*" t, r) | None => None end
      else if String.eqb o "[" then
        match ts' with
        | TOp _ :: ts'' =>
            match take_type ts'' with
            | Some (t, r) => Some (String "[" (String "]" t), r) | None => None end
        | _ => None
        end
      else None
  | TName a :: ts' =>
      match ts' with
      | TOp d :: TName b :: ts'' =>
          if String.eqb d "." then Some ((a ++ "." ++ b)%string, ts'') else Some (a, ts')
      | _ => Some (a, ts')
      end
  | _ => None
  end.

Definition no_dot (ts : list token) : bool :=
  match ts with TOp d :: _ => negb (String.eqb d ".") | _ => true end.

Lemma take_name x rest :
  no_dot rest = true -> take_type (name_tokens x ++ rest) = Some (x, rest).
Proof.
  intros H. unfold name_tokens. destruct (split_dot x) as [[a b]|] eqn:E.
  - apply split_dot_join in E. subst x. reflexivity.
  - cbn. destruct rest as [|[]]; try reflexivity. cbn in H.
    destruct rest as [|[]]; try reflexivity.
    destruct (String.eqb s "."); [discriminate|reflexivity].
Qed.

Lemma type_tokens_cases t :
  (exists u, t = String "*" u /\ type_tokens t = TOp "*" :: type_tokens u) \/
  (exists u, t = String "[" (String "]" u) /\ type_tokens t = TOp "[" :: TOp "]" :: type_tokens u) \/
  type_tokens t = name_tokens t.
Proof.
  destruct t as [|c t]; [right; right; reflexivity|].
  destruct (Ascii.eqb_spec c "*") as [->|Hs]; [left; exists t; split; reflexivity|].
  destruct (Ascii.eqb_spec c "[") as [->|Hb].
  - destruct t as [|d t]; [right; right; reflexivity|].
    destruct (Ascii.eqb_spec d "]") as [->|Hd]; [right; left; exists t; split; reflexivity|].
    right; right.
    destruct d as [[][][][][][][][]]; solve [reflexivity | exfalso; apply Hd; reflexivity].
  - right; right.
    destruct c as [[][][][][][][][]];
      solve [reflexivity | exfalso; apply Hs; reflexivity | exfalso; apply Hb; reflexivity].
Qed.

Lemma take_type_tokens t rest :
  no_dot rest = true -> take_type (type_tokens t ++ rest) = Some (t, rest).
Proof.
  intros Hr. remember (String.length t) as n eqn:Hn. revert t Hn.
  induction n as [n IH] using lt_wf_ind. intros t Hn.
  destruct (type_tokens_cases t) as [(u & E & ->)|[(u & E & ->)| ->]].
  - subst t. cbn [app take_type]. cbn [String.eqb Ascii.eqb Bool.eqb].
    rewrite (IH (String.length u)); [reflexivity| |reflexivity]. subst n. cbn. lia.
  - subst t. cbn [app take_type]. cbn [String.eqb Ascii.eqb Bool.eqb].
    rewrite (IH (String.length u)); [reflexivity| |reflexivity]. subst n. cbn. lia.
  - apply take_name, Hr.
Qed.

Lemma type_tokens_inj t u r q :
  type_tokens t ++ r = type_tokens u ++ q -> no_dot r = true -> no_dot q = true -> t = u /\ r = q.
Proof.
  intros H Hr Hq. pose proof (take_type_tokens t r Hr) as Ht. rewrite H, take_type_tokens in Ht by exact Hq.
  injection Ht as -> ->. split; reflexivity.
Qed.

(** ** The reader *)

Section Reader.
Variable packages : list string.

Inductive task :=
| KExpr (lit : bool) (lv : nat)
| KMore (lit : bool) (lv : nat) (e : expr)
| KUnary (lit : bool)
| KPrim (lit : bool)
| KPost (lit : bool) (e : expr)
| KExprs (lit : bool)
| KFields (lit : bool)
| KTail (lit : bool) (es : list expr)
| KStmt
| KStmts
| KBlock
| KCases.

Inductive item :=
| IE (e : expr)
| IEs (es : list expr)
| IFs (fs : list (string * expr))
| IS (s : stmt)
| ISs (l : list stmt)
| ICs (cs : list (expr * list stmt)) (d : list stmt).

Definition binop_of (s : string) : option binop :=
  if String.eqb s "||" then Some OpOr
  else if String.eqb s "==" then Some OpEq
  else if String.eqb s "!=" then Some OpNe
  else if String.eqb s "<" then Some OpLt
  else if String.eqb s "+" then Some OpAdd
  else if String.eqb s "-" then Some OpSub
  else if String.eqb s "/" then Some OpDiv
  else None.

Definition var_name (e : expr) : option string := match e with Var x => Some x | _ => None end.
Fixpoint var_names (es : list expr) : option (list string) :=
  match es with
  | [] => Some []
  | e :: es' =>
      match var_name e, var_names es' with Some x, Some xs => Some (x :: xs) | _, _ => None end
  end.

(** A name, with its package if it has one. *)
Definition take_own (a : string) (ts : list token) : string * list token :=
  if among a packages then
    match ts with
    | TOp d :: TName b :: ts' => if String.eqb d "." then ((a ++ "." ++ b)%string, ts') else (a, ts)
    | _ => (a, ts)
    end
  else (a, ts).

Notation "'get' p <- x ; k" := (match x with Some p => k | _ => None end)
  (at level 200, p pattern, x at level 100, k at level 200).

Definition step (rec : task -> list token -> option (item * list token)) (k : task)
    (ts : list token) : option (item * list token) :=
  match k with
  | KExpr lit lv => get (IE e, t) <- rec (KUnary lit) ts ; rec (KMore lit lv e) t
  | KMore lit lv e =>
      match ts with
      | TOp s :: t =>
          match binop_of s with
          | Some o =>
              if (lv <=? strength o)%nat then
                get (IE b, t') <- rec (KExpr lit (S (strength o))) t ;
                rec (KMore lit lv (Bin o e b)) t'
              else Some (IE e, ts)
          | None => Some (IE e, ts)
          end
      | _ => Some (IE e, ts)
      end
  | KUnary lit =>
      match is_op "!" ts with
      | Some t => get (IE e, t') <- rec (KUnary lit) t ; Some (IE (Not e), t')
      | None =>
      match is_op "&" ts with
      | Some t => get (IE e, t') <- rec (KUnary lit) t ; Some (IE (Addr e), t')
      | None =>
      match is_op "-" ts with
      | Some t => match t with TInt z :: t' => Some (IE (Int (- z)), t') | _ => None end
      | None => get (IE e, t) <- rec (KPrim lit) ts ; rec (KPost lit e) t
      end end end
  | KPrim lit =>
      match ts with
      | TInt z :: t => Some (IE (Int z), t)
      | TStr s :: t => Some (IE (Str s), t)
      | TName a :: t =>
          if String.eqb a "nil" then Some (IE Nil, t)
          else if String.eqb a "new" then
            get t1 <- is_op "(" t ; get (ty, t2) <- take_type t1 ; get t3 <- is_op ")" t2 ;
            Some (IE (New ty), t3)
          else
            let (x, t1) := take_own a t in
            match is_op "(" t1 with
            | Some t2 =>
                match is_op ")" t2 with
                | Some t3 => Some (IE (Call x []), t3)
                | None =>
                    get (IEs es, t3) <- rec (KExprs lit) t2 ; get t4 <- is_op ")" t3 ;
                    Some (IE (Call x es), t4)
                end
            | None =>
            match (if lit then is_op "{" t1 else None) with
            | Some t2 => get (IFs fs, t3) <- rec (KFields lit) t2 ; Some (IE (Lit x fs), t3)
            | None => Some (IE (Var x), t1)
            end end
      | _ =>
          get t <- is_op "(" ts ; get (IE e, t1) <- rec (KExpr lit 0) t ;
          get t2 <- is_op ")" t1 ; Some (IE e, t2)
      end
  | KPost lit e =>
      match is_op "." ts with
      | Some t =>
          match t with
          | TName f :: t1 =>
              match is_op "(" t1 with
              | Some t2 =>
                  match is_op ")" t2 with
                  | Some t3 => rec (KPost lit (Method e f [])) t3
                  | None =>
                      get (IEs es, t3) <- rec (KExprs lit) t2 ; get t4 <- is_op ")" t3 ;
                      rec (KPost lit (Method e f es)) t4
                  end
              | None => rec (KPost lit (Field e f)) t1
              end
          | _ => None
          end
      | None =>
      match is_op "[" ts with
      | Some t =>
          get (IE a, t1) <- rec (KExpr lit 0) t ;
          match is_op ":" t1 with
          | Some t2 =>
              get (IE b, t3) <- rec (KExpr lit 0) t2 ; get t4 <- is_op "]" t3 ;
              rec (KPost lit (Slice e a b)) t4
          | None => get t2 <- is_op "]" t1 ; rec (KPost lit (Index e a)) t2
          end
      | None => Some (IE e, ts)
      end end
  | KExprs lit =>
      get (IE e, t) <- rec (KExpr lit 0) ts ;
      match is_op "," t with
      | Some t1 => get (IEs es, t2) <- rec (KExprs lit) t1 ; Some (IEs (e :: es), t2)
      | None => Some (IEs [e], t)
      end
  | KFields lit =>
      match ts with
      | TName f :: t =>
          get t1 <- is_op ":" t ; get (IE e, t2) <- rec (KExpr lit 0) t1 ;
          get t3 <- is_op "," t2 ; get (IFs fs, t4) <- rec (KFields lit) t3 ;
          Some (IFs ((f, e) :: fs), t4)
      | _ => get t <- is_op "}" ts ; Some (IFs [], t)
      end
  | KTail lit es =>
      match is_op ":=" ts with
      | Some t =>
          get xs <- var_names es ; get (IE e, t1) <- rec (KExpr lit 0) t ; Some (IS (Define xs e), t1)
      | None =>
      match is_op "=" ts with
      | Some t => get (IE e, t1) <- rec (KExpr lit 0) t ; Some (IS (Assign es e), t1)
      | None =>
      match es with
      | [l] =>
          match is_op "+=" ts with
          | Some t => get (IE e, t1) <- rec (KExpr lit 0) t ; Some (IS (AddAssign l e), t1)
          | None =>
          match is_op "++" ts with
          | Some t => Some (IS (AddAssign l (Int 1)), t)
          | None => Some (IS (Do l), ts)
          end end
      | _ => None
      end end end
  | KStmt =>
      match is_kw "return" ts with
      | Some t =>
          match is_op ";" t with
          | Some _ => Some (IS (Return []), t)
          | None => get (IEs es, t1) <- rec (KExprs true) t ; Some (IS (Return es), t1)
          end
      | None =>
      match is_kw "break" ts with
      | Some t => Some (IS Break, t)
      | None =>
      match is_kw "var" ts with
      | Some t =>
          match t with
          | TName x :: t1 => get (ty, t2) <- take_type t1 ; Some (IS (VarDecl x ty), t2)
          | _ => None
          end
      | None =>
      match is_kw "if" ts with
      | Some t =>
          get (IE c, t1) <- rec (KExpr false 0) t ; get (ISs a, t2) <- rec KBlock t1 ;
          match is_kw "else" t2 with
          | Some t3 =>
              match is_kw "if" t3 with
              | Some _ => get (IS s, t4) <- rec KStmt t3 ; Some (IS (If c a [s]), t4)
              | None => get (ISs b, t4) <- rec KBlock t3 ; Some (IS (If c a b), t4)
              end
          | None => Some (IS (If c a []), t2)
          end
      | None =>
      match is_kw "switch" ts with
      | Some t =>
          get (IE e, t1) <- rec (KExpr false 0) t ; get t2 <- is_op "{" t1 ;
          get (ICs cs d, t3) <- rec KCases t2 ; Some (IS (Switch e cs d), t3)
      | None =>
      match is_kw "for" ts with
      | Some t =>
          get (IEs es, t1) <- rec (KExprs false) t ;
          match (get t2 <- is_op ":=" t1 ; is_kw "range" t2) with
          | Some t2 =>
              get xs <- var_names es ; get (IE e, t3) <- rec (KExpr false 0) t2 ;
              get (ISs b, t4) <- rec KBlock t3 ;
              match xs with
              | [k] => Some (IS (Range k "_" e b), t4)
              | [k; v] => Some (IS (Range k v e b), t4)
              | _ => None
              end
          | None =>
          match is_op "{" t1 with
          | Some _ =>
              get (ISs b, t2) <- rec KBlock t1 ;
              match es with [c] => Some (IS (For [] c [] b), t2) | _ => None end
          | None =>
              get (IS i, t2) <- rec (KTail false es) t1 ; get t3 <- is_op ";" t2 ;
              get (IE c, t4) <- rec (KExpr false 0) t3 ; get t5 <- is_op ";" t4 ;
              get (IEs fs, t6) <- rec (KExprs false) t5 ;
              get (IS p, t7) <- rec (KTail false fs) t6 ;
              get (ISs b, t8) <- rec KBlock t7 ; Some (IS (For [i] c [p] b), t8)
          end end
      | None => get (IEs es, t) <- rec (KExprs true) ts ; rec (KTail true es) t
      end end end end end end
  | KStmts =>
      match is_op "}" ts with
      | Some _ => Some (ISs [], ts)
      | None =>
      match is_kw "case" ts with
      | Some _ => Some (ISs [], ts)
      | None =>
      match is_kw "default" ts with
      | Some _ => Some (ISs [], ts)
      | None =>
          get (IS s, t) <- rec KStmt ts ; get t1 <- is_op ";" t ;
          get (ISs l, t2) <- rec KStmts t1 ; Some (ISs (s :: l), t2)
      end end end
  | KBlock =>
      get t <- is_op "{" ts ; get (ISs l, t1) <- rec KStmts t ; get t2 <- is_op "}" t1 ;
      Some (ISs l, t2)
  | KCases =>
      match is_kw "case" ts with
      | Some t =>
          get (IE v, t1) <- rec (KExpr true 0) t ; get t2 <- is_op ":" t1 ;
          get (ISs l, t3) <- rec KStmts t2 ; get (ICs cs d, t4) <- rec KCases t3 ;
          Some (ICs ((v, l) :: cs) d, t4)
      | None =>
      match is_kw "default" ts with
      | Some t =>
          get t1 <- is_op ":" t ; get (ISs l, t2) <- rec KStmts t1 ; get t3 <- is_op "}" t2 ;
          Some (ICs [] l, t3)
      | None => get t <- is_op "}" ts ; Some (ICs [] [], t)
      end end
  end.

Fixpoint run (n : nat) (k : task) (ts : list token) : option (item * list token) :=
  match n with O => None | S n' => step (run n') k ts end.

Definition below (r r' : task -> list token -> option (item * list token)) :=
  forall k ts v, r k ts = Some v -> r' k ts = Some v.

Lemma step_mono r r' : below r r' -> below (step r) (step r').
Proof.
  intros Hle k ts v H. destruct k; unfold step in *;
  repeat (match type of H with
    | match r ?a ?b with _ => _ end = _ =>
        let E := fresh "E" in
        destruct (r a b) as [[[] ?]|] eqn:E; try discriminate H; apply Hle in E; rewrite E
    | match match ?x with _ => _ end with _ => _ end = _ => destruct x eqn:?
    | (let (_, _) := ?x in _) = _ => destruct x eqn:?
    | match ?x with _ => _ end = _ => destruct x eqn:?
    end; try discriminate H); solve [exact H | apply Hle, H].
Qed.

Lemma run_mono n m : n <= m -> below (run n) (run m).
Proof.
  revert m; induction n as [|n IH]; intros m Hm; [intros k ts v H; discriminate|].
  destruct m as [|m]; [lia|]. cbn [run]. apply step_mono, IH. lia.
Qed.

Definition takes (k : task) (ts : list token) (i : item) (r : list token) : Prop :=
  exists n, run n k ts = Some (i, r).

Lemma takes_fun k ts i r j q : takes k ts i r -> takes k ts j q -> i = j /\ r = q.
Proof.
  intros [n Hn] [m Hm]. pose proof (run_mono n (n + m) ltac:(lia) _ _ _ Hn) as A.
  pose proof (run_mono m (n + m) ltac:(lia) _ _ _ Hm) as B. rewrite A in B.
  injection B as -> ->. split; reflexivity.
Qed.


Ltac gather :=
  repeat match goal with H : takes _ _ _ _ |- _ => let n := fresh "n" in destruct H as [n H] end;
  repeat match goal with
    | H1 : run ?n _ _ = Some _, H2 : run ?m _ _ = Some _ |- _ =>
        tryif constr_eq n m then fail else
          (let N := fresh "N" in let Hn := fresh "Hn" in let Hm := fresh "Hm" in
           assert (Hn : n <= n + m) by lia; assert (Hm : m <= n + m) by lia;
           repeat match goal with H : run n _ _ = Some _ |- _ => apply (run_mono n (n + m) Hn) in H end;
           repeat match goal with H : run m _ _ = Some _ |- _ => apply (run_mono m (n + m) Hm) in H end;
           clear Hn Hm; set (N := n + m) in *; clearbody N)
    end.
Ltac tidy := cbn [is_op is_kw String.eqb Ascii.eqb Bool.eqb app].
Ltac rule :=
  gather;
  match goal with
  | H : run ?n _ _ = Some _ |- takes _ _ _ _ => exists (S n)
  | |- takes _ _ _ _ => exists 1
  end;
  cbn [run]; unfold step; tidy;
  repeat (match goal with
    | H : run _ _ _ = Some _ |- _ => rewrite H
    | H : is_op _ _ = None |- _ => rewrite H
    | H : is_kw _ _ = None |- _ => rewrite H
    | H : is_op _ _ = Some _ |- _ => rewrite H
    | H : is_kw _ _ = Some _ |- _ => rewrite H
    end; tidy); try reflexivity.

(** *** Names *)

Lemma among_false x l y : among x l = false -> In y l -> String.eqb x y = false.
Proof.
  intros H Hy. destruct (String.eqb x y) eqn:E; [|reflexivity]. exfalso.
  assert (among x l = true) by (apply existsb_exists; exists y; split; assumption). congruence.
Qed.

Lemma not_reserved x :
  reserved x = false ->
  String.eqb x "nil" = false /\ String.eqb x "new" = false /\ among x keywords = false.
Proof.
  unfold reserved. rewrite orb_false_iff. intros [H1 H2].
  repeat split; [| |exact H1]; eapply among_false; try exact H2; cbn; auto.
Qed.

Lemma own_parts x :
  own_name packages x = true ->
  name_tokens x = [TName x] /\ any_name packages x = true /\ reserved x = false.
Proof.
  intros H. unfold any_name, name_tokens. pose proof H as H'. unfold own_name in H.
  destruct (split_dot x); [rewrite andb_false_r in H; discriminate|].
  split; [reflexivity|]. split; [exact H'|].
  rewrite !andb_true_iff in H. destruct H as [[H _] _]. apply negb_true_iff, H.
Qed.

Lemma name_parts x :
  any_name packages x = true ->
  exists a t, name_tokens x = TName a :: t /\ reserved a = false /\
              forall rest, take_own a (t ++ rest) = (x, rest).
Proof.
  unfold any_name, name_tokens. destruct (split_dot x) as [[p y]|] eqn:E.
  - rewrite andb_true_iff, negb_true_iff. intros [H1 H2].
    exists p, [TOp "."; TName y]. split; [reflexivity|]. split; [exact H2|].
    intros rest. unfold take_own. rewrite H1. cbn. apply split_dot_join in E. subst x. reflexivity.
  - unfold own_name. rewrite E, !andb_true_iff, !negb_true_iff. intros [[H1 H2] _].
    exists x, []. split; [reflexivity|]. split; [exact H1|].
    intros rest. unfold take_own. rewrite H2. reflexivity.
Qed.

(** *** What may follow *)

Definition quiet (lit : bool) (r : list token) : Prop :=
  is_op "(" r = None /\ (if lit then is_op "{" r else None) = None.
Definition calm (lit : bool) (r : list token) : Prop :=
  quiet lit r /\ is_op "." r = None /\ is_op "[" r = None.
Definition tame (n : nat) (r : list token) : Prop :=
  match r with
  | TOp s :: _ => match binop_of s with Some o => strength o <= n | None => True end
  | _ => True
  end.

Lemma more_stop lit lv e r n : tame n r -> n < lv -> takes (KMore lit lv e) r (IE e) r.
Proof.
  intros H Hn. exists 1. cbn [run]. unfold step. destruct r as [|[] r]; try reflexivity.
  cbn [tame] in H. destruct (binop_of s) as [o|]; [|reflexivity].
  destruct (Nat.leb_spec lv (strength o)); [lia|reflexivity].
Qed.

Lemma post_stop lit e r : calm lit r -> takes (KPost lit e) r (IE e) r.
Proof. intros (_ & H1 & H2). rule. Qed.

(** *** Induction on expressions *)

Lemma expr_nested_ind (P : expr -> Prop)
  (hNil : P Nil) (hVar : forall x, P (Var x)) (hInt : forall z, P (Int z))
  (hStr : forall s, P (Str s)) (hNew : forall t, P (New t))
  (hField : forall e f, P e -> P (Field e f))
  (hIndex : forall e i, P e -> P i -> P (Index e i))
  (hSlice : forall e a b, P e -> P a -> P b -> P (Slice e a b))
  (hCall : forall f l, Forall P l -> P (Call f l))
  (hMethod : forall e m l, P e -> Forall P l -> P (Method e m l))
  (hAddr : forall e, P e -> P (Addr e)) (hNot : forall e, P e -> P (Not e))
  (hBin : forall o a b, P a -> P b -> P (Bin o a b))
  (hLit : forall t l, Forall (fun p => P (snd p)) l -> P (Lit t l)) :
  forall e, P e.
Proof.
  fix go 1. intros e. destruct e.
  - exact hNil.
  - apply hVar.
  - apply hInt.
  - apply hStr.
  - apply hNew.
  - apply hField, go.
  - apply hIndex; apply go.
  - apply hSlice; apply go.
  - apply hCall. induction args as [|a l IH]; constructor; [apply go|exact IH].
  - apply hMethod; [apply go|]. induction args as [|a l IH]; constructor; [apply go|exact IH].
  - apply hAddr, go.
  - apply hNot, go.
  - apply hBin; apply go.
  - apply hLit. induction fields as [|[f a] l IH]; constructor; [apply go|exact IH].
Qed.

(** *** First words *)

Definition opens (t : token) : bool :=
  match t with
  | TName x => negb (among x keywords)
  | TOp o => among o ["("; "-"; "&"; "!"]
  | TInt _ | TStr _ => true
  end.

Definition begins (ts : list token) : Prop :=
  match ts with t :: _ => opens t = true | [] => False end.

Lemma begins_app ts r : begins ts -> begins (ts ++ r).
Proof. destruct ts; [contradiction|exact (fun H => H)]. Qed.

Lemma name_begins x : any_name packages x = true -> begins (name_tokens x).
Proof.
  intros H. destruct (name_parts x H) as (a & t & -> & Ha & _). cbn [begins opens].
  destruct (not_reserved a Ha) as (_ & _ & ->). reflexivity.
Qed.

Lemma parens_begins b ts : begins ts -> begins (parens b ts).
Proof. destruct b; [reflexivity|exact (fun H => H)]. Qed.

Lemma expr_begins lit e : proper_expr packages lit e = true -> begins (expr_tokens e).
Proof.
  induction e using expr_nested_ind; cbn [proper_expr expr_tokens]; rewrite ?andb_true_iff; intros Hp;
    try reflexivity;
    try (apply begins_app; apply parens_begins; tauto);
    try (apply begins_app, name_begins; tauto).
  - apply name_begins, Hp.
  - destruct (z <? 0)%Z; reflexivity.
Qed.

Lemma begins_no_op s ts :
  begins ts -> among s ["("; "-"; "&"; "!"] = false -> is_op s ts = None.
Proof.
  destruct ts as [|[] ts]; try reflexivity. cbn [begins opens is_op]. intros H Hs.
  destruct (String.eqb_spec s0 s) as [->|]; [congruence|reflexivity].
Qed.

Lemma begins_no_kw s ts : begins ts -> among s keywords = true -> is_kw s ts = None.
Proof.
  destruct ts as [|[] ts]; try reflexivity. cbn [begins opens is_kw]. intros H Hs.
  destruct (String.eqb_spec s0 s) as [->|]; [|reflexivity]. rewrite Hs in H. discriminate.
Qed.

(** *** Expressions *)

Section Expr.
Variable lit : bool.

Definition reads (e : expr) : Prop :=
  proper_expr packages lit e = true ->
  (level e = 7 -> forall rest i r, quiet lit rest -> takes (KPost lit e) rest i r ->
     takes (KUnary lit) (expr_tokens e ++ rest) i r) /\
  (6 <= level e -> forall rest, calm lit rest ->
     takes (KUnary lit) (expr_tokens e ++ rest) (IE e) rest) /\
  (forall lv rest i r, lv <= level e -> calm lit rest -> tame (level e) rest ->
     takes (KMore lit lv e) rest i r -> takes (KExpr lit lv) (expr_tokens e ++ rest) i r).

Lemma k_expr lv ts e t i r :
  takes (KUnary lit) ts (IE e) t -> takes (KMore lit lv e) t i r -> takes (KExpr lit lv) ts i r.
Proof. intros. rule. Qed.

Lemma k_unary ts e t i r :
  is_op "!" ts = None -> is_op "&" ts = None -> is_op "-" ts = None ->
  takes (KPrim lit) ts (IE e) t -> takes (KPost lit e) t i r -> takes (KUnary lit) ts i r.
Proof. intros. rule. Qed.

Lemma closing_calm s r :
  among s [")"; "]"; ":"; ","; ";"; "="; ":="; "+="; "++"; "}"] = true -> calm lit (TOp s :: r).
Proof.
  intros H. unfold calm, quiet.
  apply existsb_exists in H. destruct H as (x & Hx & E). apply String.eqb_eq in E. subst x.
  cbn [In] in Hx. repeat (destruct Hx as [<-|Hx]; [cbn; destruct lit; repeat split; reflexivity|]).
  contradiction.
Qed.

Lemma closing_tame s r n :
  among s [")"; "]"; ":"; ","; ";"; "="; ":="; "+="; "++"; "}"; "{"] = true -> tame n (TOp s :: r).
Proof.
  intros H. apply existsb_exists in H. destruct H as (x & Hx & E). apply String.eqb_eq in E. subst x.
  cbn [In] in Hx. repeat (destruct Hx as [<-|Hx]; [exact I|]). contradiction.
Qed.

(** An expression on its own. *)
Lemma whole e rest :
  reads e -> proper_expr packages lit e = true -> calm lit rest -> tame 0 rest ->
  takes (KExpr lit 0) (expr_tokens e ++ rest) (IE e) rest.
Proof.
  intros He Hp Hc Ht. destruct (He Hp) as (_ & _ & H). apply H; [lia|exact Hc| |].
  - destruct rest as [|[] r]; try exact I. cbn in *. destruct (binop_of s); [lia|exact I].
  - destruct rest as [|[] r]; try (exists 1; reflexivity). cbn in Ht.
    destruct (binop_of s) as [o|] eqn:E; [destruct o; cbn in Ht; lia|].
    exists 1. cbn. rewrite E. reflexivity.
Qed.

Lemma list_reads l rest :
  Forall reads l -> l <> [] -> forallb (proper_expr packages lit) l = true ->
  calm lit rest -> tame 0 rest -> is_op "," rest = None ->
  takes (KExprs lit) (exprs_tokens l ++ rest) (IEs l) rest.
Proof.
  intros Hl. induction Hl as [|e l He Hl IH]; intros Hne Hp Hc Ht Hr; [congruence|].
  cbn [forallb] in Hp. apply andb_prop in Hp. destruct Hp as [Hp Hps].
  destruct l as [|e' l].
  - unfold exprs_tokens. cbn [map commas].
    pose proof (whole e rest He Hp Hc Ht) as H. rule.
  - specialize (IH ltac:(discriminate) Hps Hc Ht Hr).
    change (exprs_tokens (e :: e' :: l)) with (expr_tokens e ++ TOp "," :: exprs_tokens (e' :: l)).
    rewrite <- app_assoc. cbn [app].
    pose proof (whole e (TOp "," :: exprs_tokens (e' :: l) ++ rest) He Hp
                  (closing_calm "," _ eq_refl) (closing_tame "," _ _ eq_refl)) as H.
    rule.
Qed.

Lemma exprs_begin l : l <> [] -> forallb (proper_expr packages lit) l = true -> begins (exprs_tokens l).
Proof.
  destruct l as [|e l]; [congruence|]. intros _ H. cbn [forallb] in H. apply andb_prop in H.
  destruct H as [H _]. apply expr_begins in H. unfold exprs_tokens. cbn [map].
  destruct l; [exact H|]. cbn [map commas]. apply begins_app, H.
Qed.

(** Arguments, after the opening parenthesis. *)
Lemma args_read l rest :
  Forall reads l -> forallb (proper_expr packages lit) l = true ->
  (l = [] /\ exprs_tokens l = []) \/
  (is_op ")" (exprs_tokens l ++ TOp ")" :: rest) = None /\
   takes (KExprs lit) (exprs_tokens l ++ TOp ")" :: rest) (IEs l) (TOp ")" :: rest)).
Proof.
  intros Hl Hp. destruct l as [|e l]; [left; split; reflexivity|right]. split.
  - apply begins_no_op; [|reflexivity]. apply begins_app, exprs_begin; [discriminate|exact Hp].
  - apply list_reads; [exact Hl|discriminate|exact Hp| | |reflexivity].
    + apply closing_calm. reflexivity.
    + apply closing_tame. reflexivity.
Qed.

(** In parentheses where they are needed. *)
Lemma inner e rest :
  reads e -> proper_expr packages lit e = true ->
  takes (KPrim lit) (TOp "(" :: expr_tokens e ++ TOp ")" :: rest) (IE e) rest.
Proof.
  intros He Hp. pose proof (whole e (TOp ")" :: rest) He Hp (closing_calm ")" _ eq_refl)
    (closing_tame ")" _ _ eq_refl)) as H. rule.
Qed.

Lemma at_seven e rest i r :
  reads e -> proper_expr packages lit e = true -> quiet lit rest ->
  takes (KPost lit e) rest i r ->
  takes (KUnary lit) (parens (level e <? 7)%nat (expr_tokens e) ++ rest) i r.
Proof.
  intros He Hp Hq H. destruct (Nat.ltb_spec (level e) 7) as [Hl|Hl]; cbn [parens].
  - cbn [app]. rewrite <- app_assoc. cbn [app].
    eapply k_unary; try reflexivity; [apply inner; assumption|exact H].
  - destruct (He Hp) as (A & _ & _). apply A; [|exact Hq|exact H].
    destruct e; cbn [level] in *; try lia; try destruct o; cbn in *; try lia.
    destruct (z <? 0)%Z; lia.
Qed.

Lemma at_six e rest :
  reads e -> proper_expr packages lit e = true -> calm lit rest ->
  takes (KUnary lit) (parens (level e <? 6)%nat (expr_tokens e) ++ rest) (IE e) rest.
Proof.
  intros He Hp Hc. destruct (Nat.ltb_spec (level e) 6) as [Hl|Hl]; cbn [parens].
  - cbn [app]. rewrite <- app_assoc. cbn [app].
    eapply k_unary; try reflexivity; [apply inner; assumption|apply post_stop, Hc].
  - destruct (He Hp) as (_ & B & _). apply B; [exact Hl|exact Hc].
Qed.

Lemma at_most n e lv rest i r :
  reads e -> proper_expr packages lit e = true -> lv <= n -> calm lit rest -> tame n rest ->
  takes (KMore lit lv e) rest i r ->
  takes (KExpr lit lv) (parens (level e <? n)%nat (expr_tokens e) ++ rest) i r.
Proof.
  intros He Hp Hlv Hc Ht H. destruct (Nat.ltb_spec (level e) n) as [Hl|Hl]; cbn [parens].
  - cbn [app]. rewrite <- app_assoc. cbn [app]. eapply k_expr; [|exact H].
    eapply k_unary; try reflexivity; [apply inner; assumption|apply post_stop, Hc].
  - destruct (He Hp) as (_ & _ & C). apply C; [lia|exact Hc| |exact H].
    destruct rest as [|[] r']; try exact I. cbn [tame] in *. destruct (binop_of s); [lia|exact I].
Qed.

(** Most expressions only need the first part. *)
Lemma from_seven e :
  level e = 7 ->
  (proper_expr packages lit e = true -> forall rest i r, quiet lit rest ->
     takes (KPost lit e) rest i r -> takes (KUnary lit) (expr_tokens e ++ rest) i r) ->
  reads e.
Proof.
  intros Hl H Hp. specialize (H Hp).
  assert (B : forall rest, calm lit rest -> takes (KUnary lit) (expr_tokens e ++ rest) (IE e) rest).
  { intros rest Hc. apply H; [apply Hc|apply post_stop, Hc]. }
  split; [intros _; exact H|]. split; [intros _; exact B|].
  intros lv rest i r _ Hc _ Hm. eapply k_expr; [apply B, Hc|exact Hm].
Qed.

Lemma from_six e :
  level e = 6 ->
  (proper_expr packages lit e = true -> forall rest, calm lit rest ->
     takes (KUnary lit) (expr_tokens e ++ rest) (IE e) rest) ->
  reads e.
Proof.
  intros Hl B Hp. specialize (B Hp). split; [lia|]. split; [intros _; exact B|].
  intros lv rest i r _ Hc _ Hm. eapply k_expr; [apply B, Hc|exact Hm].
Qed.

Lemma fields_read l rest :
  Forall (fun p => reads (snd p)) l ->
  forallb (fun p => proper_expr packages lit (snd p)) l = true ->
  takes (KFields lit)
    (flat_map (fun p => TName (fst p) :: TOp ":" :: expr_tokens (snd p) ++ [TOp ","]) l ++
     TOp "}" :: rest) (IFs l) rest.
Proof.
  intros Hl. induction Hl as [|[f e] l He Hl IH]; intros Hp; [rule|].
  cbn [forallb snd] in Hp. apply andb_prop in Hp. destruct Hp as [Hp Hps]. specialize (IH Hps).
  cbn [flat_map fst snd app]. rewrite <- !app_assoc. cbn [app].
  cbn [snd] in He.
  match goal with |- takes _ (_ :: _ :: _ ++ TOp "," :: ?t) _ _ =>
    pose proof (whole e (TOp "," :: t) He Hp (closing_calm "," _ eq_refl)
                  (closing_tame "," _ _ eq_refl)) as H end.
  rule.
Qed.

Lemma all_read e : reads e.
Proof.
  induction e using expr_nested_ind.
  - apply from_seven; [reflexivity|]. intros _ rest i r Hq H.
    eapply k_unary; try reflexivity; [|exact H]. rule.
  - apply from_seven; [reflexivity|]. intros Hp rest i r [Hq1 Hq2] H. cbn [proper_expr] in Hp.
    destruct (name_parts x Hp) as (a & t & E & Ha & Hown). destruct (not_reserved a Ha) as (N1 & N2 & _).
    cbn [expr_tokens]. rewrite E. cbn [app].
    eapply k_unary; try reflexivity; [|exact H]. exists 1. cbn [run]. unfold step.
    rewrite N1, N2, Hown, Hq1, Hq2. reflexivity.
  - destruct (Z.ltb_spec z 0) as [Hz|Hz].
    + apply from_six; [cbn [level]; destruct (Z.ltb_spec z 0); [reflexivity|lia]|].
      intros _ rest Hc. cbn [expr_tokens]. destruct (Z.ltb_spec z 0); [|lia].
      exists 1. cbn -[Z.opp]. rewrite Z.opp_involutive. reflexivity.
    + apply from_seven; [cbn [level]; destruct (Z.ltb_spec z 0); [lia|reflexivity]|].
      intros _ rest i r Hq H. cbn [expr_tokens]. destruct (Z.ltb_spec z 0); [lia|].
      eapply k_unary; try reflexivity; [|exact H]. rule.
  - apply from_seven; [reflexivity|]. intros _ rest i r Hq H.
    eapply k_unary; try reflexivity; [|exact H]. rule.
  - apply from_seven; [reflexivity|]. intros _ rest i r Hq H.
    cbn [expr_tokens app]. rewrite <- app_assoc. cbn [app].
    eapply k_unary; try reflexivity; [|exact H]. exists 1. cbn [run]. unfold step. tidy.
    rewrite take_type_tokens by reflexivity. reflexivity.
  - (* Field *) apply from_seven; [reflexivity|]. intros Hp rest i r [Hq1 Hq2] H. cbn [proper_expr] in Hp.
    cbn [expr_tokens]. rewrite <- app_assoc. cbn [app].
    apply at_seven; [exact IHe|exact Hp| |].
    + split; [reflexivity|]. destruct lit; reflexivity.
    + rule. 
  - (* Index *) apply from_seven; [reflexivity|]. intros Hp rest i' r Hq H. cbn [proper_expr] in Hp.
    apply andb_prop in Hp. destruct Hp as [Hp1 Hp2].
    cbn [expr_tokens]. rewrite <- app_assoc. cbn [app]. rewrite <- app_assoc. cbn [app].
    apply at_seven; [exact IHe1|exact Hp1| |].
    + split; [reflexivity|]. destruct lit; reflexivity.
    + pose proof (whole e2 (TOp "]" :: rest) IHe2 Hp2 (closing_calm "]" _ eq_refl)
        (closing_tame "]" _ _ eq_refl)) as Hw. rule.
  - (* Slice *) apply from_seven; [reflexivity|]. intros Hp rest i' r Hq H. cbn [proper_expr] in Hp.
    rewrite !andb_true_iff in Hp. destruct Hp as [[Hp1 Hp2] Hp3].
    cbn [expr_tokens]. rewrite <- app_assoc. cbn [app]. rewrite <- app_assoc. cbn [app].
    rewrite <- app_assoc. cbn [app].
    apply at_seven; [exact IHe1|exact Hp1| |].
    + split; [reflexivity|]. destruct lit; reflexivity.
    + pose proof (whole e3 (TOp "]" :: rest) IHe3 Hp3 (closing_calm "]" _ eq_refl)
        (closing_tame "]" _ _ eq_refl)) as Hw.
      pose proof (whole e2 (TOp ":" :: expr_tokens e3 ++ TOp "]" :: rest) IHe2 Hp2
        (closing_calm ":" _ eq_refl) (closing_tame ":" _ _ eq_refl)) as Hv. rule.
  - (* Call *) apply from_seven; [reflexivity|]. intros Hp rest i r Hq Hk. cbn [proper_expr] in Hp.
    apply andb_prop in Hp. destruct Hp as [Hf Hp].
    destruct (name_parts f Hf) as (a & t & E & Ha & Hown). destruct (not_reserved a Ha) as (N1 & N2 & _).
    cbn [expr_tokens]. fold (exprs_tokens l). rewrite E. rewrite <- app_assoc. cbn [app].
    rewrite <- app_assoc. cbn [app].
    eapply k_unary; try reflexivity; [|exact Hk]. clear Hk.
    destruct (args_read l rest H Hp) as [[-> ->]|[Hn Ht]].
    + exists 1. cbn [run]. unfold step. rewrite N1, N2, Hown. reflexivity.
    + destruct Ht as [n Hn']. exists (S n). cbn [run]. unfold step. rewrite N1, N2, Hown. tidy.
      rewrite Hn, Hn'. reflexivity.
  - (* Method *) apply from_seven; [reflexivity|]. intros Hp rest i r Hq Hk. cbn [proper_expr] in Hp.
    apply andb_prop in Hp. destruct Hp as [Hf Hp].
    cbn [expr_tokens]. fold (exprs_tokens l). rewrite <- app_assoc. cbn [app].
    rewrite <- app_assoc. cbn [app].
    apply at_seven; [exact IHe|exact Hf| |].
    + split; [reflexivity|]. destruct lit; reflexivity.
    + destruct (args_read l rest H Hp) as [[-> ->]|[Hn Ht]]; rule.
  - (* Addr *) apply from_six; [reflexivity|]. intros Hp rest Hc. cbn [proper_expr] in Hp.
    cbn [expr_tokens app]. pose proof (at_six e rest IHe Hp Hc) as H. rule.
  - (* Not *) apply from_six; [reflexivity|]. intros Hp rest Hc. cbn [proper_expr] in Hp.
    cbn [expr_tokens app]. pose proof (at_six e rest IHe Hp Hc) as H. rule.
  - (* Bin *)
    intros Hp. cbn [proper_expr] in Hp. apply andb_prop in Hp. destruct Hp as [Hp1 Hp2].
    cbn [level]. split; [destruct o; discriminate|]. split; [destruct o; cbn; lia|].
    intros lv rest i r Hlv Hc Ht Hm. cbn [expr_tokens]. rewrite <- app_assoc. cbn [app].
    assert (Ho : binop_of (op_text o) = Some o) by (destruct o; reflexivity).
    apply (at_most (strength o)); [exact IHe1|exact Hp1|exact Hlv| | |].
    + unfold calm, quiet. destruct o; cbn; destruct lit; repeat split.
    + cbn [tame]. rewrite Ho. lia.
    + pose proof (at_most (S (strength o)) e2 (S (strength o)) rest (IE e2) rest IHe2 Hp2 (le_n _) Hc) as H2.
      specialize (H2 ltac:(destruct rest as [|[] r']; try exact I; cbn [tame] in *; destruct (binop_of s); [lia|exact I])).
      specialize (H2 (more_stop lit _ e2 rest _ Ht (le_n _))).
      gather. exists (S N). cbn [run]. unfold step. rewrite Ho.
      destruct (Nat.leb_spec lv (strength o)); [|lia]. rewrite H2. exact Hm.
  - (* Lit *) apply from_seven; [reflexivity|]. intros Hp rest i r Hq Hk. cbn [proper_expr] in Hp.
    rewrite !andb_true_iff in Hp. destruct Hp as [[Hlit Hf] Hp].
    destruct (name_parts t Hf) as (a & t' & E & Ha & Hown). destruct (not_reserved a Ha) as (N1 & N2 & _).
    pose proof (fields_read l rest H Hp) as Hfs.
    cbn [expr_tokens]. rewrite E. rewrite <- app_assoc. cbn [app].
    rewrite <- app_assoc. cbn [app].
    eapply k_unary; try reflexivity; [|exact Hk].
    destruct Hfs as [n Hn]. exists (S n). cbn [run]. unfold step. rewrite N1, N2, Hown. tidy.
    rewrite Hlit in *. tidy. rewrite Hn. reflexivity.
Qed.

End Expr.

(** *** Statements *)

Lemma expr_read lit e rest :
  proper_expr packages lit e = true -> calm lit rest -> tame 0 rest ->
  takes (KExpr lit 0) (expr_tokens e ++ rest) (IE e) rest.
Proof. intros. apply whole; auto. apply all_read. Qed.

Lemma exprs_read lit l rest :
  l <> [] -> forallb (proper_expr packages lit) l = true ->
  calm lit rest -> tame 0 rest -> is_op "," rest = None ->
  takes (KExprs lit) (exprs_tokens l ++ rest) (IEs l) rest.
Proof. intros. apply list_reads; auto. apply Forall_forall. intros. apply all_read. Qed.

Lemma some_not_nil {A} (l : list A) : some l = true -> l <> [].
Proof. destruct l; discriminate. Qed.

Lemma names_are_vars xs lit :
  forallb (own_name packages) xs = true ->
  commas (map (fun x => [TName x]) xs) = exprs_tokens (map Var xs) /\
  forallb (proper_expr packages lit) (map Var xs) = true /\ var_names (map Var xs) = Some xs.
Proof.
  intros H. assert (E : map (fun x => [TName x]) xs = map expr_tokens (map Var xs) /\
    forallb (proper_expr packages lit) (map Var xs) = true /\ var_names (map Var xs) = Some xs).
  { induction xs as [|x xs IH]; [repeat split|]. cbn [forallb] in H. apply andb_prop in H.
    destruct H as [Hx Hxs]. destruct (IH Hxs) as (E1 & E2 & E3).
    destruct (own_parts x Hx) as (N1 & N2 & _). cbn [map forallb var_names expr_tokens proper_expr var_name].
    rewrite N1, N2, E2, E3, E1. repeat split. }
  unfold exprs_tokens. destruct E as (-> & E). split; [reflexivity|exact E].
Qed.

(** A simple statement is its expressions and what comes after them. *)
Lemma simple_read lit s rest :
  proper_simple packages lit s = true -> calm lit rest -> tame 0 rest ->
  (forall o, In o [":="; "="; "+="; "++"; ","] -> is_op o rest = None) ->
  exists es t, takes (KExprs lit) (stmt_tokens s ++ rest) (IEs es) t /\
    takes (KTail lit es) t (IS s) rest /\ begins (stmt_tokens s) /\
    (is_op "{" t = None \/ t = rest /\ exists e, s = Do e) /\
    match is_op ":=" t with Some t' => is_kw "range" t' | None => None end = None.
Proof.
  intros Hp Hc Ht Hn. destruct s; try discriminate Hp; cbn [proper_simple] in Hp.
  - (* Define *)
    rewrite !andb_true_iff in Hp. destruct Hp as [[Hs Hx] He].
    destruct (names_are_vars xs lit Hx) as (E1 & E2 & E3).
    assert (Hne : map Var xs <> []) by (destruct xs; discriminate).
    exists (map Var xs), (TOp ":=" :: expr_tokens e ++ rest). cbn [stmt_tokens].
    rewrite E1, <- app_assoc. cbn [app]. repeat split.
    + apply exprs_read; auto; [apply closing_calm|apply closing_tame]; reflexivity.
    + pose proof (expr_read lit e rest He Hc Ht) as H. destruct H as [n H]. exists (S n).
      cbn [run]. unfold step. tidy. rewrite E3, H. reflexivity.
    + apply begins_app. exact (exprs_begin lit _ Hne E2).
    + left. reflexivity.
    + tidy. apply begins_no_kw; [apply begins_app, (expr_begins lit), He|reflexivity].
  - (* Assign *)
    rewrite !andb_true_iff in Hp. destruct Hp as [[Hs Hx] He]. apply some_not_nil in Hs.
    exists ls, (TOp "=" :: expr_tokens e ++ rest). cbn [stmt_tokens]. rewrite <- app_assoc. cbn [app].
    repeat split.
    + apply exprs_read; auto; [apply closing_calm|apply closing_tame]; reflexivity.
    + pose proof (expr_read lit e rest He Hc Ht) as H. rule.
    + apply begins_app. exact (exprs_begin lit _ Hs Hx).
    + left. reflexivity.
  - (* AddAssign *)
    apply andb_prop in Hp. destruct Hp as [Hl He].
    assert (Hl' : forallb (proper_expr packages lit) [l] = true) by (cbn; rewrite Hl; reflexivity).
    assert (Hcase : (e = Int 1 /\ stmt_tokens (AddAssign l e) = expr_tokens l ++ [TOp "++"]) \/
      stmt_tokens (AddAssign l e) = expr_tokens l ++ TOp "+=" :: expr_tokens e).
    { destruct e; try (right; reflexivity). destruct z as [|[]|]; try (right; reflexivity).
      left; split; reflexivity. }
    destruct Hcase as [[-> ->]| ->]; rewrite <- app_assoc; cbn [app].
    + exists [l], (TOp "++" :: rest). repeat split.
      * apply (exprs_read lit [l]); auto; [discriminate|apply closing_calm|apply closing_tame]; reflexivity.
      * rule.
      * apply begins_app, (expr_begins lit), Hl.
      * left. reflexivity.
    + exists [l], (TOp "+=" :: expr_tokens e ++ rest). repeat split.
      * apply (exprs_read lit [l]); auto; [discriminate|apply closing_calm|apply closing_tame]; reflexivity.
      * pose proof (expr_read lit e rest He Hc Ht) as H. rule.
      * apply begins_app, (expr_begins lit), Hl.
      * left. reflexivity.
  - (* Do *)
    assert (He' : forallb (proper_expr packages lit) [e] = true) by (cbn; rewrite Hp; reflexivity).
    exists [e], rest. cbn [stmt_tokens]. repeat split.
    + apply (exprs_read lit [e]); auto; [discriminate|]. apply Hn. cbn. tauto.
    + assert (N1 : is_op ":=" rest = None) by (apply Hn; cbn; tauto).
      assert (N2 : is_op "=" rest = None) by (apply Hn; cbn; tauto).
      assert (N3 : is_op "+=" rest = None) by (apply Hn; cbn; tauto).
      assert (N4 : is_op "++" rest = None) by (apply Hn; cbn; tauto). rule.
    + apply (expr_begins lit), Hp.
    + right. split; [reflexivity|]. exists e. reflexivity.
    + rewrite Hn by (cbn; tauto). reflexivity.
Qed.

Lemma stmt_nested_ind (P : stmt -> Prop)
  (hDefine : forall xs e, P (Define xs e)) (hAssign : forall ls e, P (Assign ls e))
  (hAdd : forall l e, P (AddAssign l e)) (hVar : forall x t, P (VarDecl x t))
  (hDo : forall e, P (Do e))
  (hIf : forall c a b, Forall P a -> Forall P b -> P (If c a b))
  (hFor : forall i c p b, Forall P b -> P (For i c p b))
  (hRange : forall k v e b, Forall P b -> P (Range k v e b))
  (hSwitch : forall e cs d, Forall (fun p => Forall P (snd p)) cs -> Forall P d -> P (Switch e cs d))
  (hBreak : P Break) (hReturn : forall es, P (Return es)) :
  forall s, P s.
Proof.
  fix go 1. intros s. destruct s.
  - apply hDefine.
  - apply hAssign.
  - apply hAdd.
  - apply hVar.
  - apply hDo.
  - apply hIf; [clear b; rename a into l|rename b into l];
      (induction l as [|s l IH]; constructor; [apply go|exact IH]).
  - apply hFor. induction body as [|s l IH]; constructor; [apply go|exact IH].
  - apply hRange. induction body as [|s l IH]; constructor; [apply go|exact IH].
  - apply hSwitch.
    + clear default. induction cases as [|[v b] l IH]; constructor; [|exact IH]. cbn [snd].
      clear IH. induction b as [|s b IH]; constructor; [apply go|exact IH].
    + induction default as [|s l IH]; constructor; [apply go|exact IH].
  - exact hBreak.
  - apply hReturn.
Qed.

Definition stands (ts : list token) : Prop :=
  is_op "}" ts = None /\ is_kw "case" ts = None /\ is_kw "default" ts = None.

Lemma begins_stands ts : begins ts -> stands ts.
Proof.
  intros H. repeat split; [apply begins_no_op|apply begins_no_kw|apply begins_no_kw]; auto; reflexivity.
Qed.

Definition stmt_reads (s : stmt) : Prop :=
  proper_stmt packages s = true -> forall rest,
  takes KStmt (stmt_tokens s ++ TOp ";" :: rest) (IS s) (TOp ";" :: rest) /\
  stands (stmt_tokens s ++ TOp ";" :: rest).

(** What ends a list of statements. *)
Definition stops (ts : list token) : bool :=
  match is_op "}" ts, is_kw "case" ts, is_kw "default" ts with
  | None, None, None => false | _, _, _ => true
  end.

Lemma stmts_read l rest :
  Forall stmt_reads l -> forallb (proper_stmt packages) l = true -> stops rest = true ->
  takes KStmts (stmts_tokens l ++ rest) (ISs l) rest.
Proof.
  intros Hl. induction Hl as [|s l Hs Hl IH]; intros Hp Hr.
  - cbn [stmts_tokens flat_map app]. exists 1. cbn [run]. unfold step. unfold stops in Hr.
    destruct (is_op "}" rest); [reflexivity|]. destruct (is_kw "case" rest); [reflexivity|].
    destruct (is_kw "default" rest); [reflexivity|discriminate].
  - cbn [forallb] in Hp. apply andb_prop in Hp. destruct Hp as [Hp Hps].
    specialize (IH Hps Hr). unfold stmts_tokens in *. cbn [flat_map].
    rewrite <- !app_assoc. cbn [app].
    destruct (Hs Hp (flat_map (fun s => stmt_tokens s ++ [TOp ";"]) l ++ rest)) as [H (N1 & N2 & N3)].
    rule.
Qed.

Lemma block_read l rest :
  Forall stmt_reads l -> forallb (proper_stmt packages) l = true ->
  takes KBlock (block_tokens l ++ rest) (ISs l) rest.
Proof.
  intros Hl Hp. unfold block_tokens. cbn [app]. rewrite <- app_assoc. cbn [app].
  pose proof (stmts_read l (TOp "}" :: rest) Hl Hp eq_refl) as H. rule.
Qed.

Lemma head_calm r : calm false (TOp "{" :: r).
Proof. repeat split. Qed.

Lemma stmt_simple s :
  proper_simple packages true s = true -> forall rest,
  takes KStmt (stmt_tokens s ++ TOp ";" :: rest) (IS s) (TOp ";" :: rest) /\
  stands (stmt_tokens s ++ TOp ";" :: rest).
Proof.
  intros Hp rest.
  destruct (simple_read true s (TOp ";" :: rest) Hp) as (es & t & H1 & H2 & H3 & _ & _).
  - apply closing_calm. reflexivity.
  - apply closing_tame. reflexivity.
  - intros o Ho. cbn [In] in Ho. repeat (destruct Ho as [<-|Ho]; [reflexivity|]). contradiction.
  - split; [|apply begins_stands, begins_app, H3].
    apply begins_app with (r := TOp ";" :: rest) in H3.
    assert (N1 : is_kw "return" (stmt_tokens s ++ TOp ";" :: rest) = None) by (apply begins_no_kw; auto).
    assert (N2 : is_kw "break" (stmt_tokens s ++ TOp ";" :: rest) = None) by (apply begins_no_kw; auto).
    assert (N3 : is_kw "var" (stmt_tokens s ++ TOp ";" :: rest) = None) by (apply begins_no_kw; auto).
    assert (N4 : is_kw "if" (stmt_tokens s ++ TOp ";" :: rest) = None) by (apply begins_no_kw; auto).
    assert (N5 : is_kw "switch" (stmt_tokens s ++ TOp ";" :: rest) = None) by (apply begins_no_kw; auto).
    assert (N6 : is_kw "for" (stmt_tokens s ++ TOp ";" :: rest) = None) by (apply begins_no_kw; auto).
    rule.
Qed.

Definition else_tokens (b : list stmt) : list token :=
  match b with
  | [] => []
  | [If _ _ _ as s'] => TName "else" :: stmt_tokens s'
  | _ => TName "else" :: block_tokens b
  end.

Lemma if_tokens c a b :
  stmt_tokens (If c a b) = TName "if" :: expr_tokens c ++ block_tokens a ++ else_tokens b.
Proof. reflexivity. Qed.

Lemma else_cases b :
  (b = [] /\ else_tokens b = []) \/
  (exists c x y, b = [If c x y] /\ else_tokens b = TName "else" :: stmt_tokens (If c x y)) \/
  else_tokens b = TName "else" :: block_tokens b.
Proof.
  destruct b as [|s [|s' b]]; [left; split; reflexivity| |right; right; destruct s; reflexivity].
  destruct s; try (right; right; reflexivity). right; left. exists c, a, b. split; reflexivity.
Qed.

Lemma cases_read cs d rest :
  Forall (fun p => Forall stmt_reads (snd p)) cs -> Forall stmt_reads d ->
  forallb (fun p => proper_expr packages true (fst p) && forallb (proper_stmt packages) (snd p)) cs = true ->
  forallb (proper_stmt packages) d = true ->
  takes KCases
    (flat_map (fun p => TName "case" :: expr_tokens (fst p) ++ TOp ":" :: stmts_tokens (snd p)) cs ++
     match d with [] => [] | _ => TName "default" :: TOp ":" :: stmts_tokens d end ++ TOp "}" :: rest)
    (ICs cs d) rest /\
  stops (flat_map (fun p => TName "case" :: expr_tokens (fst p) ++ TOp ":" :: stmts_tokens (snd p)) cs ++
     match d with [] => [] | _ => TName "default" :: TOp ":" :: stmts_tokens d end ++ TOp "}" :: rest) = true.
Proof.
  intros Hcs Hd Hp Hpd. induction Hcs as [|[v b] cs Hb Hcs IH].
  - cbn [flat_map app]. destruct d as [|s d].
    + split; [|reflexivity]. rule.
    + pose proof (stmts_read (s :: d) (TOp "}" :: rest) Hd Hpd eq_refl) as H.
      split; [|reflexivity]. cbn [app]. rule.
  - cbn [forallb fst snd] in Hp. rewrite !andb_true_iff in Hp. destruct Hp as [[Hv Hb'] Hp].
    destruct (IH Hp) as [H Hst]. cbn [snd] in Hb. cbn [flat_map fst snd app].
    split; [|reflexivity]. repeat (rewrite <- !app_assoc; cbn [app]).
    pose proof (stmts_read b _ Hb Hb' Hst) as H2.
    match type of H2 with takes _ ?ts _ _ =>
      pose proof (expr_read true v (TOp ":" :: ts) Hv (closing_calm true ":" _ eq_refl)
                    (closing_tame ":" _ _ eq_refl)) as H3 end.
    rule.
Qed.

Lemma stmt_read s : stmt_reads s.
Proof.
  induction s using stmt_nested_ind; intros Hp rest; cbn [proper_stmt] in Hp.
  - apply stmt_simple; auto.
  - apply stmt_simple; auto.
  - apply stmt_simple; auto.
  - split; [|repeat split]. cbn [stmt_tokens app]. exists 1. cbn [run]. unfold step. tidy.
    rewrite take_type_tokens by reflexivity. reflexivity.
  - apply stmt_simple; auto.
  - (* If *)
    rewrite !andb_true_iff in Hp. destruct Hp as [[Hc Ha] Hb]. split; [|repeat split].
    rewrite if_tokens. cbn [app]. rewrite <- !app_assoc.
    pose proof (block_read a (else_tokens b ++ TOp ";" :: rest) H Ha) as H2.
    match type of H2 with takes _ ?ts _ _ => pose proof (expr_read false c ts Hc (head_calm _) I) as H1 end.
    destruct (else_cases b) as [[-> E]|[(c' & x & y & -> & E)|E]]; rewrite E in *; cbn [app] in *.
    + rule.
    + inversion H0 as [|? ? Hs _]; subst. cbn [forallb] in Hb. apply andb_prop in Hb.
      destruct (Hs (proj1 Hb) rest) as [H3 _]. rewrite if_tokens in *. cbn [app] in *. rule.
    + pose proof (block_read b (TOp ";" :: rest) H0 Hb) as H3.
      assert (N : is_kw "if" (block_tokens b ++ TOp ";" :: rest) = None) by reflexivity. rule.
  - (* For *)
    rewrite !andb_true_iff in Hp. destruct Hp as [[Hip Hc] Hb]. split; [|repeat split].
    pose proof (block_read b (TOp ";" :: rest) H Hb) as HB.
    destruct i as [|i [|]]; destruct p as [|p [|]]; try discriminate Hip.
    + change (stmt_tokens (For [] c [] b)) with (TName "for" :: expr_tokens c ++ block_tokens b).
      cbn [app]. rewrite <- app_assoc.
      assert (Hc' : forallb (proper_expr packages false) [c] = true) by (cbn; rewrite Hc; reflexivity).
      pose proof (exprs_read false [c] (block_tokens b ++ TOp ";" :: rest) ltac:(discriminate) Hc'
                    (head_calm _) I eq_refl) as H1.
      unfold exprs_tokens in H1. cbn [map commas] in H1.
      assert (N1 : is_op ":=" (block_tokens b ++ TOp ";" :: rest) = None) by reflexivity.
      assert (N2 : exists t, is_op "{" (block_tokens b ++ TOp ";" :: rest) = Some t) by (eexists; reflexivity).
      destruct N2 as [t N2]. rule.
    + apply andb_prop in Hip. destruct Hip as [Hi Hpp].
      assert (E : stmt_tokens (For [i] c [p] b) =
        TName "for" :: (stmt_tokens i ++ TOp ";" :: expr_tokens c ++ TOp ";" :: stmt_tokens p) ++ block_tokens b).
      { cbn [stmt_tokens flat_map]. rewrite !app_nil_r. reflexivity. }
      rewrite E. clear E. cbn [app]. repeat (rewrite <- !app_assoc; cbn [app]).
      assert (Nb : forall o, In o [":="; "="; "+="; "++"; ","] ->
                   is_op o (block_tokens b ++ TOp ";" :: rest) = None).
      { intros o Ho. cbn [In] in Ho. repeat (destruct Ho as [<-|Ho]; [reflexivity|]). contradiction. }
      destruct (simple_read false p (block_tokens b ++ TOp ";" :: rest) Hpp (head_calm _) I Nb)
        as (es2 & t2 & P1 & P2 & _ & _ & _).
      set (R := stmt_tokens p ++ block_tokens b ++ TOp ";" :: rest) in *.
      pose proof (expr_read false c (TOp ";" :: R) Hc (closing_calm false ";" _ eq_refl)
                    (closing_tame ";" _ _ eq_refl)) as HC.
      destruct (simple_read false i (TOp ";" :: expr_tokens c ++ TOp ";" :: R) Hi
                  (closing_calm false ";" _ eq_refl) (closing_tame ";" _ _ eq_refl))
        as (es1 & t1 & I1 & I2 & _ & I3 & I4).
      { intros o Ho. cbn [In] in Ho. repeat (destruct Ho as [<-|Ho]; [reflexivity|]). contradiction. }
      assert (N1 : is_op "{" t1 = None) by (destruct I3 as [I3|[-> _]]; [exact I3|reflexivity]).
      gather. exists (S N4). cbn [run]. unfold step. tidy. rewrite I1. rewrite I4, N1, I2. tidy. rewrite HC. tidy.
      rewrite P1, P2, HB. reflexivity.
  - (* Range *)
    rewrite !andb_true_iff in Hp. destruct Hp as [[[Hk Hv] He] Hb]. split; [|repeat split].
    pose proof (block_read b (TOp ";" :: rest) H Hb) as HB.
    pose proof (expr_read false e (block_tokens b ++ TOp ";" :: rest) He (head_calm _) I) as HE.
    assert (E : stmt_tokens (Range k v e b) = TName "for" :: TName k ::
      (if String.eqb v "_" then [] else [TOp ","; TName v]) ++
      TOp ":=" :: TName "range" :: expr_tokens e ++ block_tokens b) by reflexivity.
    rewrite E. clear E. destruct (String.eqb_spec v "_") as [->|Hv'].
    + cbn [app]. rewrite <- app_assoc.
      assert (Hx : forallb (own_name packages) [k] = true) by (cbn; rewrite Hk; reflexivity).
      destruct (names_are_vars [k] false Hx) as (E1 & E2 & E3).
      pose proof (exprs_read false (map Var [k])
        (TOp ":=" :: TName "range" :: expr_tokens e ++ block_tokens b ++ TOp ";" :: rest)
        ltac:(discriminate) E2 (closing_calm false ":=" _ eq_refl) (closing_tame ":=" _ _ eq_refl) eq_refl) as H1.
      rewrite <- E1 in H1. cbn [map commas app] in H1. cbn [map] in E3. rule.
    + cbn [app]. rewrite <- app_assoc.
      assert (Hx : forallb (own_name packages) [k; v] = true) by (cbn; rewrite Hk, Hv; reflexivity).
      destruct (names_are_vars [k; v] false Hx) as (E1 & E2 & E3).
      pose proof (exprs_read false (map Var [k; v])
        (TOp ":=" :: TName "range" :: expr_tokens e ++ block_tokens b ++ TOp ";" :: rest)
        ltac:(discriminate) E2 (closing_calm false ":=" _ eq_refl) (closing_tame ":=" _ _ eq_refl) eq_refl) as H1.
      rewrite <- E1 in H1. cbn [map commas app] in H1. cbn [map] in E3. rule.
  - (* Switch *)
    rewrite !andb_true_iff in Hp. destruct Hp as [[He Hcs] Hd]. split; [|repeat split].
    destruct (cases_read cs d (TOp ";" :: rest) H H0 Hcs Hd) as [HC _].
    assert (E : stmt_tokens (Switch e cs d) = TName "switch" :: expr_tokens e ++ TOp "{" ::
      flat_map (fun p => TName "case" :: expr_tokens (fst p) ++ TOp ":" :: stmts_tokens (snd p)) cs ++
      match d with [] => [] | _ => TName "default" :: TOp ":" :: stmts_tokens d end ++ [TOp "}"]) by reflexivity.
    rewrite E. clear E. cbn [app]. repeat (rewrite <- !app_assoc; cbn [app]).
    match type of HC with takes _ ?ts _ _ =>
      pose proof (expr_read false e (TOp "{" :: ts) He (head_calm _) I) as HE end.
    rule.
  - split; [|repeat split]. cbn [stmt_tokens app]. rule.
  - (* Return *)
    split; [|repeat split]. cbn [stmt_tokens app]. destruct es as [|e es].
    + cbn. rule.
    + assert (Hne : e :: es <> []) by discriminate.
      pose proof (exprs_read true (e :: es) (TOp ";" :: rest) Hne Hp (closing_calm true ";" _ eq_refl)
        (closing_tame ";" _ _ eq_refl) eq_refl) as H.
      assert (N : is_op ";" (exprs_tokens (e :: es) ++ TOp ";" :: rest) = None).
      { apply begins_no_op; [|reflexivity]. apply begins_app, (exprs_begin true); assumption. }
      rule.
Qed.

Lemma body_inj b1 b2 r1 r2 :
  forallb (proper_stmt packages) b1 = true -> forallb (proper_stmt packages) b2 = true ->
  block_tokens b1 ++ r1 = block_tokens b2 ++ r2 -> b1 = b2 /\ r1 = r2.
Proof.
  intros H1 H2 E.
  assert (A : forall l, Forall stmt_reads l) by (intros l; apply Forall_forall; intros; apply stmt_read).
  pose proof (block_read b1 r1 (A b1) H1) as T1. pose proof (block_read b2 r2 (A b2) H2) as T2.
  rewrite E in T1. destruct (takes_fun _ _ _ _ _ _ T1 T2) as [E1 ->]. injection E1 as ->.
  split; reflexivity.
Qed.

End Reader.

(** ** Files *)

Lemma typed_inj p q r s :
  typed_tokens p ++ r = typed_tokens q ++ s -> no_dot r = true -> no_dot s = true -> p = q /\ r = s.
Proof.
  destruct p as [x t], q as [y u]. unfold typed_tokens. cbn [fst snd app]. intros H Hr Hs.
  injection H as -> H. destruct (type_tokens_inj t u r s H Hr Hs) as [-> ->]. split; reflexivity.
Qed.

(** Lists of things in commas, up to a closing parenthesis. *)
Lemma commas_inj {A} (f : A -> list token) :
  (forall a b r s, f a ++ r = f b ++ s -> no_dot r = true -> no_dot s = true -> a = b /\ r = s) ->
  (forall a, exists t u, f a = t :: u /\ t <> TOp ")") ->
  forall l m r s,
  commas (map f l) ++ TOp ")" :: r = commas (map f m) ++ TOp ")" :: s -> l = m /\ r = s.
Proof.
  intros Hf Hh. assert (Hne : forall a l r s, TOp ")" :: s <> commas (map f (a :: l)) ++ r).
  { intros a l r s H. destruct (Hh a) as (t & u & E & Ht). cbn [map] in H.
    destruct l; cbn [map commas] in H; rewrite E in H; cbn [app] in H; injection H as H _; congruence. }
  induction l as [|a l IH]; intros m r s H.
  - destruct m as [|b m]; [injection H as ->; split; reflexivity|].
    exfalso. exact (Hne _ _ _ _ H).
  - destruct m as [|b m]; [exfalso; symmetry in H; exact (Hne _ _ _ _ H)|].
    destruct l as [|a' l], m as [|b' m].
    + cbn [map commas] in H. destruct (Hf a b _ _ H eq_refl eq_refl) as [-> E].
      injection E as ->. split; reflexivity.
    + cbn [map commas] in H. rewrite <- app_assoc in H. cbn [app] in H.
      destruct (Hf a b _ _ H eq_refl eq_refl) as [_ E]. discriminate E.
    + cbn [map commas] in H. rewrite <- app_assoc in H. cbn [app] in H.
      destruct (Hf a b _ _ H eq_refl eq_refl) as [_ E]. discriminate E.
    + change (commas (map f (a :: a' :: l))) with (f a ++ TOp "," :: commas (map f (a' :: l))) in H.
      change (commas (map f (b :: b' :: m))) with (f b ++ TOp "," :: commas (map f (b' :: m))) in H.
      rewrite <- !app_assoc in H. cbn [app] in H.
      destruct (Hf a b _ _ H eq_refl eq_refl) as [-> E]. injection E as E.
      destruct (IH (b' :: m) r s E) as [-> ->]. split; reflexivity.
Qed.

Lemma params_inj l m r s :
  commas (map typed_tokens l) ++ TOp ")" :: r = commas (map typed_tokens m) ++ TOp ")" :: s ->
  l = m /\ r = s.
Proof.
  apply commas_inj; [exact typed_inj|]. intros a. do 2 eexists. split; [reflexivity|discriminate].
Qed.

Lemma type_head t : exists x u, type_tokens t = x :: u /\ x <> TOp ")" /\ x <> TOp "(" /\ x <> TOp "{" /\ x <> TOp "=".
Proof.
  destruct (type_tokens_cases t) as [(u & _ & ->)|[(u & _ & ->)| ->]].
  - do 2 eexists. split; [reflexivity|]. repeat split; discriminate.
  - do 2 eexists. split; [reflexivity|]. repeat split; discriminate.
  - unfold name_tokens. destruct (split_dot t) as [[a b]|];
      (do 2 eexists; split; [reflexivity|]; repeat split; discriminate).
Qed.

Lemma types_inj l m r s :
  commas (map type_tokens l) ++ TOp ")" :: r = commas (map type_tokens m) ++ TOp ")" :: s ->
  l = m /\ r = s.
Proof.
  apply commas_inj; [exact type_tokens_inj|]. intros a.
  destruct (type_head a) as (x & u & E & Hx & _). exists x, u. split; assumption.
Qed.

Definition result_tokens (rs : list string) : list token :=
  match rs with
  | [] => []
  | [t] => type_tokens t
  | _ => TOp "(" :: commas (map type_tokens rs) ++ [TOp ")"]
  end.

Lemma results_inj l m a b r s :
  result_tokens l ++ block_tokens a ++ r = result_tokens m ++ block_tokens b ++ s ->
  l = m /\ block_tokens a ++ r = block_tokens b ++ s.
Proof.
  assert (Hb : forall a r, exists t, block_tokens a ++ r = TOp "{" :: t) by (intros; eexists; reflexivity).
  destruct (Hb a r) as [ta Ea]. destruct (Hb b s) as [tb Eb].
  destruct l as [|t [|t' l]], m as [|u [|u' m]]; cbn [result_tokens]; intros H.
  - split; [reflexivity|exact H].
  - exfalso. cbn [app] in H. rewrite Ea in H. destruct (type_head u) as (x & v & E & _ & _ & Hx & _).
    rewrite E in H. injection H as H _. congruence.
  - exfalso. cbn [app] in H. rewrite Ea in H. discriminate H.
  - exfalso. cbn [app] in H. rewrite Eb in H. destruct (type_head t) as (x & v & E & _ & _ & Hx & _).
    rewrite E in H. injection H as H _. congruence.
  - rewrite Ea, Eb in *. destruct (type_tokens_inj t u _ _ H eq_refl eq_refl) as [-> E]. split; [reflexivity|exact E].
  - exfalso. destruct (type_head t) as (x & v & E & _ & Hx & _). rewrite E in H.
    cbn [app] in H. injection H as H _. congruence.
  - exfalso. cbn [app] in H. rewrite Eb in H. discriminate H.
  - exfalso. destruct (type_head u) as (x & v & E & _ & Hx & _). rewrite E in H.
    cbn [app] in H. injection H as H _. congruence.
  - apply (f_equal (@tl token)) in H. cbn [tl app] in H. rewrite <- !app_assoc in H. cbn [app] in H.
    destruct (types_inj (t :: t' :: l) (u :: u' :: m) _ _ H) as [-> E]. split; [reflexivity|exact E].
Qed.

Lemma struct_inj l m r s :
  flat_map (fun p => typed_tokens p ++ [TOp ";"]) l ++ TOp "}" :: r =
  flat_map (fun p => typed_tokens p ++ [TOp ";"]) m ++ TOp "}" :: s -> l = m /\ r = s.
Proof.
  revert m. induction l as [|p l IH]; intros [|q m] H; cbn [flat_map app] in H.
  - injection H as ->. split; reflexivity.
  - unfold typed_tokens in H. discriminate H.
  - unfold typed_tokens in H. discriminate H.
  - rewrite <- !app_assoc in H. cbn [app] in H.
    destruct (typed_inj p q _ _ H eq_refl eq_refl) as [-> E]. injection E as E.
    destruct (IH m E) as [-> ->]. split; reflexivity.
Qed.

Lemma texts_inj l m r s :
  flat_map (fun w => [TStr w; TOp ","]) l ++ TOp "}" :: r =
  flat_map (fun w => [TStr w; TOp ","]) m ++ TOp "}" :: s -> l = m /\ r = s.
Proof.
  revert m. induction l as [|p l IH]; intros [|q m] H; cbn [flat_map app] in H; try discriminate H.
  - injection H as ->. split; reflexivity.
  - injection H as -> H. destruct (IH m H) as [-> ->]. split; reflexivity.
Qed.

Lemma name_inj x y r s :
  name_tokens x ++ r = name_tokens y ++ s -> no_dot r = true -> no_dot s = true -> x = y /\ r = s.
Proof.
  intros H Hr Hs. pose proof (take_name x r Hr) as E. rewrite H, take_name in E by exact Hs.
  injection E as -> ->. split; reflexivity.
Qed.

Lemma func_tokens r n ps rs b :
  decl_tokens (DFunc r n ps rs b) =
  TName "func" ::
  match r with None => [] | Some p => TOp "(" :: typed_tokens p ++ [TOp ")"] end ++
  TName n :: TOp "(" :: commas (map typed_tokens ps) ++ TOp ")" :: result_tokens rs ++ block_tokens b.
Proof. reflexivity. Qed.

Lemma decl_inj packages d e r s :
  proper_decl packages d = true -> proper_decl packages e = true ->
  decl_tokens d ++ TOp ";" :: r = decl_tokens e ++ TOp ";" :: s -> d = e /\ r = s.
Proof.
  assert (V : forall x t y u ws v w, decl_tokens (DVar x t) ++ v <> decl_tokens (DList y u ws) ++ w).
  { intros x t y u ws v w H. cbn [decl_tokens app] in H. injection H as _ H.
    destruct (type_head t) as (h & v' & E & _ & _ & _ & Hh). rewrite E in H. injection H as H _. congruence. }
  assert (T : forall n t m fs v w, decl_tokens (DType n t) ++ TOp ";" :: v <> decl_tokens (DStruct m fs) ++ w).
  { intros n t m fs v w H. cbn [decl_tokens app] in H. injection H as _ H.
    change (TName "struct" :: ?x) with (type_tokens "struct" ++ x) in H.
    destruct (type_tokens_inj t "struct" _ _ H eq_refl eq_refl) as [_ E]. discriminate E. }
  destruct d as [x t|n fs|n t|x t ws|rc n ps rs b], e as [y u|m gs|m u|y u vs|rd m qs us c]; intros Hd He H;
    try (rewrite ?func_tokens in H; cbn [decl_tokens app] in H; discriminate H);
    try (exfalso; exact (V _ _ _ _ _ _ _ H)); try (exfalso; exact (V _ _ _ _ _ _ _ (eq_sym H)));
    try (exfalso; exact (T _ _ _ _ _ _ H)); try (exfalso; exact (T _ _ _ _ _ _ (eq_sym H))).
  - cbn [decl_tokens app] in H. injection H as -> H.
    destruct (type_tokens_inj t u _ _ H eq_refl eq_refl) as [-> E]. injection E as ->. split; reflexivity.
  - cbn [decl_tokens app] in H. injection H as -> H. rewrite <- !app_assoc in H. cbn [app] in H.
    destruct (struct_inj fs gs _ _ H) as [-> E]. injection E as ->. split; reflexivity.
  - cbn [decl_tokens app] in H. injection H as -> H.
    destruct (type_tokens_inj t u _ _ H eq_refl eq_refl) as [-> E]. injection E as ->. split; reflexivity.
  - cbn [decl_tokens app] in H. injection H as -> H. rewrite <- !app_assoc in H. cbn [app] in H.
    rewrite <- !app_assoc in H. cbn [app] in H.
    destruct (name_inj t u _ _ H eq_refl eq_refl) as [-> E]. injection E as E.
    destruct (texts_inj ws vs _ _ E) as [-> E']. injection E' as ->. split; reflexivity.
  - rewrite !func_tokens in H. cbn [app] in H. injection H as H. rewrite <- !app_assoc in H.
    assert (E : rc = rd /\ TName n :: TOp "(" :: commas (map typed_tokens ps) ++ TOp ")" ::
                            result_tokens rs ++ block_tokens b ++ TOp ";" :: r =
                          TName m :: TOp "(" :: commas (map typed_tokens qs) ++ TOp ")" ::
                            result_tokens us ++ block_tokens c ++ TOp ";" :: s).
    { destruct rc as [p|], rd as [q|]; cbn [app] in H; try discriminate H.
      - apply (f_equal (@tl token)) in H. cbn [tl app] in H.
        repeat (rewrite <- !app_assoc in H; cbn [app] in H).
        destruct (typed_inj p q _ _ H eq_refl eq_refl) as [-> E]. split; [reflexivity|].
        apply (f_equal (@tl token)) in E. exact E.
      - repeat (rewrite <- !app_assoc in H; cbn [app] in H). split; [reflexivity|exact H]. }
    destruct E as [-> E]. clear H. injection E as -> E.
    destruct (params_inj ps qs _ _ E) as [-> E'].
    destruct (results_inj rs us b c _ _ E') as [-> E''].
    cbn [proper_decl] in Hd, He.
    destruct (body_inj packages b c _ _ Hd He E'') as [-> E3]. injection E3 as ->. split; reflexivity.
Qed.

Lemma decl_head d : exists k t, decl_tokens d = TName k :: t /\ k <> "import".
Proof. destruct d; do 2 eexists; (split; [reflexivity|discriminate]). Qed.

Lemma decls_inj packages l m :
  forallb (proper_decl packages) l = true -> forallb (proper_decl packages) m = true ->
  flat_map (fun d => decl_tokens d ++ [TOp ";"]) l = flat_map (fun d => decl_tokens d ++ [TOp ";"]) m ->
  l = m.
Proof.
  revert m. induction l as [|d l IH]; intros [|e m] Hl Hm H; cbn [flat_map] in H.
  - reflexivity.
  - destruct (decl_head e) as (k & t & E & _). rewrite E in H. discriminate H.
  - destruct (decl_head d) as (k & t & E & _). rewrite E in H. discriminate H.
  - cbn [forallb] in Hl, Hm. apply andb_prop in Hl, Hm. destruct Hl as [Hd Hl], Hm as [He Hm].
    rewrite <- !app_assoc in H. cbn [app] in H.
    destruct (decl_inj packages d e _ _ Hd He H) as [-> E]. rewrite (IH m Hl Hm E). reflexivity.
Qed.

Lemma imports_inj l m r s :
  flat_map (fun i => [TStr i; TOp ";"]) l ++ TOp ")" :: r =
  flat_map (fun i => [TStr i; TOp ";"]) m ++ TOp ")" :: s -> l = m /\ r = s.
Proof.
  revert m. induction l as [|p l IH]; intros [|q m] H; cbn [flat_map app] in H; try discriminate H.
  - injection H as ->. split; reflexivity.
  - injection H as -> H. destruct (IH m H) as [-> ->]. split; reflexivity.
Qed.

Lemma file_inj f g :
  proper f = true -> proper g = true -> file_tokens f = file_tokens g -> f = g.
Proof.
  destruct f as [p is ds], g as [q js es]. unfold proper, file_tokens.
  cbn [gf_package gf_imports gf_decls]. intros Hf Hg H. injection H as -> H.
  assert (Hno : forall l (t : list token), flat_map (fun d => decl_tokens d ++ [TOp ";"]) l <> TName "import" :: t).
  { intros [|d l] t E; [discriminate|]. destruct (decl_head d) as (k & u & E' & Hk).
    cbn [flat_map] in E. rewrite E' in E. cbn [app] in E. injection E as E _. congruence. }
  destruct is as [|i is], js as [|j js].
  - cbn [app] in H. rewrite (decls_inj _ ds es Hf Hg H). reflexivity.
  - exfalso. cbn [app] in H. exact (Hno _ _ H).
  - exfalso. cbn [app] in H. symmetry in H. exact (Hno _ _ H).
  - apply (f_equal (@tl token)) in H. apply (f_equal (@tl token)) in H. cbn [tl app] in H.
    rewrite <- !app_assoc in H.
    destruct (imports_inj (i :: is) (j :: js) _ _ H) as [E1 E2]. rewrite <- E1 in *. injection E2 as E2.
    rewrite (decls_inj _ ds es Hf Hg E2). reflexivity.
Qed.

(** A text is the text of at most one proper file. *)
Lemma text_unique text f g :
  proper f = true -> proper g = true -> is_text_of text f -> is_text_of text g -> f = g.
Proof.
  unfold is_text_of. intros Hf Hg H1 H2. apply file_inj; [exact Hf|exact Hg|].
  assert (E : Some (file_tokens f) = Some (file_tokens g)) by congruence. exact (f_equal (fun o => match o with Some x => x | None => [] end) E).
Qed.
