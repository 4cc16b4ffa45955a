(** * Carried out one after the other, the steps of [GoTree.v] are [GoSem.run] *)

From Coq Require Import String.
From Verif Require Import GoBase GoNum Model GoRand GoSyntax GoSource GoSem GoTree.
Local Open Scope Z_scope.

(** induction on expressions and statements with their lists *)
Section Induction.
Context (P : expr -> Prop).
Context (HNil : P Nil) (HVar : forall x, P (Var x)) (HInt : forall z, P (Int z)) (HStr : forall x, P (Str x))
  (HNew : forall t, P (New t)) (HField : forall e f, P e -> P (Field e f))
  (HIndex : forall e i, P e -> P i -> P (Index e i))
  (HSlice : forall e lo hi, P e -> P lo -> P hi -> P (Slice e lo hi))
  (HCall : forall f args, Forall P args -> P (Call f args))
  (HMethod : forall e m args, P e -> Forall P args -> P (Method e m args))
  (HAddr : forall e, P e -> P (Addr e)) (HNot : forall e, P e -> P (Not e))
  (HBin : forall o a b, P a -> P b -> P (Bin o a b))
  (HLit : forall t fs, Forall (fun p => P (snd p)) fs -> P (Lit t fs)).
Fixpoint expr_all (e : expr) : P e :=
  let all := fix all (es : list expr) : Forall P es :=
    match es with [] => Forall_nil P | e :: es' => Forall_cons e (expr_all e) (all es') end in
  match e with
  | Nil => HNil | Var x => HVar x | Int z => HInt z | Str s => HStr s | New t => HNew t
  | Field e f => HField e f (expr_all e)
  | Index e i => HIndex e i (expr_all e) (expr_all i)
  | Slice e lo hi => HSlice e lo hi (expr_all e) (expr_all lo) (expr_all hi)
  | Call f args => HCall f args (all args)
  | Method e m args => HMethod e m args (expr_all e) (all args)
  | Addr e => HAddr e (expr_all e)
  | Not e => HNot e (expr_all e)
  | Bin o a b => HBin o a b (expr_all a) (expr_all b)
  | Lit t fs => HLit t fs
      ((fix all (l : list (string * expr)) : Forall (fun p => P (snd p)) l :=
          match l with
          | [] => Forall_nil _
          | p :: l' => Forall_cons p (expr_all (snd p)) (all l')
          end) fs)
  end.
End Induction.

Section StmtInduction.
Context (P : stmt -> Prop).
Context (HDefine : forall xs e, P (Define xs e)) (HAssign : forall ls e, P (Assign ls e))
  (HAdd : forall l e, P (AddAssign l e)) (HDecl : forall x t, P (VarDecl x t)) (HDo : forall e, P (Do e))
  (HIf : forall c a b, Forall P a -> Forall P b -> P (If c a b))
  (HFor : forall i c p b, Forall P i -> Forall P p -> Forall P b -> P (For i c p b))
  (HRange : forall k v e b, Forall P b -> P (Range k v e b))
  (HSwitch : forall e cs d, Forall (fun p => Forall P (snd p)) cs -> Forall P d -> P (Switch e cs d))
  (HBreak : P Break) (HReturn : forall es, P (Return es)).
Fixpoint stmt_all (st : stmt) : P st :=
  let all := fix all (b : list stmt) : Forall P b :=
    match b with [] => Forall_nil P | st :: b' => Forall_cons st (stmt_all st) (all b') end in
  match st with
  | Define xs e => HDefine xs e | Assign ls e => HAssign ls e | AddAssign l e => HAdd l e
  | VarDecl x t => HDecl x t | Do e => HDo e
  | If c a b => HIf c a b (all a) (all b)
  | For i c p b => HFor i c p b (all i) (all p) (all b)
  | Range k v e b => HRange k v e b (all b)
  | Switch e cs d => HSwitch e cs d
      ((fix each (l : list (expr * list stmt)) : Forall (fun p => Forall P (snd p)) l :=
          match l with
          | [] => Forall_nil _
          | p :: l' => Forall_cons p (all (snd p)) (each l')
          end) cs) (all d)
  | Break => HBreak
  | Return es => HReturn es
  end.
End StmtInduction.

Lemma handle_bind floor {A B} (t : tree A) (f : A -> tree B) s :
  handle floor (tbind t f) s = andthen (handle floor t s) (fun a s => handle floor (f a) s).
Proof.
  revert s. induction t; intros s; cbn [tbind handle]; auto.
  - destruct (a <? floor)%nat; auto.
  - destruct (rand_int max (source s)) as [[z rest]|]; auto.
Qed.

Lemma andthen_ext {A B} (r : res A) (k k' : A -> state -> res B) :
  (forall a s, k a s = k' a s) -> andthen r k = andthen r k'.
Proof. intros H. destruct r; cbn; auto. Qed.

(** a rule that does not look at the state *)
Definition stateless {A} (f : state -> res A) : Prop :=
  forall s, f s = match f (State [] [] []) with
                  | Done a _ => Done a s | Crash p _ => Crash p s | Stuck => Stuck | Fuel => Fuel end.
Lemma handle_pure floor {A} (f : state -> res A) s : stateless f -> handle floor (pure f) s = f s.
Proof. intros H. rewrite H. unfold pure. now destruct (f (State [] [] [])). Qed.

Ltac split_all :=
  repeat match goal with
  | |- context [match ?x with _ => _ end] =>
      lazymatch x with
      | context [match _ with _ => _ end] => fail
      | _ => destruct x; try reflexivity
      end
  end.

Lemma stateless_opt {A} (o : option A) f : stateless (opt o f).
Proof. intros s. now destruct o. Qed.
Lemma stateless_panic {A} (o : outcome A) f : stateless (or_panic o f).
Proof. intros s. now destruct o. Qed.
Lemma stateless_error {A} (o : result A) f : stateless (or_error o f).
Proof. intros s. now destruct o. Qed.
Lemma stateless_element v i : stateless (element v i).
Proof. intros s. unfold element. destruct v, i; try reflexivity; apply stateless_panic. Qed.
Lemma stateless_substring v lo hi : stateless (substring v lo hi).
Proof. intros s. unfold substring. destruct v, lo, hi; try reflexivity; apply stateless_panic. Qed.
Lemma stateless_binary wrap o v w : stateless (binary wrap o v w).
Proof.
  intros s. unfold binary. destruct o; try reflexivity; try apply stateless_opt.
  all: destruct v, w; try reflexivity. now destruct (_ =? _).
Qed.

Section Sim.
Context (E : curve_params -> ecdsa_lib) (wrap : Z -> Z) (floor : nat).
Notation handle := (handle floor).
Notation L := (Limits floor wrap).

Lemma h_one t k s : handle (t_one t k) s = one (handle t s) (fun v s => handle (k v) s).
Proof. unfold t_one, one. rewrite handle_bind. apply andthen_ext. intros [|v []] s'; reflexivity. Qed.
Lemma one_ext r k k' : (forall v s, k v s = k' v s) -> one r k = one r k'.
Proof. intros H. apply andthen_ext. intros [|v []] s; auto. Qed.
Lemma h_test {A} t (k : bool -> tree A) s : handle (t_test t k) s = test (handle t s) (fun v s => handle (k v) s).
Proof. unfold t_test, test. rewrite handle_bind. apply andthen_ext. intros vs s'. destruct vs as [|[] []]; reflexivity. Qed.
Lemma test_ext {A} r (k k' : bool -> state -> res A) : (forall v s, k v s = k' v s) -> test r k = test r k'.
Proof. intros H. apply andthen_ext. intros vs s'. destruct vs as [|[] []]; auto. Qed.
Lemma h_leave t s : handle (t_leave t) s = leave (handle t s).
Proof. unfold t_leave, leave. rewrite handle_bind. apply andthen_ext. intros [] s'; reflexivity. Qed.
Lemma h_catch t s : handle (t_catch_break t) s = catch_break (handle t s).
Proof. unfold t_catch_break, catch_break. rewrite handle_bind. apply andthen_ext. intros [] s'; reflexivity. Qed.
Lemma h_read_var x e s : handle (t_read_var x e) s = read_var x e s.
Proof.
  unfold t_read_var, read_var. destruct (place x e) as [[v|a]|]; cbn; [reflexivity| |now destruct (predeclared x)].
  now destruct (cell s a).
Qed.
Lemma h_declare x v e s : handle (t_declare x v e) s = let '(e', s') := declare x v e s in Done e' s'.
Proof. unfold t_declare, declare. destruct (String.eqb x "_"); [reflexivity|]. now destruct v. Qed.
Lemma h_store a path v e s : handle (t_store_path a path v e) s = store_path floor a path v e s.
Proof.
  unfold t_store_path, store_path. cbn. destruct (cell s a) as [old|]; [|reflexivity].
  now destruct (set_path old path v).
Qed.
Lemma h_assign l v e s : handle (t_assign l v e) s = assign floor l v e s.
Proof.
  unfold t_assign, assign. destruct (path_of l []) as [[x path]|]; [|reflexivity].
  destruct (String.eqb x "_"); [reflexivity|].
  destruct (place x e) as [[[]|]|]; destruct path; try reflexivity; apply h_store.
Qed.
Lemma h_assign_all ls : forall vs e s, handle (t_assign_all ls vs e) s = assign_all floor ls vs e s.
Proof.
  induction ls as [|l ls IH]; intros [|v vs] e s; cbn [t_assign_all assign_all]; try reflexivity.
  rewrite handle_bind, h_assign. apply andthen_ext. auto.
Qed.
Lemma h_define x v e s : handle (t_define x v e) s = define floor x v e s.
Proof.
  unfold t_define, define. destruct e as [|fr e]; [reflexivity|].
  destruct (assoc x fr); [apply h_assign|apply h_declare].
Qed.
Lemma h_define_all xs : forall vs e s, handle (t_define_all xs vs e) s = define_all floor xs vs e s.
Proof.
  induction xs as [|x xs IH]; intros [|v vs] e s; cbn [t_define_all define_all]; try reflexivity.
  rewrite handle_bind, h_define. apply andthen_ext. auto.
Qed.
Lemma h_bind_params xs : forall vs e s,
  handle (t_bind_params xs vs e) s = match bind_params xs vs e s with Some (e', s') => Done e' s' | None => Stuck end.
Proof.
  induction xs as [|x xs IH]; intros [|v vs] e s; cbn [t_bind_params bind_params]; try reflexivity.
  rewrite handle_bind, h_declare. destruct (declare x v e s) as [e' s']. cbn [andthen]. apply IH.
Qed.

Lemma h_big_at {A} v (k : Z -> tree A) (k' : Z -> res A) s :
  (forall z, handle (k z) s = k' z) -> handle (t_big_at v k) s = big_at v s k'.
Proof.
  intros H. unfold t_big_at, big_at. destruct v; try reflexivity. cbn.
  destruct (cell s a) as [[]|]; try reflexivity. apply H.
Qed.
Lemma h_opt {A} (o : option A) f s : handle (t_opt o f) s = opt o f s.
Proof. now destruct o. Qed.

Lemma h_deep_equal v w s : handle (t_deep_equal v w) s = opt (deep_equal v w s) VBool s.
Proof.
  unfold t_deep_equal.
  destruct v; try reflexivity; destruct w; try reflexivity.
  cbn [GoTree.handle deep_equal]. destruct (cell s a) as [[]|]; try reflexivity.
  destruct (cell s a0) as [[]|]; try reflexivity.
  destruct (String.eqb t t0); [|reflexivity]. apply h_opt.
Qed.

Lemma h_builtin f args s : handle (t_builtin f args) s = builtin f args s.
Proof.
  unfold t_builtin.
  destruct (String.eqb f "sha256.New") eqn:H1.
  { apply String.eqb_eq in H1. subst f. destruct args; reflexivity. }
  destruct (String.eqb f "ripemd160.New") eqn:H2.
  { apply String.eqb_eq in H2. subst f. destruct args; reflexivity. }
  destruct (String.eqb f "big.NewInt") eqn:H3.
  { apply String.eqb_eq in H3. subst f. destruct args as [|[] []]; reflexivity. }
  destruct (String.eqb f "fmt.Sprintf") eqn:H4.
  { apply String.eqb_eq in H4. subst f.
    destruct args as [|v [|w [|? ?]]]; try reflexivity; try (now destruct v).
    2: { destruct v; try reflexivity; now destruct w. }
    destruct v as [| | | |x| | | | | | | |]; try reflexivity. destruct w as [| |z| | | | | | |a| | |]; try reflexivity.
    - apply handle_pure. intros s'. cbn -[known_verb]. now destruct (known_verb x).
    - apply handle_pure. intros s'. cbn -[sprintf]. now destruct (sprintf x z).
    - cbn -[sprintf]. destruct (cell s a) as [[]|]; try reflexivity. apply h_opt. }
  destruct (String.eqb f "log.Println") eqn:H5.
  { apply String.eqb_eq in H5. subst f. cbn -[println]. now destruct (println args). }
  destruct (String.eqb f "rand.Int") eqn:H6.
  { apply String.eqb_eq in H6. subst f. destruct args as [|[] [|m [|? ?]]]; try reflexivity.
    apply h_big_at. intros z. destruct (z <=? 0); [reflexivity|]. cbn [GoTree.handle].
    destruct (rand_int z (source s)) as [[r rest]|]; reflexivity. }
  destruct (String.eqb f "reflect.DeepEqual") eqn:H7.
  { apply String.eqb_eq in H7. subst f. destruct args as [|v [|w [|? ?]]]; try reflexivity. apply h_deep_equal. }
  apply handle_pure. intros s'. unfold builtin. rewrite H1, H2, H3, H4, H5, H6, H7.
  repeat match goal with |- context [String.eqb f ?x] => destruct (String.eqb f x) end; try reflexivity.
  all: destruct args as [|v1 [|v2 [|? ?]]]; try reflexivity.
  all: destruct v1; try reflexivity.
  all: try (apply stateless_opt || apply stateless_error).
  all: try (destruct v2; reflexivity).
  all: try (destruct v2; try reflexivity; now destruct (str_eqb _ _)).
  all: now match goal with |- context [match ?e with ERandRead => _ | _ => _ end] => destruct e end.
Qed.

Lemma h_big_method m a z args s : handle (t_big_method m a z args) s = big_method floor m a z args s.
Proof.
  unfold t_big_method, big_method.
  destruct (String.eqb m "SetString").
  { destruct args as [|v1 [|v2 [|v3 l]]]; try reflexivity; destruct v1 as [| | | |x| | | | | | | |]; try reflexivity;
      destruct v2 as [| |base| | | | | | | | | |]; try reflexivity.
    destruct (base =? 16); [now destruct (set_string16 x)|].
    destruct (base =? 2); [now destruct (set_string2 x)|reflexivity]. }
  destruct (String.eqb m "Add").
  { destruct args as [|v1 [|v2 [|v3 l]]]; try reflexivity. apply h_big_at. intros u. now apply h_big_at. }
  destruct (String.eqb m "Mul").
  { destruct args as [|v1 [|v2 [|v3 l]]]; try reflexivity. apply h_big_at. intros u. now apply h_big_at. }
  destruct (String.eqb m "Mod").
  { destruct args as [|v1 [|v2 [|v3 l]]]; try reflexivity. apply h_big_at. intros u. apply h_big_at. intros v.
    now destruct (v =? 0). }
  destruct (String.eqb m "Exp").
  { destruct args as [|v1 [|v2 [|v3 [|v4 l]]]]; try reflexivity; destruct v3; try reflexivity.
    apply h_big_at. intros u. apply h_big_at. intros v. now destruct (v <? 0). }
  destruct (String.eqb m "Set").
  { destruct args as [|v1 [|v2 l]]; try reflexivity. now apply h_big_at. }
  destruct (String.eqb m "SetInt64").
  { destruct args as [|v1 [|v2 l]]; try reflexivity; now destruct v1. }
  destruct (String.eqb m "SetBytes").
  { destruct args as [|v1 [|v2 l]]; try reflexivity; now destruct v1. }
  destruct (String.eqb m "Cmp").
  { destruct args as [|v1 [|v2 l]]; try reflexivity. now apply h_big_at. }
  destruct (String.eqb m "Bit").
  { destruct args as [|v1 [|v2 l]]; try reflexivity; destruct v1 as [| |i| | | | | | | | | |]; try reflexivity.
    now destruct (i <? 0). }
  destruct (String.eqb m "Bytes"); [now destruct args|].
  destruct (String.eqb m "Int64"); [now destruct args|reflexivity].
Qed.
Lemma h_hash_method m a alg bs args s : handle (t_hash_method m a alg bs args) s = hash_method floor m a alg bs args s.
Proof.
  unfold t_hash_method, hash_method.
  destruct (String.eqb m "Write").
  - destruct args as [|v []]; try reflexivity. now destruct (bytes_of v).
  - destruct (String.eqb m "Sum"); [|reflexivity]. destruct args as [|[] []]; try reflexivity.
    destruct (String.eqb alg "sha256"); [reflexivity|]. now destruct (String.eqb alg "ripemd160").
Qed.
Lemma h_big_field {A} fs f (k : Z -> tree A) (k' : Z -> res A) s :
  (forall z, handle (k z) s = k' z) -> handle (t_big_field fs f k) s = big_field fs f s k'.
Proof. intros H. unfold t_big_field, big_field. destruct (assoc f fs); [now apply h_big_at|reflexivity]. Qed.
Lemma h_point_at {A} v (k : point -> tree A) (k' : point -> res A) s :
  (forall z, handle (k z) s = k' z) -> handle (t_point_at v k) s = point_at v s k'.
Proof.
  intros H. unfold t_point_at, point_at. destruct v; try reflexivity. destruct (String.eqb t "ecdsa.Point"); [|reflexivity].
  apply h_big_field. intros x. apply h_big_field. intros y. apply H.
Qed.
Lemma h_params_at {A} fs (k : curve_params -> tree A) (k' : curve_params -> res A) s :
  (forall z, handle (k z) s = k' z) -> handle (t_params_at fs k) s = params_at fs s k'.
Proof.
  intros H. unfold t_params_at, params_at. do 5 (apply h_big_field; intros ?).
  destruct (assoc "G"%string fs); [|reflexivity]. apply h_point_at. intros [x y]. apply H.
Qed.
Lemma h_point_result r s : handle (t_point_result r) s = point_result r s.
Proof. destruct r as [[x y] ok]. reflexivity. Qed.
Lemma h_curve_method m fs args s : handle (t_curve_method E m fs args) s = curve_method E m fs args s.
Proof.
  apply h_params_at. intros c.
  destruct (String.eqb m "GetY").
  { destruct args as [|x []]; try reflexivity. apply h_big_at. intros z. now destruct (lib_GetY (E c) z). }
  destruct (String.eqb m "MultMod").
  { destruct args as [|x [|y []]]; try reflexivity. apply h_big_at. intros z. now apply h_big_at. }
  destruct (String.eqb m "ScalarMult").
  { destruct args as [|x [|y []]]; try reflexivity. apply h_big_at. intros z. apply h_point_at. intros p. apply h_point_result. }
  destruct (String.eqb m "AddPoints"); [|reflexivity].
  destruct args as [|x [|y []]]; try reflexivity. apply h_point_at. intros z. apply h_point_at. intros p. apply h_point_result.
Qed.
Lemma h_field v f s : handle (t_field v f) s = field v f s.
Proof.
  unfold t_field, field. destruct v; try reflexivity; [|apply h_opt].
  cbn. destruct (cell s a) as [[]|]; try reflexivity. apply h_opt.
Qed.

Section Body.
Context (tcall : string -> list value -> tree (list value)).
Context (call : string -> list value -> state -> res (list value)).
Context (Hcall : forall f vs s, handle (tcall f vs) s = call f vs s).

Lemma h_call_func f vs s : handle (t_call_func tcall f vs) s = call_func call f vs s.
Proof. unfold t_call_func, call_func. destruct (find_func f); [apply Hcall|apply h_builtin]. Qed.
Lemma h_call_method v m vs s : handle (t_call_method E tcall v m vs) s = call_method E L call v m vs s.
Proof.
  unfold t_call_method, call_method. destruct v; try reflexivity.
  - cbn [GoTree.handle]. destruct (cell s a) as [[]|]; try reflexivity.
    + apply Hcall.
    + apply h_big_method.
    + apply h_hash_method.
  - destruct (String.eqb t "ecdsa.Curve"); [apply h_curve_method|reflexivity].
Qed.

Notation teval := (t_eval E wrap tcall).
Notation geval := (eval E L call).

Definition t_args (en : env) := fix all (es : list expr) : tree (list value) :=
    match es with
    | [] => TRet []
    | e :: es' => t_one (teval e en) (fun v => tbind (all es') (fun vs => TRet (v :: vs)))
    end.
Definition g_args (en : env) := fix all (es : list expr) (s : state) : res (list value) :=
    match es with
    | [] => Done [] s
    | e :: es' => one (geval e en s) (fun v s => andthen (all es' s) (fun vs s => Done (v :: vs) s))
    end.
Lemma h_args en es : Forall (fun e => forall en s, handle (teval e en) s = geval e en s) es ->
  forall s, handle (t_args en es) s = g_args en es s.
Proof.
  induction 1 as [|e es He _ IH]; intros s; [reflexivity|]. cbn [t_args g_args].
  rewrite h_one, He. apply one_ext. intros v s'. rewrite handle_bind, IH. reflexivity.
Qed.

Lemma h_eval e : forall en s, handle (teval e en) s = geval e en s.
Proof.
  induction e using expr_all; intros en s.
  - reflexivity.
  - apply h_read_var.
  - reflexivity.
  - reflexivity.
  - cbn [t_eval eval]. now destruct (String.eqb t "big.Int").
  - cbn [t_eval eval]. rewrite h_one, IHe. apply one_ext. intros; apply h_field.
  - cbn [t_eval eval]. rewrite h_one, IHe1. apply one_ext. intros. rewrite h_one, IHe2. apply one_ext. intros.
    apply handle_pure, stateless_element.
  - cbn [t_eval eval]. rewrite h_one, IHe1. apply one_ext. intros. rewrite h_one, IHe2. apply one_ext. intros.
    rewrite h_one, IHe3. apply one_ext. intros. apply handle_pure, stateless_substring.
  - change (handle (tbind (t_args en args) (t_call_func tcall f)) s = andthen (g_args en args s) (call_func call f)).
    rewrite handle_bind, h_args by assumption. apply andthen_ext. intros. apply h_call_func.
  - change (handle (t_one (teval e en) (fun v => tbind (t_args en args) (t_call_method E tcall v m))) s =
            one (geval e en s) (fun v s => andthen (g_args en args s) (call_method E L call v m))).
    rewrite h_one, IHe. apply one_ext. intros. rewrite handle_bind, h_args by assumption.
    apply andthen_ext. intros. apply h_call_method.
  - assert (handle (t_one (teval e en) (fun v => match v with VStruct _ _ => t_fresh v | _ => TStuck end)) s =
            one (geval e en s) (fun v s => match v with VStruct _ _ => fresh v s | _ => Stuck end)) as A.
    { rewrite h_one, IHe. apply one_ext. intros v1 s1; destruct v1; reflexivity. }
    destruct e; try exact A. cbn [t_eval eval]. now destruct (place x en) as [[]|].
  - cbn [t_eval eval]. rewrite h_one, IHe. apply one_ext. intros v1 s1; destruct v1; reflexivity.
  - cbn [t_eval eval]. destruct o; rewrite h_one, IHe1; apply one_ext; intros.
    all: try (rewrite h_one, IHe2; apply one_ext; intros; apply handle_pure, stateless_binary).
    destruct v; try reflexivity. destruct b; [reflexivity|apply IHe2].
  - cbn [t_eval eval]. generalize (zero 3 t). intros acc. revert acc s.
    induction H as [|[f e] fs He _ IH]; intros acc s; [reflexivity|].
    rewrite h_one. cbn [snd] in He. rewrite He. apply one_ext. intros v s'.
    destruct (set_path acc [f] v); [apply IH|reflexivity].
Qed.
Lemma h_eval_all es : forall en s, handle (t_eval_all E wrap tcall es en) s = eval_all E L call es en s.
Proof.
  induction es as [|e es IH]; intros en s; [reflexivity|]. cbn [t_eval_all eval_all].
  rewrite h_one, h_eval. apply one_ext. intros v s'. rewrite handle_bind, IH. reflexivity.
Qed.

Lemma h_for n : forall tc tp tb c p b e s,
  (forall e s, handle (tc e) s = c e s) -> (forall e s, handle (tp e) s = p e s) -> (forall e s, handle (tb e) s = b e s) ->
  handle (t_for_loop n tc tp tb e) s = for_loop n c p b e s.
Proof.
  induction n as [|n IH]; intros tc tp tb c p b e s Hc Hp Hb; [reflexivity|]. cbn [t_for_loop for_loop].
  rewrite h_test, Hc. apply test_ext. intros t s1. destruct t; [|reflexivity].
  rewrite handle_bind, Hb. apply andthen_ext. intros [] s2; try reflexivity.
  rewrite handle_bind, Hp. apply andthen_ext. intros [] s3; try reflexivity. now apply IH.
Qed.
Lemma h_range ws : forall i k v tb b e s, (forall e s, handle (tb e) s = b e s) ->
  handle (t_range_loop wrap ws i k v tb e) s = range_loop wrap ws i k v b e s.
Proof.
  induction ws as [|w ws IH]; intros i k v tb b e s Hb; [reflexivity|]. cbn [t_range_loop range_loop].
  rewrite handle_bind, h_declare. destruct (declare k (VInt i) ([] :: e) s) as [e1 s1]. cbn [andthen].
  rewrite handle_bind, h_declare. destruct (declare v (VStr w) e1 s1) as [e2 s2]. cbn [andthen].
  rewrite handle_bind, h_leave, Hb. apply andthen_ext. intros [] s3; try reflexivity. now apply IH.
Qed.

Notation texec := (t_exec E wrap tcall).
Notation gexec := (exec E L call).
Definition t_block (n : nat) := fix block (b : list stmt) (e : env) : tree flow :=
    match b with
    | [] => TRet (Next e)
    | st :: b' => tbind (texec n st e) (fun c => match c with Next e => block b' e | _ => TRet c end)
    end.
Definition g_block (n : nat) := fix block (b : list stmt) (e : env) (s : state) : res flow :=
    match b with
    | [] => Done (Next e) s
    | st :: b' => andthen (gexec n st e s) (fun c s => match c with Next e => block b' e s | _ => Done c s end)
    end.
Lemma h_block n b : Forall (fun st => forall e s, handle (texec n st e) s = gexec n st e s) b ->
  forall e s, handle (t_block n b e) s = g_block n b e s.
Proof.
  induction 1 as [|st b Hst _ IH]; intros e s; [reflexivity|]. cbn [t_block g_block].
  rewrite handle_bind, Hst. apply andthen_ext. intros [] s'; [apply IH|reflexivity|reflexivity].
Qed.
Lemma h_scope n b : Forall (fun st => forall e s, handle (texec n st e) s = gexec n st e s) b ->
  forall e s, handle (t_leave (t_block n b ([] :: e))) s = leave (g_block n b ([] :: e) s).
Proof. intros H e s. now rewrite h_leave, h_block. Qed.

Lemma h_exec n st : forall e s, handle (texec n st e) s = gexec n st e s.
Proof.
  induction st using stmt_all; intros en s.
  - cbn [t_exec exec]. rewrite handle_bind, h_eval. apply andthen_ext. intros.
    rewrite handle_bind, h_define_all. reflexivity.
  - cbn [t_exec exec]. rewrite handle_bind, h_eval. apply andthen_ext. intros.
    rewrite handle_bind, h_assign_all. reflexivity.
  - cbn [t_exec exec]. rewrite handle_bind, h_eval. apply andthen_ext. intros.
    rewrite handle_bind, h_assign_all. reflexivity.
  - cbn [t_exec exec]. rewrite handle_bind, h_declare. now destruct (declare x (zero 3 t) en s).
  - cbn [t_exec exec]. rewrite handle_bind, h_eval. reflexivity.
  - change (handle (t_test (teval c en) (fun t => if t then t_leave (t_block n a ([] :: en))
                                             else t_leave (t_block n b ([] :: en)))) s =
            test (geval c en s) (fun t s => if t then leave (g_block n a ([] :: en) s)
                                            else leave (g_block n b ([] :: en) s))).
    rewrite h_test, h_eval. apply test_ext. intros [] s'; now apply h_scope.
  - change (handle (t_leave (tbind (t_block n i ([] :: en)) (fun f =>
              match f with
              | Next e => t_for_loop n (teval c) (t_block n p)
                            (fun e => t_leave (t_block n b ([] :: e))) e
              | _ => TStuck
              end))) s =
            leave (andthen (g_block n i ([] :: en) s) (fun f s =>
              match f with
              | Next e => for_loop n (geval c) (g_block n p)
                            (fun e s => leave (g_block n b ([] :: e) s)) e s
              | _ => Stuck
              end))).
    rewrite h_leave, handle_bind, h_block by assumption. f_equal. apply andthen_ext. intros [] s'; try reflexivity.
    apply h_for; [apply h_eval|now apply h_block|now apply h_scope].
  - change (handle (tbind (teval e en) (fun vs =>
              match vs with
              | [VStrs ws] => t_range_loop wrap ws 0 k v (fun e => t_leave (t_block n b ([] :: e))) en
              | [VNil] => t_range_loop wrap [] 0 k v (fun e => t_leave (t_block n b ([] :: e))) en
              | _ => TStuck
              end)) s =
            andthen (geval e en s) (fun vs s =>
              match vs with
              | [VStrs ws] => range_loop wrap ws 0 k v (fun e s => leave (g_block n b ([] :: e) s)) en s
              | [VNil] => range_loop wrap [] 0 k v (fun e s => leave (g_block n b ([] :: e) s)) en s
              | _ => Stuck
              end)).
    rewrite handle_bind, h_eval. apply andthen_ext. intros vs s'. destruct vs as [|[] []]; try reflexivity.
    apply h_range. now apply h_scope.
  - cbn [t_exec exec]. rewrite handle_bind, h_eval. apply andthen_ext. intros vs s'.
    destruct vs as [|v []]; try reflexivity. rewrite h_catch. f_equal. revert s'.
    induction H as [|[g b] cs Hb _ IHcs]; intros s1; [now apply h_scope|].
    rewrite handle_bind, h_eval. apply andthen_ext. intros ws s2.
    destruct ws as [|w []]; try reflexivity. destruct (equal v w) as [[]|]; [now apply h_scope|apply IHcs|reflexivity].
  - reflexivity.
  - cbn [t_exec exec]. destruct es as [|x []].
    + reflexivity.
    + rewrite handle_bind, h_eval. reflexivity.
    + rewrite handle_bind, h_eval_all. reflexivity.
Qed.
Lemma h_exec_block n b : forall e s, handle (t_exec_block E wrap tcall n b e) s = exec_block E L call n b e s.
Proof.
  induction b as [|st b IH]; intros e s; [reflexivity|]. cbn [t_exec_block exec_block].
  rewrite handle_bind, h_exec. apply andthen_ext. intros [] s'; [apply IH|reflexivity|reflexivity].
Qed.
End Body.

Lemma h_run n : forall f args s, handle (t_run_on E wrap n f args) s = run E L n f args s.
Proof.
  induction n as [|n IH]; intros f args s; [reflexivity|]. cbn [t_run_on run].
  destruct (find_func f) as [g|]; [|reflexivity].
  rewrite handle_bind, h_bind_params. destruct (bind_params (f_params g) args [[]] s) as [[e s1]|]; [|reflexivity].
  cbn [andthen]. rewrite handle_bind.
  rewrite (h_exec_block _ (run E L n) IH).
  apply andthen_ext. intros [] s2; reflexivity.
Qed.
End Sim.
