(** * The source does not depend on the addresses of objects: the interpreter *)

From Coq Require Import String.
From Verif Require Import GoBase GoNum Sha256 Ripemd160 Model GoRand GoSyntax GoSource GoSem GoTree GoTreeSim GoRename.
Local Open Scope Z_scope.

Lemma big_method_rel r m a b z vs ws : In (a, b) r -> lrel r vs ws ->
  trel lrel r (t_big_method m a z vs) (t_big_method m b z ws).
Proof.
  intros Hab H. unfold t_big_method.
  assert (forall x, trel lrel r (TWrite a (VBig x) (TRet [VPtr a])) (TWrite b (VBig x) (TRet [VPtr b]))) as HW.
  { intros x. apply r_write; [exact Hab|reflexivity|]. apply r_ret, lrel_one. exact Hab. }
  assert (forall f g : Z -> Z -> tree (list value), (forall u v, trel lrel r (f u v) (g u v)) ->
            trel lrel r (match vs with [x; y] => t_big_at x (fun u => t_big_at y (fun v => f u v)) | _ => TStuck end)
                        (match ws with [x; y] => t_big_at x (fun u => t_big_at y (fun v => g u v)) | _ => TStuck end)) as HB.
  { intros f g Hfg. destruct H as [|v1 w1 vs ws Hv1 H]; [apply r_stuck|].
    destruct H as [|v2 w2 vs ws Hv2 H]; [apply r_stuck|].
    destruct H; [|apply r_stuck]. apply big_at_rel; [exact Hv1|]. intros u. apply big_at_rel; [exact Hv2|]. auto. }
  destruct (String.eqb m "SetString").
  { destruct H as [|v1 w1 vs ws Hv1 H]; [apply r_stuck|]. vinv Hv1; try apply r_stuck.
    destruct H as [|v2 w2 vs ws Hv2 H]; [apply r_stuck|]. vinv Hv2; try apply r_stuck.
    destruct H; [|apply r_stuck].
    match goal with |- trel _ _ (match ?o with _ => _ end) _ => destruct o as [[x|]|] end; [|plainly|apply r_stuck].
    apply r_write; [exact Hab|reflexivity|]. apply r_ret. constructor; [exact Hab|]. now apply lrel_one. }
  destruct (String.eqb m "Add"). { apply HB. auto. }
  destruct (String.eqb m "Mul"). { apply HB. auto. }
  destruct (String.eqb m "Mod"). { apply HB. intros u v. destruct (v =? 0); [apply r_stuck|auto]. }
  destruct (String.eqb m "Exp").
  { destruct H as [|v1 w1 vs ws Hv1 H]; [apply r_stuck|].
    destruct H as [|v2 w2 vs ws Hv2 H]; [apply r_stuck|].
    destruct H as [|v3 w3 vs ws Hv3 H]; [apply r_stuck|]. vinv Hv3; try apply r_stuck.
    destruct H; [|apply r_stuck]. apply big_at_rel; [exact Hv1|]. intros u. apply big_at_rel; [exact Hv2|].
    intros v. destruct (v <? 0); [apply r_stuck|auto]. }
  destruct (String.eqb m "Set").
  { destruct H as [|v1 w1 vs ws Hv1 H]; [apply r_stuck|]. destruct H; [|apply r_stuck]. apply big_at_rel; auto. }
  destruct (String.eqb m "SetInt64").
  { destruct H as [|v1 w1 vs ws Hv1 H]; [apply r_stuck|]. vinv Hv1; try apply r_stuck. destruct H; [auto|apply r_stuck]. }
  destruct (String.eqb m "SetBytes").
  { destruct H as [|v1 w1 vs ws Hv1 H]; [apply r_stuck|]. vinv Hv1; try apply r_stuck. destruct H; [auto|apply r_stuck]. }
  destruct (String.eqb m "Cmp").
  { destruct H as [|v1 w1 vs ws Hv1 H]; [apply r_stuck|]. destruct H; [|apply r_stuck]. apply big_at_rel; [exact Hv1|].
    intros v. apply r_ret, lrel_one. reflexivity. }
  destruct (String.eqb m "Bit").
  { destruct H as [|v1 w1 vs ws Hv1 H]; [apply r_stuck|]. vinv Hv1; try apply r_stuck. destruct H; [|apply r_stuck].
    destruct (z1 <? 0); [apply r_stuck|]. apply r_ret, lrel_one. reflexivity. }
  destruct (String.eqb m "Bytes"). { destruct H; [|apply r_stuck]. apply r_ret, lrel_one. reflexivity. }
  destruct (String.eqb m "Int64"). { destruct H; [|apply r_stuck]. apply r_ret, lrel_one. reflexivity. }
  apply r_stuck.
Qed.

Lemma bytes_of_rel r v w : vrel r v w -> bytes_of v = bytes_of w.
Proof. intros H. vinv H; reflexivity. Qed.
Lemma hash_method_rel r m a b alg bs vs ws : In (a, b) r -> lrel r vs ws ->
  trel lrel r (t_hash_method m a alg bs vs) (t_hash_method m b alg bs ws).
Proof.
  intros Hab H. unfold t_hash_method.
  destruct (String.eqb m "Write").
  { destruct H as [|v1 w1 vs ws Hv1 H]; [apply r_stuck|]. destruct H; [|apply r_stuck].
    rewrite (bytes_of_rel r _ _ Hv1). destruct (bytes_of w1); [|apply r_stuck].
    apply r_write; [exact Hab|reflexivity|]. apply r_ret. constructor; [reflexivity|]. now apply lrel_one. }
  destruct (String.eqb m "Sum"); [|apply r_stuck].
  destruct H as [|v1 w1 vs ws Hv1 H]; [apply r_stuck|]. vinv Hv1; try apply r_stuck. destruct H; [|apply r_stuck].
  destruct (String.eqb alg "sha256"); [apply r_ret, lrel_one; reflexivity|].
  destruct (String.eqb alg "ripemd160"); [apply r_ret, lrel_one; reflexivity|]. apply r_stuck.
Qed.

Lemma big_field_rel {A} (R : ren -> A -> A -> Prop) r fs gs x k k' : frel r fs gs -> (forall z, trel R r (k z) (k' z)) ->
  trel R r (t_big_field fs x k) (t_big_field gs x k').
Proof.
  intros H Hk. unfold t_big_field. pose proof (assoc_frel r x _ _ H) as Ha.
  destruct (assoc x fs), (assoc x gs); try contradiction; [|apply r_stuck]. now apply big_at_rel.
Qed.
Lemma point_at_rel {A} (R : ren -> A -> A -> Prop) r v w k k' : vrel r v w -> (forall z, trel R r (k z) (k' z)) ->
  trel R r (t_point_at v k) (t_point_at w k').
Proof.
  intros H Hk. unfold t_point_at. vinv H; try apply r_stuck. destruct H as [<- H]. change (frel r fields fields0) in H.
  destruct (String.eqb t "ecdsa.Point"); [|apply r_stuck].
  apply big_field_rel; [exact H|]. intros x. apply big_field_rel; [exact H|]. auto.
Qed.
Lemma params_at_rel {A} (R : ren -> A -> A -> Prop) r fs gs k k' : frel r fs gs -> (forall c, trel R r (k c) (k' c)) ->
  trel R r (t_params_at fs k) (t_params_at gs k').
Proof.
  intros H Hk. unfold t_params_at. do 5 (apply big_field_rel; [exact H|]; intros ?).
  pose proof (assoc_frel r "G" _ _ H) as Ha.
  destruct (assoc "G" fs), (assoc "G" gs); try contradiction; [|apply r_stuck].
  apply point_at_rel; [exact Ha|]. intros [x y]. apply Hk.
Qed.
Lemma point_result_rel r p : trel lrel r (t_point_result p) (t_point_result p).
Proof.
  destruct p as [[x y] ok]. apply r_alloc; [reflexivity|]. intros a b. apply r_alloc; [reflexivity|]. intros c d.
  apply r_ret. constructor; [|now apply lrel_one]. apply vrel_struct. split; [reflexivity|].
  cbn. repeat split; auto.
Qed.

Section Program.
Context (E : curve_params -> ecdsa_lib) (wrap : Z -> Z).

Lemma curve_method_rel r m fs gs vs ws : frel r fs gs -> lrel r vs ws ->
  trel lrel r (t_curve_method E m fs vs) (t_curve_method E m gs ws).
Proof.
  intros Hf H. unfold t_curve_method. apply params_at_rel; [exact Hf|]. intros c.
  destruct (String.eqb m "GetY").
  { destruct H as [|v1 w1 vs ws Hv1 H]; [apply r_stuck|]. destruct H; [|apply r_stuck].
    apply big_at_rel; [exact Hv1|]. intros x. destruct (lib_GetY (E c) x) as [y ok].
    apply r_alloc; [reflexivity|]. intros a b. apply r_ret. constructor; [now left|]. now apply lrel_one. }
  destruct (String.eqb m "MultMod").
  { destruct H as [|v1 w1 vs ws Hv1 H]; [apply r_stuck|]. destruct H as [|v2 w2 vs ws Hv2 H]; [apply r_stuck|].
    destruct H; [|apply r_stuck]. apply big_at_rel; [exact Hv1|]. intros x. apply big_at_rel; [exact Hv2|]. intros y.
    now apply fresh_rel. }
  destruct (String.eqb m "ScalarMult").
  { destruct H as [|v1 w1 vs ws Hv1 H]; [apply r_stuck|]. destruct H as [|v2 w2 vs ws Hv2 H]; [apply r_stuck|].
    destruct H; [|apply r_stuck]. apply big_at_rel; [exact Hv1|]. intros x. apply point_at_rel; [exact Hv2|]. intros y.
    apply point_result_rel. }
  destruct (String.eqb m "AddPoints"); [|apply r_stuck].
  destruct H as [|v1 w1 vs ws Hv1 H]; [apply r_stuck|]. destruct H as [|v2 w2 vs ws Hv2 H]; [apply r_stuck|].
  destruct H; [|apply r_stuck]. apply point_at_rel; [exact Hv1|]. intros x. apply point_at_rel; [exact Hv2|]. intros y.
  apply point_result_rel.
Qed.

Lemma opt_assoc_rel r fs gs f : frel r fs gs -> trel lrel r (t_opt (assoc f fs) (fun v => v)) (t_opt (assoc f gs) (fun v => v)).
Proof.
  intros H. pose proof (assoc_frel r f _ _ H) as Ha.
  destruct (assoc f fs), (assoc f gs); try contradiction; [|apply r_stuck]. now apply r_ret, lrel_one.
Qed.
Lemma field_rel r v w f : vrel r v w -> trel lrel r (t_field v f) (t_field w f).
Proof.
  intros H. unfold t_field. vinv H; try apply r_stuck.
  - apply r_crash.
  - apply r_read; [exact H|]. intros c d Hc. vinv Hc; try apply r_stuck. destruct Hc as [_ Hc]. now apply opt_assoc_rel.
  - destruct H as [_ H]. now apply opt_assoc_rel.
Qed.

Lemma equal_rel r v v' w w' : vrel r v v' -> vrel r w w' -> equal v w = equal v' w'.
Proof. intros Hv Hw. vinv Hv; vinv Hw; reflexivity. Qed.
Lemma binary_rel r o v v' w w' : vrel r v v' -> vrel r w w' -> trel lrel r (pure (binary wrap o v w)) (pure (binary wrap o v' w')).
Proof.
  intros Hv Hw. destruct o; unfold binary; try rewrite (equal_rel r _ _ _ _ Hv Hw);
    try same; vinv Hv; try apply r_stuck; vinv Hw; try apply r_stuck; same.
Qed.
Lemma element_rel r v v' w w' : vrel r v v' -> vrel r w w' -> trel lrel r (pure (element v w)) (pure (element v' w')).
Proof. intros Hv Hw. unfold element. vinv Hv; try apply r_stuck; vinv Hw; try apply r_stuck; same. Qed.
Lemma substring_rel r v v' w w' u u' : vrel r v v' -> vrel r w w' -> vrel r u u' ->
  trel lrel r (pure (substring v w u)) (pure (substring v' w' u')).
Proof. intros Hv Hw Hu. unfold substring. vinv Hv; try apply r_stuck; vinv Hw; try apply r_stuck; vinv Hu; try apply r_stuck; same. Qed.

Section Body.
Context (call : string -> list value -> tree (list value))
  (Hcall : forall r f vs ws, based r -> lrel r vs ws -> trel lrel r (call f vs) (call f ws)).

Lemma call_func_rel r f vs ws : based r -> lrel r vs ws -> trel lrel r (t_call_func call f vs) (t_call_func call f ws).
Proof. intros Hb H. unfold t_call_func. destruct (find_func f); [now apply Hcall|now apply builtin_rel]. Qed.
Lemma call_method_rel r v w m vs ws : based r -> vrel r v w -> lrel r vs ws ->
  trel lrel r (t_call_method E call v m vs) (t_call_method E call w m ws).
Proof.
  intros Hb Hv H. unfold t_call_method. vinv Hv; try apply r_stuck.
  - apply r_crash.
  - apply r_read; [exact Hv|]. intros c d Hc. vinv Hc; try apply r_stuck.
    + destruct Hc as [<- _]. apply Hcall; [exact Hb|]. constructor; assumption.
    + now apply big_method_rel.
    + now apply hash_method_rel.
  - destruct Hv as [<- Hv]. destruct (String.eqb t "ecdsa.Curve"); [|apply r_stuck]. now apply curve_method_rel.
Qed.

Local Notation teval := (t_eval E wrap call).

Definition t_args (en : env) := fix all (es : list expr) : tree (list value) :=
  match es with
  | [] => TRet []
  | e :: es' => t_one (teval e en) (fun v => tbind (all es') (fun vs => TRet (v :: vs)))
  end.
Definition steady (e : expr) : Prop := forall r en en', based r -> erel r en en' -> trel lrel r (teval e en) (teval e en').
Lemma args_rel es : Forall steady es -> forall r en en', based r -> erel r en en' ->
  trel lrel r (t_args en es) (t_args en' es).
Proof.
  induction 1 as [|e es He _ IH]; intros r en en' Hb Hen; [apply r_ret; constructor|]. cbn [t_args].
  apply one_rel; [now apply He|]. intros r1 v w Hi Hv.
  eapply bind_rel; [apply IH; [now apply (based_mono r)|now apply (erel_mono r)]|].
  intros r2 vs ws Hi2 Hvs. apply r_ret. constructor; [now apply (vrel_mono r1)|exact Hvs].
Qed.
Lemma eval_rel e : steady e.
Proof.
  induction e using expr_all; intros r en en' Hb Hen.
  - now apply r_ret, lrel_one.
  - now apply read_var_rel.
  - now apply r_ret, lrel_one.
  - now apply r_ret, lrel_one.
  - cbn [t_eval]. destruct (String.eqb t "big.Int"); [now apply fresh_rel|apply r_stuck].
  - cbn [t_eval]. apply one_rel; [now apply IHe|]. intros r1 v w Hi Hv. now apply field_rel.
  - cbn [t_eval]. apply one_rel; [now apply IHe1|]. intros r1 v w Hi Hv.
    apply one_rel; [apply IHe2; [now apply (based_mono r)|now apply (erel_mono r)]|]. intros r2 v2 w2 Hi2 Hv2.
    apply element_rel; [now apply (vrel_mono r1)|exact Hv2].
  - cbn [t_eval]. apply one_rel; [now apply IHe1|]. intros r1 v w Hi Hv.
    apply one_rel; [apply IHe2; [now apply (based_mono r)|now apply (erel_mono r)]|]. intros r2 v2 w2 Hi2 Hv2.
    assert (incl r r2) as Hi02 by (eapply incl_tran; eassumption).
    apply one_rel; [apply IHe3; [now apply (based_mono r)|now apply (erel_mono r)]|]. intros r3 v3 w3 Hi3 Hv3.
    apply substring_rel; [|now apply (vrel_mono r2)|exact Hv3]. apply (vrel_mono r1); [eapply incl_tran; eassumption|exact Hv].
  - change (trel lrel r (tbind (t_args en args) (fun vs => t_call_func call f vs))
                        (tbind (t_args en' args) (fun vs => t_call_func call f vs))).
    eapply bind_rel; [now apply args_rel|]. intros r1 vs ws Hi Hv. apply call_func_rel; [now apply (based_mono r)|exact Hv].
  - change (trel lrel r (t_one (teval e en) (fun v => tbind (t_args en args) (fun vs => t_call_method E call v m vs)))
                        (t_one (teval e en') (fun v => tbind (t_args en' args) (fun vs => t_call_method E call v m vs)))).
    apply one_rel; [now apply IHe|]. intros r1 v w Hi Hv.
    eapply bind_rel; [apply args_rel; [assumption|now apply (based_mono r)|now apply (erel_mono r)]|].
    intros r2 vs ws Hi2 Hvs. apply call_method_rel; [|now apply (vrel_mono r1)|exact Hvs].
    apply (based_mono r); [eapply incl_tran; eassumption|exact Hb].
  - assert (trel lrel r (t_one (teval e en) (fun v => match v with VStruct _ _ => t_fresh v | _ => TStuck end))
                        (t_one (teval e en') (fun v => match v with VStruct _ _ => t_fresh v | _ => TStuck end))) as A.
    { apply one_rel; [now apply IHe|]. intros r1 v w Hi Hv. vinv Hv; try apply r_stuck. now apply fresh_rel. }
    destruct e; try exact A. cbn [t_eval]. pose proof (place_rel r x _ _ Hb Hen) as Hp.
    destruct (place x en) as [[]|], (place x en') as [[]|]; try contradiction; try apply r_stuck.
    now apply r_ret, lrel_one.
  - cbn [t_eval]. apply one_rel; [now apply IHe|]. intros r1 v w Hi Hv. vinv Hv; try apply r_stuck. now apply r_ret, lrel_one.
  - assert (forall o, trel lrel r (t_one (teval e1 en) (fun v => t_one (teval e2 en) (fun w => pure (binary wrap o v w))))
                        (t_one (teval e1 en') (fun v => t_one (teval e2 en') (fun w => pure (binary wrap o v w))))) as A.
    { intros o'. apply one_rel; [now apply IHe1|]. intros r1 v w Hi Hv.
      apply one_rel; [apply IHe2; [now apply (based_mono r)|now apply (erel_mono r)]|]. intros r2 v2 w2 Hi2 Hv2.
      apply binary_rel; [now apply (vrel_mono r1)|exact Hv2]. }
    cbn [t_eval]. destruct o; try apply A.
    apply one_rel; [now apply IHe1|]. intros r1 v w Hi Hv. vinv Hv; try apply r_stuck.
    destruct b0; [now apply r_ret, lrel_one|]. apply IHe2; [now apply (based_mono r)|now apply (erel_mono r)].
  - cbn [t_eval]. assert (vrel r (zero 3 t) (zero 3 t)) as Hz by apply zero_rel. revert Hz.
    generalize (zero 3 t) at 1 3. generalize (zero 3 t). intros acc acc' Ha. revert r acc acc' Hb Hen Ha.
    induction H as [|[f e] fs He _ IH]; intros r acc acc' Hb Hen Ha; [now apply r_ret, lrel_one|].
    apply one_rel; [now apply He|]. intros r1 v w Hi Hv.
    pose proof (set_path_rel r1 [f] acc' acc v w (vrel_mono _ _ _ _ Hi Ha) Hv) as Hs.
    destruct (set_path acc' [f] v), (set_path acc [f] w); try contradiction; [|apply r_stuck].
    apply IH; [now apply (based_mono r)|now apply (erel_mono r)|exact Hs].
Qed.
Lemma eval_all_rel es : forall r en en', based r -> erel r en en' ->
  trel lrel r (t_eval_all E wrap call es en) (t_eval_all E wrap call es en').
Proof.
  induction es as [|e es IH]; intros r en en' Hb Hen; [apply r_ret; constructor|]. cbn [t_eval_all].
  apply one_rel; [now apply eval_rel|]. intros r1 v w Hi Hv.
  eapply bind_rel; [apply IH; [now apply (based_mono r)|now apply (erel_mono r)]|].
  intros r2 vs ws Hi2 Hvs. apply r_ret. constructor; [now apply (vrel_mono r1)|exact Hvs].
Qed.

(** ** Statements *)

Definition frel_fun {A B} (R : ren -> A -> A -> Prop) (S : ren -> B -> B -> Prop) (f g : A -> tree B) : Prop :=
  forall r a b, based r -> R r a b -> trel S r (f a) (g b).

Lemma for_rel n c p b : frel_fun erel lrel c c -> frel_fun erel flrel p p -> frel_fun erel flrel b b ->
  frel_fun erel flrel (t_for_loop n c p b) (t_for_loop n c p b).
Proof.
  intros Hc Hp Hbd. induction n as [|n IH]; intros r e e' Hb He; [apply r_fuel|]. cbn [t_for_loop].
  apply test_rel; [now apply Hc|]. intros r1 [|] Hi; [|apply r_ret; now apply (erel_mono r)].
  eapply bind_rel; [apply Hbd; [now apply (based_mono r)|now apply (erel_mono r)]|].
  intros r2 c1 c2 Hi2 Hc2. assert (incl r r2) as Hi02 by (eapply incl_tran; eassumption).
  destruct c1, c2; try contradiction; try (apply r_ret; exact Hc2).
  eapply bind_rel; [apply Hp; [now apply (based_mono r)|exact Hc2]|].
  intros r3 c1 c2 Hi3 Hc3. destruct c1, c2; try contradiction; try apply r_stuck.
  apply IH; [|exact Hc3]. apply (based_mono r2); [exact Hi3|]. now apply (based_mono r).
Qed.
Lemma range_rel k v b : frel_fun erel flrel b b -> forall ws i,
  frel_fun erel flrel (t_range_loop wrap ws i k v b) (t_range_loop wrap ws i k v b).
Proof.
  intros Hbd. induction ws as [|w ws IH]; intros i r e e' Hb He; [now apply r_ret|]. cbn [t_range_loop].
  eapply bind_rel; [apply declare_rel; [reflexivity|]; constructor; [exact I|exact He]|]. intros r1 e1 e1' Hi1 H1.
  eapply bind_rel; [apply declare_rel; [reflexivity|exact H1]|]. intros r2 e2 e2' Hi2 H2.
  assert (based r2) as Hb2. { apply (based_mono r); [eapply incl_tran; eassumption|exact Hb]. }
  eapply bind_rel; [apply leave_rel, Hbd; assumption|]. intros r3 c1 c2 Hi3 Hc.
  destruct c1, c2; try contradiction; try (apply r_ret; exact Hc).
  apply IH; [now apply (based_mono r2)|exact Hc].
Qed.

Definition t_block (n : nat) := fix block (b : list stmt) (e : env) : tree flow :=
  match b with
  | [] => TRet (Next e)
  | st :: b' => tbind (t_exec E wrap call n st e) (fun c => match c with Next e => block b' e | _ => TRet c end)
  end.
Lemma block_rel n b : Forall (fun st => frel_fun erel flrel (t_exec E wrap call n st) (t_exec E wrap call n st)) b ->
  frel_fun erel flrel (t_block n b) (t_block n b).
Proof.
  induction 1 as [|st b Hst _ IH]; intros r e e' Hb He; [now apply r_ret|]. cbn [t_block].
  eapply bind_rel; [now apply Hst|]. intros r1 c1 c2 Hi Hc.
  destruct c1, c2; try contradiction; try (apply r_ret; exact Hc). apply IH; [now apply (based_mono r)|exact Hc].
Qed.
Lemma scope_rel n b : Forall (fun st => frel_fun erel flrel (t_exec E wrap call n st) (t_exec E wrap call n st)) b ->
  frel_fun erel flrel (fun e => t_leave (t_block n b ([] :: e))) (fun e => t_leave (t_block n b ([] :: e))).
Proof. intros H r e e' Hb He. apply leave_rel, block_rel; [exact H|exact Hb|]. constructor; [exact I|exact He]. Qed.

Lemma then_next r t t' : trel erel r t t' -> trel flrel r (tbind t (fun e => TRet (Next e))) (tbind t' (fun e => TRet (Next e))).
Proof. intros H. eapply bind_rel; [exact H|]. intros. now apply r_ret. Qed.

Lemma exec_rel n st : frel_fun erel flrel (t_exec E wrap call n st) (t_exec E wrap call n st).
Proof.
  induction st using stmt_all; intros r en en' Hb He.
  - cbn [t_exec]. eapply bind_rel; [now apply eval_rel|]. intros r1 vs ws Hi Hv. apply then_next, define_all_rel;
      [now apply (based_mono r)|exact Hv|now apply (erel_mono r)].
  - cbn [t_exec]. eapply bind_rel; [now apply eval_rel|]. intros r1 vs ws Hi Hv. apply then_next, assign_all_rel;
      [now apply (based_mono r)|exact Hv|now apply (erel_mono r)].
  - cbn [t_exec]. eapply bind_rel; [now apply (eval_rel (Bin OpAdd l e))|]. intros r1 vs ws Hi Hv. apply then_next, assign_all_rel;
      [now apply (based_mono r)|exact Hv|now apply (erel_mono r)].
  - cbn [t_exec]. apply then_next, declare_rel; [apply zero_rel|exact He].
  - cbn [t_exec]. eapply bind_rel; [now apply eval_rel|]. intros r1 vs ws Hi Hv. apply r_ret. now apply (erel_mono r).
  - change (trel flrel r (t_test (teval c en) (fun t => if t then (fun e => t_leave (t_block n a ([] :: e))) en
                                                        else (fun e => t_leave (t_block n b ([] :: e))) en))
                         (t_test (teval c en') (fun t => if t then (fun e => t_leave (t_block n a ([] :: e))) en'
                                                         else (fun e => t_leave (t_block n b ([] :: e))) en'))).
    apply test_rel; [now apply eval_rel|]. intros r1 [|] Hi; apply scope_rel;
      try assumption; try (now apply (based_mono r)); now apply (erel_mono r).
  - change (trel flrel r
      (t_leave (tbind (t_block n i ([] :: en)) (fun f =>
         match f with Next e => t_for_loop n (teval c) (t_block n p) (fun e => t_leave (t_block n b ([] :: e))) e | _ => TStuck end)))
      (t_leave (tbind (t_block n i ([] :: en')) (fun f =>
         match f with Next e => t_for_loop n (teval c) (t_block n p) (fun e => t_leave (t_block n b ([] :: e))) e | _ => TStuck end)))).
    apply leave_rel. eapply bind_rel; [apply block_rel; [assumption|exact Hb|]; constructor; [exact I|exact He]|].
    intros r1 c1 c2 Hi Hc. destruct c1, c2; try contradiction; try apply r_stuck.
    apply for_rel; [intros r2 a1 b1; apply eval_rel|now apply block_rel|now apply scope_rel|now apply (based_mono r)|exact Hc].
  - change (trel flrel r
      (tbind (teval e en) (fun vs => match vs with
         | [VStrs ws] => t_range_loop wrap ws 0 k v (fun e => t_leave (t_block n b ([] :: e))) en
         | [VNil] => t_range_loop wrap [] 0 k v (fun e => t_leave (t_block n b ([] :: e))) en | _ => TStuck end))
      (tbind (teval e en') (fun vs => match vs with
         | [VStrs ws] => t_range_loop wrap ws 0 k v (fun e => t_leave (t_block n b ([] :: e))) en'
         | [VNil] => t_range_loop wrap [] 0 k v (fun e => t_leave (t_block n b ([] :: e))) en' | _ => TStuck end))).
    eapply bind_rel; [now apply eval_rel|]. intros r1 vs ws Hi Hv.
    destruct Hv as [|v1 w1 vs ws Hv1 Hv]; [apply r_stuck|]. destruct Hv; [|vinv Hv1; apply r_stuck].
    vinv Hv1; try apply r_stuck; (apply range_rel; [now apply scope_rel|now apply (based_mono r)|now apply (erel_mono r)]).
  - set (pick v en := fix pick (cs : list (expr * list stmt)) : tree flow :=
                  match cs with
                  | [] => t_leave (t_block n d ([] :: en))
                  | (g, b) :: cs' =>
                      tbind (teval g en) (fun ws =>
                        match ws with
                        | [w] => match equal v w with
                                 | Some true => t_leave (t_block n b ([] :: en))
                                 | Some false => pick cs'
                                 | None => TStuck
                                 end
                        | _ => TStuck
                        end)
                  end).
    change (trel flrel r (tbind (teval e en) (fun vs => match vs with [v] => t_catch_break (pick v en cs) | _ => TStuck end))
                         (tbind (teval e en') (fun vs => match vs with [v] => t_catch_break (pick v en' cs) | _ => TStuck end))).
    eapply bind_rel; [now apply eval_rel|]. intros r1 vs ws Hi Hv.
    destruct Hv as [|v1 w1 vs ws Hv1 Hv]; [apply r_stuck|]. destruct Hv; [|apply r_stuck].
    apply catch_rel. assert (based r1) as Hb1 by now apply (based_mono r).
    assert (erel r1 en en') as He1 by now apply (erel_mono r). clear Hb He Hi. revert r1 Hb1 He1 Hv1.
    induction H as [|[g b] cs Hg _ IH]; intros r1 Hb1 He1 Hv1; cbn [pick].
    + now apply (scope_rel n d H0 r1 en en').
    + eapply bind_rel; [now apply eval_rel|]. intros r2 vs ws Hi2 Hv.
      assert (based r2) as Hb2 by now apply (based_mono r1). assert (erel r2 en en') as He2 by now apply (erel_mono r1).
      assert (vrel r2 v1 w1) as Hv2 by now apply (vrel_mono r1).
      destruct Hv as [|v2 w2 vs ws Hw Hv]; [apply r_stuck|]. destruct Hv; [|apply r_stuck].
      rewrite (equal_rel r2 _ _ _ _ Hv2 Hw). destruct (equal w1 w2) as [[|]|]; [|now apply IH|apply r_stuck].
      now apply (scope_rel n b Hg r2 en en').
  - now apply r_ret.
  - cbn [t_exec]. destruct es as [|x [|y es]].
    + eapply bind_rel; [now apply (eval_all_rel [])|]. intros r1 vs ws Hi Hv. now apply r_ret.
    + eapply bind_rel; [now apply eval_rel|]. intros r1 vs ws Hi Hv. now apply r_ret.
    + eapply bind_rel; [now apply (eval_all_rel (x :: y :: es))|]. intros r1 vs ws Hi Hv. now apply r_ret.
Qed.
Lemma exec_block_rel n b : frel_fun erel flrel (t_exec_block E wrap call n b) (t_exec_block E wrap call n b).
Proof.
  induction b as [|st b IH]; intros r e e' Hb He; [now apply r_ret|]. cbn [t_exec_block].
  eapply bind_rel; [now apply exec_rel|]. intros r1 c1 c2 Hi Hc.
  destruct c1, c2; try contradiction; try (apply r_ret; exact Hc). apply IH; [now apply (based_mono r)|exact Hc].
Qed.
End Body.

(** what a function of the source does with related arguments *)
Theorem run_rel n : forall r f vs ws, based r -> lrel r vs ws -> trel lrel r (t_run_on E wrap n f vs) (t_run_on E wrap n f ws).
Proof.
  induction n as [|n IH]; intros r f vs ws Hb H; [apply r_fuel|]. cbn [t_run_on].
  destruct (find_func f) as [g|]; [|apply r_stuck].
  eapply bind_rel; [apply params_rel; [exact H|]; constructor; [exact I|constructor]|]. intros r1 e1 e2 Hi He.
  eapply bind_rel; [apply exec_block_rel; [exact IH|now apply (based_mono r)|exact He]|]. intros r2 c1 c2 Hi2 Hc.
  destruct c1, c2; try contradiction; first [apply r_stuck|apply r_ret]; [constructor|exact Hc].
Qed.
End Program.
