(** * The source does not depend on the addresses of objects

    A renaming is a list of pairs of addresses. Two values, environments or
    programs are related if they differ only as the renaming says. Whatever is run
    on related arguments gives related programs: the interpreter of [GoTree.v]
    follows addresses, it does not look at them. *)

From Coq Require Import String.
From Verif Require Import GoBase GoNum Model GoRand GoSyntax GoSource GoSem GoTree GoTreeSim.
Local Open Scope Z_scope.

Lemma Forall2_impl {A B} (P Q : A -> B -> Prop) l m : (forall a b, P a b -> Q a b) -> Forall2 P l m -> Forall2 Q l m.
Proof. intros H. induction 1; constructor; auto. Qed.

Definition ren := list (nat * nat).

(** ** Values *)

Fixpoint vrel (r : ren) (v w : value) {struct v} : Prop :=
  match v, w with
  | VPtr a, VPtr b => In (a, b) r
  | VStruct t fs, VStruct u gs =>
      t = u /\
      (fix fields (fs gs : list (string * value)) : Prop :=
         match fs, gs with
         | [], [] => True
         | (x, v) :: fs', (y, w) :: gs' => x = y /\ vrel r v w /\ fields fs' gs'
         | _, _ => False
         end) fs gs
  | VPtr _, _ | VStruct _ _, _ => False
  | _, _ => v = w
  end.
Definition frel (r : ren) := fix fields (fs gs : list (string * value)) : Prop :=
  match fs, gs with
  | [], [] => True
  | (x, v) :: fs', (y, w) :: gs' => x = y /\ vrel r v w /\ fields fs' gs'
  | _, _ => False
  end.
Lemma vrel_struct r t fs u gs : vrel r (VStruct t fs) (VStruct u gs) <-> t = u /\ frel r fs gs.
Proof. reflexivity. Qed.

Section ValueInduction.
Context (P : value -> Prop) (HS : forall t fs, Forall (fun p => P (snd p)) fs -> P (VStruct t fs))
  (HO : forall v, (forall t fs, v <> VStruct t fs) -> P v).
Fixpoint value_all (v : value) : P v.
Proof.
  destruct v; try (apply HO; discriminate). apply HS.
  revert fields. fix all 1. intros [|p l]; [constructor|]. constructor; [apply value_all|apply all].
Defined.
End ValueInduction.

Lemma vrel_mono r r' v : forall w, incl r r' -> vrel r v w -> vrel r' v w.
Proof.
  induction v as [t fs IH|v Hv] using value_all; intros w Hi.
  - destruct w; try contradiction. rewrite !vrel_struct. intros [-> H]. split; [reflexivity|].
    revert fields H. induction IH as [|[x v] fs Hv _ IH]; intros [|[y u] gs] H; try exact H.
    cbn [frel snd] in *. destruct H as (-> & H1 & H2). auto.
  - destruct v, w; try exact (fun H => H). { apply Hi. } now destruct (Hv t fields).
Qed.
Lemma frel_mono r r' fs : forall gs, incl r r' -> frel r fs gs -> frel r' fs gs.
Proof.
  induction fs as [|[x v] fs IH]; intros [|[y w] gs] Hi H; try exact H. cbn [frel] in *.
  destruct H as (-> & H1 & H2). repeat split; auto. now apply (vrel_mono r).
Qed.

(** related values have the same form; those without addresses are equal *)
Ltac vinv H :=
  lazymatch type of H with vrel _ ?v ?w => destruct v, w; cbn [vrel] in H; try contradiction; try discriminate H end;
  try (injection H as ?; subst).

Definition lrel (r : ren) (vs ws : list value) : Prop := Forall2 (vrel r) vs ws.
Lemma lrel_mono r r' vs ws : incl r r' -> lrel r vs ws -> lrel r' vs ws.
Proof. intros Hi H. eapply Forall2_impl; [|exact H]. intros. now apply (vrel_mono r). Qed.
Lemma lrel_one r v w : vrel r v w -> lrel r [v] [w].
Proof. repeat constructor. assumption. Qed.

Lemma assoc_frel r x fs : forall gs, frel r fs gs ->
  match assoc x fs, assoc x gs with Some v, Some w => vrel r v w | None, None => True | _, _ => False end.
Proof.
  induction fs as [|[y v] fs IH]; intros [|[z w] gs] H; try contradiction; [exact I|].
  cbn [frel assoc] in *. destruct H as (-> & H1 & H2). destruct (String.eqb x z); [exact H1|now apply IH].
Qed.
Lemma put_frel r x v w fs : forall gs, vrel r v w -> frel r fs gs -> frel r (put x v fs) (put x w gs).
Proof.
  induction fs as [|[y v1] fs IH]; intros [|[z w1] gs] Hv H; try contradiction; [exact I|].
  cbn [frel put] in *. destruct H as (-> & H1 & H2). destruct (String.eqb x z); cbn [frel]; auto.
Qed.
Lemma set_path_rel r path : forall v w new new', vrel r v w -> vrel r new new' ->
  match set_path v path new, set_path w path new' with
  | Some v', Some w' => vrel r v' w' | None, None => True | _, _ => False end.
Proof.
  induction path as [|f path IH]; intros v w new new' H Hn; [exact Hn|]. cbn [set_path].
  vinv H; try exact I. destruct H as [-> H]. fold (frel r) in H. change (frel r fields fields0) in H.
  pose proof (assoc_frel r f _ _ H) as Ha.
  destruct (assoc f fields) as [v|], (assoc f fields0) as [w|]; try contradiction; [|exact I].
  specialize (IH v w new new' Ha Hn).
  destruct (set_path v path new), (set_path w path new'); try contradiction; [|exact I].
  apply vrel_struct. split; [reflexivity|]. now apply put_frel.
Qed.
Lemma zero_rel r d : forall t, vrel r (zero d t) (zero d t).
Proof.
  induction d as [|d IH]; intros t; cbn [zero]; destruct (String.eqb t "string"); try reflexivity;
    destruct (String.eqb t "int"); try reflexivity.
  destruct (assoc t _) as [fs|]; [|reflexivity]. apply vrel_struct. split; [reflexivity|].
  induction fs as [|[x u] fs IHf]; [exact I|]. cbn. auto.
Qed.

(** ** Environments *)

Definition srel (r : ren) (s t : slot) : Prop :=
  match s, t with SVal v, SVal w => vrel r v w | SCell a, SCell b => In (a, b) r | _, _ => False end.
Fixpoint fr_rel (r : ren) (f g : frame) : Prop :=
  match f, g with
  | [], [] => True
  | (x, s) :: f', (y, t) :: g' => x = y /\ srel r s t /\ fr_rel r f' g'
  | _, _ => False
  end.
Definition erel (r : ren) (e e' : env) : Prop := Forall2 (fr_rel r) e e'.

Lemma srel_mono r r' s t : incl r r' -> srel r s t -> srel r' s t.
Proof. destruct s, t; cbn; auto. apply vrel_mono. Qed.
Lemma fr_mono r r' f : forall g, incl r r' -> fr_rel r f g -> fr_rel r' f g.
Proof.
  induction f as [|[x s] f IH]; intros [|[y t] g] Hi H; try exact H. cbn [fr_rel] in *.
  destruct H as (-> & H1 & H2). repeat split; auto. now apply (srel_mono r).
Qed.
Lemma erel_mono r r' e e' : incl r r' -> erel r e e' -> erel r' e e'.
Proof. intros Hi H. eapply Forall2_impl; [|exact H]. intros. now apply (fr_mono r). Qed.

Lemma assoc_fr r x f : forall g, fr_rel r f g ->
  match assoc x f, assoc x g with Some s, Some t => srel r s t | None, None => True | _, _ => False end.
Proof.
  induction f as [|[y s] f IH]; intros [|[z t] g] H; try contradiction; [exact I|].
  cbn [fr_rel assoc] in *. destruct H as (-> & H1 & H2). destruct (String.eqb x z); [exact H1|now apply IH].
Qed.
Lemma put_fr r x s t f : forall g, srel r s t -> fr_rel r f g -> fr_rel r (put x s f) (put x t g).
Proof.
  induction f as [|[y s1] f IH]; intros [|[z t1] g] Hs H; try contradiction; [exact I|].
  cbn [fr_rel put] in *. destruct H as (-> & H1 & H2). destruct (String.eqb x z); cbn [fr_rel]; auto.
Qed.
Lemma find_rel r x e e' : erel r e e' ->
  match find_var x e, find_var x e' with Some s, Some t => srel r s t | None, None => True | _, _ => False end.
Proof.
  induction 1 as [|f g e e' Hf _ IH]; [exact I|]. cbn [find_var]. pose proof (assoc_fr r x _ _ Hf) as Ha.
  destruct (assoc x f), (assoc x g); try contradiction; auto.
Qed.
Lemma set_var_rel r x v w e e' : vrel r v w -> erel r e e' -> erel r (set_var x v e) (set_var x w e').
Proof.
  intros Hv. induction 1 as [|f g e e' Hf He IH]; [constructor|]. cbn [set_var]. pose proof (assoc_fr r x _ _ Hf) as Ha.
  destruct (assoc x f), (assoc x g); try contradiction.
  - constructor; [|exact He]. now apply put_fr.
  - now constructor.
Qed.

(** the package's variables are where they are *)
Definition based (r : ren) : Prop := forall x a, global x = Some a -> In (a, a) r.
Lemma based_mono r r' : incl r r' -> based r -> based r'.
Proof. intros Hi H x a Hx. apply Hi. eapply H, Hx. Qed.
Lemma place_rel r x e e' : based r -> erel r e e' ->
  match place x e, place x e' with Some s, Some t => srel r s t | None, None => True | _, _ => False end.
Proof.
  intros Hb He. unfold place. pose proof (find_rel r x _ _ He) as H.
  destruct (find_var x e), (find_var x e'); try contradiction; [exact H|].
  destruct (global x) eqn:Hg; [|exact I]. cbn. eapply Hb, Hg.
Qed.

Definition flrel (r : ren) (c d : flow) : Prop :=
  match c, d with
  | Next e, Next e' | Broken e, Broken e' => erel r e e'
  | Returned vs, Returned ws => lrel r vs ws
  | _, _ => False
  end.

(** ** Programs *)

Inductive trel {A} (R : ren -> A -> A -> Prop) : ren -> tree A -> tree A -> Prop :=
| r_ret r a b : R r a b -> trel R r (TRet a) (TRet b)
| r_crash r p : trel R r (TCrash p) (TCrash p)
| r_stuck r : trel R r TStuck TStuck
| r_fuel r : trel R r TFuel TFuel
| r_read r a b k k' : In (a, b) r ->
    (forall v w, vrel r v w -> trel R r (k (Some v)) (k' (Some w))) -> trel R r (TRead a k) (TRead b k')
| r_write r a b v w t t' : In (a, b) r -> vrel r v w -> trel R r t t' -> trel R r (TWrite a v t) (TWrite b w t')
| r_alloc r v w k k' : vrel r v w -> (forall a b, trel R ((a, b) :: r) (k a) (k' b)) -> trel R r (TAlloc v k) (TAlloc w k')
| r_random r m k k' : (forall z, trel R r (k z) (k' z)) -> trel R r (TRandom m k) (TRandom m k')
| r_log r l t t' : trel R r t t' -> trel R r (TLog l t) (TLog l t').

Lemma bind_rel {A B} (R : ren -> A -> A -> Prop) (S : ren -> B -> B -> Prop) r t t' f f' :
  trel R r t t' -> (forall r' a b, incl r r' -> R r' a b -> trel S r' (f a) (f' b)) ->
  trel S r (tbind t f) (tbind t' f').
Proof.
  intros H. revert f f'. induction H as [| | | |r a b k k' Hab _ IH|r a b v w t t' Hab Hv _ IH|r v w k k' Hv _ IH|r m k k' _ IH|r l t t' _ IH];
    intros f f' Hf; cbn [tbind]; try constructor; auto using incl_refl.
  intros a b. apply IH. intros r' x y Hi. apply Hf. intros p Hp. apply Hi. now right.
Qed.

Lemma one_rel r t t' k k' : trel lrel r t t' ->
  (forall r' v w, incl r r' -> vrel r' v w -> trel lrel r' (k v) (k' w)) ->
  trel lrel r (t_one t k) (t_one t' k').
Proof.
  intros H Hk. apply (bind_rel _ _ _ _ _ _ _ H). intros r' vs ws Hi Hv.
  destruct Hv as [|v w vs ws Hv [|]]; try constructor. now apply Hk.
Qed.
Lemma test_rel {A} (R : ren -> A -> A -> Prop) r t t' k k' : trel lrel r t t' ->
  (forall r' b, incl r r' -> trel R r' (k b) (k' b)) -> trel R r (t_test t k) (t_test t' k').
Proof.
  intros H Hk. apply (bind_rel _ _ _ _ _ _ _ H). intros r' vs ws Hi Hv.
  destruct Hv as [|v w vs ws Hv [|]]; try constructor; vinv Hv; try constructor. now apply Hk.
Qed.
Lemma leave_rel r t t' : trel flrel r t t' -> trel flrel r (t_leave t) (t_leave t').
Proof.
  intros H. apply (bind_rel _ _ _ _ _ _ _ H). intros r' [] [] Hi Hc; try contradiction; constructor; cbn in *.
  - destruct Hc; [constructor|assumption].
  - destruct Hc; [constructor|assumption].
  - exact Hc.
Qed.
Lemma catch_rel r t t' : trel flrel r t t' -> trel flrel r (t_catch_break t) (t_catch_break t').
Proof. intros H. apply (bind_rel _ _ _ _ _ _ _ H). intros r' [] [] Hi Hc; try contradiction; constructor; exact Hc. Qed.

Lemma read_var_rel r x e e' : based r -> erel r e e' -> trel lrel r (t_read_var x e) (t_read_var x e').
Proof.
  intros Hb He. unfold t_read_var. pose proof (place_rel r x _ _ Hb He) as H.
  destruct (place x e) as [[]|], (place x e') as [[]|]; try contradiction; cbn in H.
  - constructor. now apply lrel_one.
  - constructor; [exact H|]. intros v w Hv. constructor. now apply lrel_one.
  - unfold predeclared. repeat match goal with |- context [String.eqb x ?y] => destruct (String.eqb x y) end;
      try constructor; now apply lrel_one.
Qed.
Lemma add_rel r x s t e e' : srel r s t -> erel r e e' ->
  erel r (match e with [] => [[(x, s)]] | fr :: e0 => ((x, s) :: fr) :: e0 end)
         (match e' with [] => [[(x, t)]] | fr :: e0 => ((x, t) :: fr) :: e0 end).
Proof. intros Hs He. destruct He; repeat constructor; assumption. Qed.
Lemma incl_cons_r {A} (a : A) l : incl l (a :: l).
Proof. intros x H. now right. Qed.
Lemma declare_rel r x v w e e' : vrel r v w -> erel r e e' -> trel erel r (t_declare x v e) (t_declare x w e').
Proof.
  intros Hv He. unfold t_declare. destruct (String.eqb x "_"); [now constructor|].
  vinv Hv; try (constructor; apply add_rel; [assumption || reflexivity|assumption]).
  constructor; [exact Hv|]. intros a b. constructor. apply add_rel; [now left|].
  now apply (erel_mono r _ _ _ (incl_cons_r _ _)).
Qed.
Lemma store_rel r a b path v w e e' : In (a, b) r -> vrel r v w -> erel r e e' ->
  trel erel r (t_store_path a path v e) (t_store_path b path w e').
Proof.
  intros Hab Hv He. constructor; [exact Hab|]. intros old old' Ho. pose proof (set_path_rel r path _ _ _ _ Ho Hv) as H.
  destruct (set_path old path v), (set_path old' path w); try contradiction; constructor; auto. now constructor.
Qed.
Lemma assign_rel r l v w e e' : based r -> vrel r v w -> erel r e e' ->
  trel erel r (t_assign l v e) (t_assign l w e').
Proof.
  intros Hb Hv He. unfold t_assign. destruct (path_of l []) as [[x path]|]; [|constructor].
  destruct (String.eqb x "_"); [now constructor|]. pose proof (place_rel r x _ _ Hb He) as H.
  destruct (place x e) as [[u|a]|], (place x e') as [[u'|b]|]; try contradiction; cbn [srel] in H.
  - assert (trel erel r (TRet (set_var x v e)) (TRet (set_var x w e'))) by (constructor; apply set_var_rel; assumption).
    vinv H; destruct path; try assumption; try apply r_stuck; try apply r_crash. apply store_rel; assumption.
  - now apply store_rel.
  - constructor.
Qed.
Lemma assign_all_rel ls : forall r vs ws e e', based r -> lrel r vs ws -> erel r e e' ->
  trel erel r (t_assign_all ls vs e) (t_assign_all ls ws e').
Proof.
  induction ls as [|l ls IH]; intros r vs ws e e' Hb Hv He; destruct Hv as [|v w vs ws Hv Hvs]; cbn [t_assign_all];
    try constructor; [exact He|].
  eapply bind_rel; [now apply assign_rel|]. intros r' e1 e1' Hi H1.
  apply IH; [now apply (based_mono r)|now apply (lrel_mono r)|exact H1].
Qed.
Lemma define_rel r x v w e e' : based r -> vrel r v w -> erel r e e' ->
  trel erel r (t_define x v e) (t_define x w e').
Proof.
  intros Hb Hv He. unfold t_define. pose proof He as He0. destruct He as [|f g e e' Hf He]; [constructor|].
  pose proof (assoc_fr r x _ _ Hf) as Ha. destruct (assoc x f), (assoc x g); try contradiction.
  - now apply assign_rel.
  - now apply declare_rel.
Qed.
Lemma define_all_rel ls : forall r vs ws e e', based r -> lrel r vs ws -> erel r e e' ->
  trel erel r (t_define_all ls vs e) (t_define_all ls ws e').
Proof.
  induction ls as [|l ls IH]; intros r vs ws e e' Hb Hv He; destruct Hv as [|v w vs ws Hv Hvs]; cbn [t_define_all];
    try constructor; [exact He|].
  eapply bind_rel; [now apply define_rel|]. intros r' e1 e1' Hi H1.
  apply IH; [now apply (based_mono r)|now apply (lrel_mono r)|exact H1].
Qed.
Lemma params_rel xs : forall r vs ws e e', lrel r vs ws -> erel r e e' ->
  trel erel r (t_bind_params xs vs e) (t_bind_params xs ws e').
Proof.
  induction xs as [|l ls IH]; intros r vs ws e e' Hv He; destruct Hv as [|v w vs ws Hv Hvs]; cbn [t_bind_params];
    try constructor; [exact He|].
  eapply bind_rel; [now apply declare_rel|]. intros r' e1 e1' Hi H1.
  apply IH; [now apply (lrel_mono r)|exact H1].
Qed.

Lemma big_at_rel {A} (R : ren -> A -> A -> Prop) r v w k k' : vrel r v w -> (forall z, trel R r (k z) (k' z)) ->
  trel R r (t_big_at v k) (t_big_at w k').
Proof.
  intros Hv Hk. unfold t_big_at. vinv Hv; try constructor; [assumption|]. intros v w Hv'. vinv Hv'; try constructor. apply Hk.
Qed.
Lemma opt_rel r {A} (o : option A) f g : (forall a, vrel r (f a) (g a)) -> trel lrel r (t_opt o f) (t_opt o g).
Proof. intros H. destruct o; [apply r_ret, lrel_one, H|apply r_stuck]. Qed.
Lemma same_strings_rel r f : forall f' g g', frel r f f' -> frel r g g' -> same_strings f g = same_strings f' g'.
Proof.
  induction f as [|[x v] f IH]; intros [|[x' v'] f'] g g' Hf Hg; try contradiction.
  - destruct g as [|[]], g' as [|[]]; try contradiction; reflexivity.
  - cbn [frel] in Hf. destruct Hf as (-> & Hv & Hf).
    destruct g as [|[y w] g], g' as [|[y' w'] g']; try contradiction; [vinv Hv; reflexivity|].
    cbn [frel] in Hg. destruct Hg as (-> & Hw & Hg). cbn [same_strings]. rewrite (IH f' g g' Hf Hg).
    vinv Hv; try reflexivity. vinv Hw; reflexivity.
Qed.
Lemma fresh_rel r v w : vrel r v w -> trel lrel r (t_fresh v) (t_fresh w).
Proof. intros H. apply r_alloc; [exact H|]. intros a b. apply r_ret, lrel_one. now left. Qed.

(** results without addresses *)
Definition plain (t : tree (list value)) : Prop :=
  match t with TRet vs => Forall (fun v => match v with VPtr _ | VStruct _ _ => False | _ => True end) vs
             | TCrash _ | TStuck | TFuel => True | _ => False end.
Lemma plain_rel r t : plain t -> trel lrel r t t.
Proof.
  destruct t; cbn; try contradiction; intros H; [apply r_ret|apply r_crash|apply r_stuck|apply r_fuel].
  induction H as [|v vs Hv _ IH]; constructor; [|exact IH]. destruct v; try contradiction; reflexivity.
Qed.
Ltac plainly := apply plain_rel; cbn; repeat constructor.

Lemma deep_equal_rel r v v' w w' : vrel r v v' -> vrel r w w' -> trel lrel r (t_deep_equal v w) (t_deep_equal v' w').
Proof.
  intros Hv Hw. unfold t_deep_equal. vinv Hv; try (vinv Hw; plainly). vinv Hw; try plainly.
  apply r_read; [exact Hv|]. intros c c' Hc. apply r_read; [exact Hw|]. intros d d' Hd.
  vinv Hc; try apply r_stuck. vinv Hd; try apply r_stuck.
  destruct Hc as [<- Hc], Hd as [<- Hd]. change (frel r fields fields0) in Hc. change (frel r fields1 fields2) in Hd.
  destruct (String.eqb t t1); [|apply r_stuck].
  rewrite (same_strings_rel r _ _ _ _ Hc Hd). apply opt_rel. reflexivity.
Qed.

Lemma println_rel r vs ws : lrel r vs ws -> println vs = println ws.
Proof.
  induction 1 as [|v w vs ws Hv Hvs IH]; [reflexivity|].
  assert (printed v = printed w) as Hp by (vinv Hv; reflexivity).
  destruct Hvs; cbn [println]; rewrite Hp; [reflexivity|]. cbn [println] in IH. now rewrite IH.
Qed.

Lemma pure_opt {A} (o : option A) f : pure (fun s => opt o f s) = match o with Some a => TRet [f a] | None => TStuck end.
Proof. now destruct o. Qed.
Lemma pure_error {A} (o : result A) f : pure (fun s => or_error o f s) = match o with Ok a => TRet [f a; VNil] | Err e => TRet [VNil; VErr e] end.
Proof. now destruct o. Qed.
Lemma pure_panic {A} (o : outcome A) f : pure (fun s => or_panic o f s) = match o with Ret a => TRet [f a] | Panic p => TCrash p end.
Proof. now destruct o. Qed.

Ltac same :=
  cbv beta iota; rewrite ?pure_opt, ?pure_error, ?pure_panic;
  repeat match goal with |- context [match ?x with _ => _ end] => lazymatch x with context [match _ with _ => _ end] => fail | _ => destruct x end end;
  first [apply r_stuck | apply r_crash | apply r_fuel | apply r_ret; repeat (apply Forall2_cons; [reflexivity|]); apply Forall2_nil].

Lemma builtin_rel r f vs ws : lrel r vs ws -> trel lrel r (t_builtin f vs) (t_builtin f ws).
Proof.
  intros H. unfold t_builtin.
  destruct (String.eqb f "sha256.New") eqn:F1. { destruct H; [now apply fresh_rel|apply r_stuck]. }
  destruct (String.eqb f "ripemd160.New") eqn:F2. { destruct H; [now apply fresh_rel|apply r_stuck]. }
  destruct (String.eqb f "big.NewInt") eqn:F3.
  { destruct H as [|v w vs ws Hv H]; [apply r_stuck|]. vinv Hv; try apply r_stuck.
    destruct H; [now apply fresh_rel|apply r_stuck]. }
  destruct (String.eqb f "fmt.Sprintf") eqn:F4.
  { apply String.eqb_eq in F4. subst f.
    destruct H as [|v1 w1 vs ws Hv1 H]; [apply r_stuck|].
    destruct H as [|v2 w2 vs ws Hv2 H]; [vinv Hv1; apply r_stuck|].
    destruct H as [|v3 w3 vs ws Hv3 H]; [|vinv Hv1; try apply r_stuck; vinv Hv2; apply r_stuck].
    vinv Hv1; try apply r_stuck; vinv Hv2; try apply r_stuck.
    - change (trel lrel r (pure (fun s => if known_verb s0 then Done [VStr (str "<nil>")] s else Stuck))
                          (pure (fun s => if known_verb s0 then Done [VStr (str "<nil>")] s else Stuck))). same.
    - change (trel lrel r (pure (opt (sprintf s0 z0) VStr)) (pure (opt (sprintf s0 z0) VStr))). same.
    - apply r_read; [exact Hv2|]. intros c c' Hc. vinv Hc; try apply r_stuck. apply opt_rel. reflexivity. }
  destruct (String.eqb f "log.Println") eqn:F5.
  { rewrite (println_rel r _ _ H). destruct (println ws); [apply r_log, r_ret; constructor|apply r_stuck]. }
  destruct (String.eqb f "rand.Int") eqn:F6.
  { destruct H as [|v1 w1 vs ws Hv1 H]; [apply r_stuck|].
    destruct H as [|v2 w2 vs ws Hv2 H]; [vinv Hv1; apply r_stuck|].
    destruct H as [|v3 w3 vs ws Hv3 H]; [|vinv Hv1; apply r_stuck].
    vinv Hv1; try apply r_stuck. apply big_at_rel; [exact Hv2|]. intros z. destruct (z <=? 0); [apply r_stuck|].
    apply r_random. intros [z'|]; [|plainly].
    apply r_alloc; [reflexivity|]. intros a b. apply r_ret. constructor; [now left|]. now apply lrel_one. }
  destruct (String.eqb f "reflect.DeepEqual") eqn:F7.
  { destruct H as [|v1 w1 vs ws Hv1 H]; [apply r_stuck|].
    destruct H as [|v2 w2 vs ws Hv2 H]; [apply r_stuck|].
    destruct H as [|v3 w3 vs ws Hv3 H]; [now apply deep_equal_rel|apply r_stuck]. }
  unfold builtin. rewrite F1, F2, F3, F4, F5, F6, F7. clear F1 F2 F3 F4 F5 F6 F7.
  Ltac arg1 H := let Hv := fresh in destruct H as [|? ? ? ? Hv H]; [same|vinv Hv; try same].
  destruct (String.eqb f "len"). { arg1 H; destruct H; same. }
  destruct (String.eqb f "append"). { arg1 H; arg1 H; destruct H; same. }
  destruct (String.eqb f "string"). { arg1 H; destruct H; same. }
  destruct (String.eqb f "int64"). { arg1 H; destruct H; same. }
  destruct (String.eqb f "panic"). { arg1 H; destruct H; same. }
  destruct (String.eqb f "errors.New"). { arg1 H; destruct H; same. }
  destruct (String.eqb f "base58.Decode"). { arg1 H; destruct H; same. }
  destruct (String.eqb f "base58.Encode"). { arg1 H; destruct H; same. }
  destruct (String.eqb f "hex.DecodeString"). { arg1 H; destruct H; same. }
  destruct (String.eqb f "hex.EncodeToString"). { arg1 H; destruct H; same. }
  destruct (String.eqb f "strings.ToLower"). { arg1 H; destruct H; same. }
  destruct (String.eqb f "strings.Split"). { arg1 H; arg1 H; destruct H; same. }
  destruct (String.eqb f "strings.Join"). { arg1 H; arg1 H; destruct H; same. }
  apply r_stuck.
Qed.
