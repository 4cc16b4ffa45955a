(** * Goroutines on one machine: how they end *)

From Coq Require Import String.
From Verif Require Import GoBase Model GoRand GoSem GoTree GoTreeSim SpecSource SourceBase SpecConc ConcFacts.
From Verif Require Import GoRename GoRenameRun SpecMachine MachineFacts.
Local Open Scope Z_scope.

(** ** One bound for all the bytes the reader may hand out *)

Lemma byte_bound (Q : byte -> nat -> Prop) : (forall b, exists N, forall n, (N <= n)%nat -> Q b n) ->
  exists N, forall n b, (N <= n)%nat -> Q b n.
Proof.
  intros H. assert (forall k, exists N, forall n b, (N <= n)%nat -> (Byte.to_nat b < k)%nat -> Q b n) as K.
  { induction k as [|k (N & IH)]; [exists 0%nat; intros; lia|].
    destruct (Byte.of_nat k) as [b0|] eqn:Hk.
    - destruct (H b0) as (M & HM). exists (max N M). intros n b Hn Hb.
      destruct (Nat.eq_dec (Byte.to_nat b) k) as [He|He]; [|apply IH; lia].
      rewrite <- He, Byte.of_to_nat in Hk. injection Hk as ->. apply HM. lia.
    - exists N. intros n b Hn Hb. destruct (Nat.eq_dec (Byte.to_nat b) k) as [He|He]; [|apply IH; lia].
      rewrite <- He, Byte.of_to_nat in Hk. discriminate. }
  destruct (K 256%nat) as (N & HN). exists N. intros n b Hn. apply HN; [exact Hn|].
  pose proof (Byte.to_nat_bounded b). lia.
Qed.
Lemma bytes_bound L : forall P : list byte -> nat -> Prop, (forall bs, exists N, forall n, (N <= n)%nat -> P bs n) ->
  exists N, forall n bs, (N <= n)%nat -> (length bs <= L)%nat -> P bs n.
Proof.
  induction L as [|L IH]; intros P H.
  - destruct (H []) as (N & HN). exists N. intros n bs Hn Hl. destruct bs; [now apply HN|cbn in Hl; lia].
  - destruct (byte_bound (fun b n => forall bs, (length bs <= L)%nat -> P (b :: bs) n)) as (N & HN).
    { intros b. destruct (IH (fun bs => P (b :: bs))) as (N & HN); [intros bs; apply H|]. exists N. intros n Hn bs. now apply HN. }
    destruct (H []) as (M & HM). exists (max N M). intros n [|b bs] Hn Hl; [apply HM; lia|].
    apply HN; cbn in Hl; lia.
Qed.
Lemma list_bound {A} (P : A -> nat -> Prop) (l : list A) : (forall a, In a l -> exists N, forall n, (N <= n)%nat -> P a n) ->
  exists N, forall n, (N <= n)%nat -> Forall (fun a => P a n) l.
Proof.
  induction l as [|a l IH]; intros H; [exists 0%nat; constructor|].
  destruct (H a (or_introl eq_refl)) as (N & HN). destruct IH as (M & HM). { intros b Hb. apply H. now right. }
  exists (max N M). intros n Hn. constructor; [apply HN; lia|apply HM; lia].
Qed.

(** ** From relations to renamings *)

Definition mapping (r : ren) (a : nat) : nat :=
  match find (fun p => Nat.eqb (fst p) a) r with Some (_, b) => b | None => a end.
Lemma mapping_in r a b : (forall a b a' b', In (a, b) r -> In (a', b') r -> (a = a' <-> b = b')) -> In (a, b) r -> mapping r a = b.
Proof.
  intros H1 Hab. unfold mapping. destruct (find (fun p => Nat.eqb (fst p) a) r) as [[a' b']|] eqn:Hf.
  - apply find_some in Hf as [Hin He]. apply Nat.eqb_eq in He. cbn in He. subst a'. now apply (H1 a b' a b).
  - apply (find_none _ _ Hf) in Hab. cbn in Hab. now rewrite Nat.eqb_refl in Hab.
Qed.
Lemma rename_rel r : (forall a b a' b', In (a, b) r -> In (a', b') r -> (a = a' <-> b = b')) ->
  forall v w, vrel r v w -> rename (mapping r) v = w.
Proof.
  intros H1. induction v as [t fs IH|v Hv] using value_all; intros w H.
  - destruct w; try contradiction. apply vrel_struct in H as [<- H]. cbn [rename]. f_equal.
    revert fields H. induction IH as [|[x v] fs Hv _ IHf]; intros [|[y w] gs] H; try contradiction; [reflexivity|].
    cbn [frel] in H. destruct H as (-> & H2 & H3). cbn [map fst snd] in *. rewrite (Hv _ H2), (IHf _ H3). reflexivity.
  - destruct v; destruct w; cbn [vrel] in H; try contradiction; try discriminate H; try (injection H as ?; subst); try reflexivity.
    + cbn [rename]. f_equal. now apply mapping_in.
    + exfalso. eapply Hv. reflexivity.
Qed.
Lemma renames_rel r : (forall a b a' b', In (a, b) r -> In (a', b') r -> (a = a' <-> b = b')) ->
  forall vs ws, lrel r vs ws -> map (rename (mapping r)) vs = ws.
Proof. intros H1. induction 1; cbn [map]; [reflexivity|]. rewrite (rename_rel r H1 _ _ H). now f_equal. Qed.

Section General.
Context {A : Type} (R : ren -> A -> A -> Prop) (sh : list value) (L : nat).

Lemma tracks_copied mem mk rd sc i t0 (ro : routine A) r ow c :
  tracks R sh L mem mk rd sc i t0 ro r ow c -> copied (length sh) (mapping r) (sh ++ ow) mem.
Proof.
  intros T. pose proof (tr_one _ _ _ _ _ _ _ _ _ _ _ _ _ T) as H1. repeat split.
  - intros a Ha. apply mapping_in; [exact H1|]. exact (tr_shared _ _ _ _ _ _ _ _ _ _ _ _ _ T a Ha).
  - intros a b Ha Hb He.
    assert (forall x, (x < length (sh ++ ow))%nat -> In (x, mapping r x) r) as K.
    { intros x Hx. destruct (nth_error (sh ++ ow) x) as [v|] eqn:Hv; [|apply nth_error_None in Hv; lia].
      destruct (tr_heap _ _ _ _ _ _ _ _ _ _ _ _ _ T _ _ Hv) as (y & _ & Hxy & _).
      now rewrite (mapping_in r x y H1 Hxy). }
    pose proof (K _ Ha) as Ka. pose proof (K _ Hb) as Kb. rewrite He in Ka. now apply (H1 _ _ _ _ Ka Kb).
  - intros a v Hv. destruct (tr_heap _ _ _ _ _ _ _ _ _ _ _ _ _ T _ _ Hv) as (b & w & Hab & Hw & Hr).
    now rewrite (mapping_in r a b H1 Hab), (rename_rel r H1 _ _ Hr).
Qed.

(** the moment [m], as seen from goroutine [i] *)
Lemma tracked_now ts m i t0 ro : all_tracked R sh L ts m -> ends_well sh L t0 ->
  nth_error ts i = Some t0 -> nth_error (routines m) i = Some ro ->
  keeps_apart m i (todo ro) /\ todo ro <> TStuck /\ todo ro <> TFuel /\
  (forall y, todo ro = TRet y -> exists r x ow,
     handle (length sh) t0 (State sh (got ro) []) = Done x (State (sh ++ ow) [] (lines_of i (screen m))) /\
     R r x y /\ (forall a b a' b', In (a, b) r -> In (a', b') r -> (a = a' <-> b = b')) /\
     copied (length sh) (mapping r) (sh ++ ow) (memory m)) /\
  (forall p, todo ro = TCrash p -> exists ow,
     handle (length sh) t0 (State sh (got ro) []) = Crash p (State (sh ++ ow) [] (lines_of i (screen m)))).
Proof.
  intros (O & _ & T) F Hi Hro. destruct (T i t0 ro Hi Hro) as (r & ow & c & Ti).
  pose proof (tr_good _ _ _ _ _ _ _ _ _ _ _ _ _ Ti F) as G. pose proof (tr_code _ _ _ _ _ _ _ _ _ _ _ _ _ Ti) as C.
  pose proof (tr_alone _ _ _ _ _ _ _ _ _ _ _ _ _ Ti [] (fun _ => eq_refl)) as HA. rewrite app_nil_r in HA.
  pose proof (tracks_copied _ _ _ _ _ _ _ _ _ _ Ti) as HC.
  pose proof (tr_mine _ _ _ _ _ _ _ _ _ _ _ _ _ Ti) as HM.
  pose proof (tr_one _ _ _ _ _ _ _ _ _ _ _ _ _ Ti) as H1.
  split; [|split; [|split; [|split]]].
  - destruct (todo ro) eqn:Hc; try exact I; inversion C; subst; cbn [keeps_apart].
    + destruct (HM _ _ ltac:(eassumption)) as [[Hlt ->]|[_ Hm]]; [left; now apply (or_shared _ _ _ O)|now right].
    + cbn [handle] in G. match type of G with good (if (?x <? _)%nat then _ else _) => destruct (Nat.ltb_spec x (length sh)) end; [contradiction|].
      destruct (HM _ _ ltac:(eassumption)) as [[Hlt _]|[_ Hm]]; [lia|exact Hm].
  - intros Hc. rewrite Hc in C. inversion C; subst. exact G.
  - intros Hc. rewrite Hc in C. inversion C; subst. exact G.
  - intros y Hc. rewrite Hc in C. inversion C as [r1 x y1 Hxy| | | | | | | |]; subst. exists r, x, ow. auto.
  - intros p Hc. rewrite Hc in C. inversion C; subst. exists ow. exact HA.
Qed.

Lemma no_race ts m : all_tracked R sh L ts m -> Forall (ends_well sh L) ts -> ~ race m.
Proof.
  intros T F (i & j & ro1 & ro2 & a & w1 & w2 & Hij & H1 & H2 & A1 & A2 & Hw).
  pose proof T as (_ & Hl & _).
  assert (forall x ro, nth_error (routines m) x = Some ro -> keeps_apart m x (todo ro)) as K.
  { intros x ro Hx. destruct (nth_error ts x) as [t0|] eqn:Ht.
    - refine (proj1 (tracked_now ts m x t0 ro T _ Ht Hx)). eapply Forall_forall; [exact F|eapply nth_error_In, Ht].
    - apply nth_error_None in Ht. assert (x < length (routines m))%nat by (apply nth_error_Some; congruence). lia. }
  pose proof (K _ _ H1) as K1. pose proof (K _ _ H2) as K2.
  destruct (todo ro1); cbn [about_to] in A1; try discriminate; injection A1 as -> <-;
    destruct (todo ro2); cbn [about_to] in A2; try discriminate; injection A2 as -> <-;
    cbn [keeps_apart] in K1, K2; try discriminate Hw; repeat destruct K1 as [K1|K1]; repeat destruct K2 as [K2|K2]; congruence.
Qed.

Lemma shared_kept ts m : all_tracked R sh L ts m -> firstn (length sh) (memory m) = sh.
Proof.
  intros ([_ Hs Hm] & _). revert Hm. generalize (memory m). clear Hs. induction sh as [|v l IH]; intros mem Hm; [reflexivity|].
  destruct mem as [|w mem].
  - specialize (Hm 0%nat ltac:(cbn; lia)). discriminate.
  - cbn [length firstn]. pose proof (Hm 0%nat ltac:(cbn; lia)) as H0. injection H0 as ->. f_equal. apply IH.
    intros a Ha. apply (Hm (S a)). cbn. lia.
Qed.

(** ** No deadlock, and an end *)

Lemma routine_moves i (ro : routine A) mem mk rd sc : todo ro <> TStuck -> todo ro <> TFuel ->
  ended ro \/ exists ro' mem' mk' rd' sc', moves i ro mem mk rd sc ro' mem' mk' rd' sc'.
Proof.
  destruct ro as [c g d]. unfold ended. cbn [todo]. intros H1 H2. destruct c as [| | | |a k|a v k|v k|max k|l k]; try congruence; auto; right.
  - eexists _, _, _, _, _. apply moves_read.
  - eexists _, _, _, _, _. apply moves_write.
  - eexists _, _, _, _, _. apply moves_alloc.
  - set (try := if d then [] else rd).
    assert (d = true -> try = []) as Hd by (intros ->; reflexivity).
    destruct (rand_int max try) as [[z rest]|] eqn:Hr.
    + apply rand_int_split in Hr as (used & Hu & Hr). eexists _, _, _, _, _.
      apply (moves_random i max k g d mem mk rd sc used (if d then rd else rest) z); [|intros Ht|exact Hr].
      * unfold try in Hu. destruct d; [|subst rd; apply shuffle_app]. symmetry in Hu. apply app_eq_nil in Hu as [-> _].
        apply shuffle_leave_all.
      * rewrite (Hd Ht) in Hu. symmetry in Hu. now apply app_eq_nil in Hu as [-> _].
    + eexists _, _, _, _, _. apply (moves_no_random i max k g d mem mk rd sc try (if d then rd else [])); [|exact Hd|exact Hr].
      unfold try. destruct d; [apply shuffle_leave_all|]. rewrite <- (app_nil_r rd) at 2. apply shuffle_app.
  - eexists _, _, _, _, _. apply moves_log.
Qed.

Lemma machine_moves ts m : all_tracked R sh L ts m -> Forall (ends_well sh L) ts ->
  Forall ended (routines m) \/ exists m', tick m m'.
Proof.
  intros T F. pose proof T as (_ & Hl & _).
  assert (forall x ro, nth_error (routines m) x = Some ro -> todo ro <> TStuck /\ todo ro <> TFuel) as K.
  { intros x ro Hx. destruct (nth_error ts x) as [t0|] eqn:Ht.
    - destruct (tracked_now ts m x t0 ro T (proj1 (Forall_forall _ _) F _ (nth_error_In _ _ Ht)) Ht Hx) as (_ & H1 & H2 & _). auto.
    - apply nth_error_None in Ht. assert (x < length (routines m))%nat by (apply nth_error_Some; congruence). lia. }
  destruct m as [mem mk rd sc ros]. cbn [routines] in *. clear T F Hl.
  assert (forall before after, ros = before ++ after -> Forall ended after \/ exists m', tick (Machine mem mk rd sc ros) m') as P.
  { intros before after. revert before. induction after as [|ro after IH]; intros before He; [left; constructor|].
    assert (nth_error ros (length before) = Some ro) as Hx.
    { rewrite He, nth_error_app2, Nat.sub_diag by lia. reflexivity. }
    destruct (K _ _ Hx) as [H1 H2].
    destruct (routine_moves (length before) ro mem mk rd sc H1 H2) as [Hf|(ro' & mem' & mk' & rd' & sc' & M)].
    - destruct (IH (before ++ [ro])) as [H|H]; [rewrite <- app_assoc; exact He|left; now constructor|now right].
    - right. eexists. rewrite He. econstructor. exact M. }
  exact (P [] ros eq_refl).
Qed.
End General.

Definition next {A} (ro' ro : routine A) : Prop :=
  exists i mem mk rd sc mem' mk' rd' sc', moves i ro mem mk rd sc ro' mem' mk' rd' sc'.
Lemma next_wf {A} (ro : routine A) : Acc next ro.
Proof.
  destruct ro as [c g d]. revert g d. induction c; intros g d; constructor; intros ro' (i & mem & mk & rd & sc & mem' & mk' & rd' & sc' & M);
    inversion M; subst; auto.
Qed.
Inductive list_next {A} : list (routine A) -> list (routine A) -> Prop :=
| list_next_here before t t' after : next t' t -> list_next (before ++ t' :: after) (before ++ t :: after).
Lemma list_next_wf {A} (ts : list (routine A)) : Acc list_next ts.
Proof.
  assert (forall ts' (t : routine A) ts, list_next ts' (t :: ts) ->
    (exists t', next t' t /\ ts' = t' :: ts) \/ (exists us, list_next us ts /\ ts' = t :: us)) as HC.
  { intros ts' t ts0 H. inversion H as [before u u' after Hc Heq1 Heq2]. destruct before as [|b before]; cbn in *.
    - inversion Heq2; subst. left. eauto.
    - inversion Heq2; subst. right. eexists. split; [|reflexivity]. now constructor. }
  induction ts as [|t ts IH].
  - constructor. intros ts' H. inversion H as [before]. now destruct before.
  - pose proof (next_wf t) as Ht. revert ts IH. induction Ht as [t _ IHt].
    intros ts IH. pose proof IH as Hts. induction Hts as [ts _ IHts].
    constructor. intros us H. apply HC in H as [(t' & Hc & ->)|(us' & Hc & ->)].
    + now apply IHt.
    + apply IHts; [exact Hc|]. now apply IH.
Qed.
Lemma no_endless_run {A} (f : nat -> machine A) : ~ forall i, tick (f i) (f (S i)).
Proof.
  intros H. assert (forall l, Acc list_next l -> forall i, routines (f i) <> l) as K.
  { intros l Ha. induction Ha as [l _ IH]. intros i Hi. apply (IH (routines (f (S i)))) with (i := S i); [|reflexivity].
    rewrite <- Hi. specialize (H i). inversion H; subst. cbn [routines]. constructor. repeat eexists. eassumption. }
  exact (K _ (list_next_wf _) 0%nat eq_refl).
Qed.

(** ** Calls *)

Lemma api_points h f args : api_call h f args -> Forall (points_below (length h)) args.
Proof.
  assert (forall v n, is_net h v n -> points_below (length h) v) as KN.
  { intros v [n|] H; [destruct H as (a & -> & H)|cbn in H; subst v; exact I]. apply nth_error_Some. congruence. }
  assert (forall v p, is_priv_ptr h v p -> points_below (length h) v) as KP.
  { intros v [p|] H; [destruct H as (a & ? & ? & -> & H & _)|cbn in H; subst v; exact I]. apply nth_error_Some. congruence. }
  assert (forall v p, is_pub_ptr h v p -> points_below (length h) v) as KQ.
  { intros v [p|] H; [destruct H as (a & ? & ? & ? & -> & H & _)|cbn in H; subst v; exact I]. apply nth_error_Some. congruence. }
  assert (forall v wl, is_words v wl -> points_below (length h) v) as KW.
  { intros v [wl|] H; cbn in H; subst v; exact I. }
  intros H. destruct H; repeat apply Forall_cons; try apply Forall_nil; try exact I; eauto.
Qed.

(** ** Calls that end when they are alone, with any ints *)
Section Apart.
Context (E : curve_params -> ecdsa_lib) (wrap : Z -> Z) (ok : list value -> string -> list value -> Prop).
Context (Hends : forall s f args, curve_ready (heap s) -> ok (heap s) f args ->
  exists r, good r /\ ends_above E (Limits (length (heap s)) wrap) f args s r).
Context (Hok : forall h f args, ok h f args -> api_call h f args).

Definition call_trees n (jobs : list (string * list value)) : list (tree (list value)) :=
  map (fun j => t_run_on E wrap n (fst j) (snd j)) jobs.

(** enough depth for all bytes: the call ends, and more depth changes nothing *)
Definition settled sh (L : nat) f args (n : nat) : Prop := forall bs, (length bs <= L)%nat ->
  good (handle (length sh) (t_run_on E wrap n f args) (State sh bs [])) /\
  ends_above E (Limits O wrap) f args (State sh bs []) (handle (length sh) (t_run_on E wrap n f args) (State sh bs [])).
Lemma call_settled sh L f args : curve_ready sh -> ok sh f args ->
  exists N, forall n, (N <= n)%nat -> settled sh L f args n.
Proof.
  intros HC Ha. destruct (bytes_bound L (fun bs n => good (handle (length sh) (t_run_on E wrap n f args) (State sh bs [])) /\
  ends_above E (Limits O wrap) f args (State sh bs []) (handle (length sh) (t_run_on E wrap n f args) (State sh bs [])))) as (N & HN).
  - intros bs. destruct (Hends (State sh bs []) f args HC Ha) as (r & Hg & He).
    pose proof He as (N & Hr). exists N. intros n Hn.
    rewrite h_run. cbn [heap] in Hr. rewrite (Hr n Hn). split; [exact Hg|]. eapply ends_floor; eassumption.
  - exists N. intros n Hn bs Hb. now apply HN.
Qed.

Lemma calls_ready sh rd jobs : curve_ready sh -> whole_heap sh -> Forall (fun j => ok sh (fst j) (snd j)) jobs ->
  exists N, forall n, (N <= n)%nat ->
    Forall (fun j => settled sh (length rd) (fst j) (snd j) n) jobs /\ all_tracked lrel sh (length rd) (call_trees n jobs) (machine_start sh rd (call_trees n jobs)).
Proof.
  intros HC HW HJ. destruct (list_bound (fun j n => settled sh (length rd) (fst j) (snd j) n) jobs) as (N & HN).
  { intros j Hj. apply call_settled; [exact HC|]. eapply Forall_forall in HJ; eauto. }
  exists N. intros n Hn. split; [apply HN, Hn|]. apply start_tracked; [exact HW|].
  intros t Ht. apply in_map_iff in Ht as (j & <- & Hj). apply run_rel; [now apply based_same|].
  eapply Forall_forall in HJ; [|exact Hj]. apply Hok, api_points in HJ. induction HJ; constructor; [now apply points_rel|assumption].
Qed.

Lemma one_machine_on sh rd jobs : curve_ready sh -> whole_heap sh -> Forall (fun j => ok sh (fst j) (snd j)) jobs ->
  exists N, forall n m, (N <= n)%nat ->
    comes_to (machine_start sh rd (map (fun j => t_run_on E wrap n (fst j) (snd j)) jobs)) m ->
    firstn (length sh) (memory m) = sh /\ ~ race m /\ (Forall ended (routines m) \/ exists m', tick m m') /\
    length (routines m) = length jobs /\
    forall i f args ro, nth_error jobs i = Some (f, args) -> nth_error (routines m) i = Some ro ->
      keeps_apart m i (todo ro) /\ todo ro <> TStuck /\ todo ro <> TFuel /\
      (forall vs, todo ro = TRet vs -> exists ws h g,
         ends_above E (Limits O wrap) f args (State sh (got ro) []) (Done ws (State h [] (lines_of i (screen m)))) /\
         copied (length sh) g h (memory m) /\ vs = map (rename g) ws) /\
      (forall p, todo ro = TCrash p -> exists h,
         ends_above E (Limits O wrap) f args (State sh (got ro) []) (Crash p (State h [] (lines_of i (screen m))))).
Proof.
  intros HC HW HJ. destruct (calls_ready sh rd jobs HC HW HJ) as (N & HN). exists N. intros n m Hn Hm.
  destruct (HN n Hn) as [S T0]. fold (call_trees n jobs) in Hm.
  assert (Forall (ends_well sh (length rd)) (call_trees n jobs)) as F.
  { apply Forall_map. eapply Forall_impl; [|exact S]. intros j Hj bs Hb. now apply Hj. }
  pose proof (comes_tracked _ _ _ _ _ _ F T0 Hm) as T.
  split; [eapply shared_kept, T|]. split; [eapply no_race; eassumption|]. split; [eapply machine_moves; eassumption|].
  pose proof T as (_ & Hl & _). split; [rewrite Hl; apply map_length|].
  intros i f args ro Hi Hro.
  assert (nth_error (call_trees n jobs) i = Some (t_run_on E wrap n f args)) as Ht by exact (map_nth_error _ _ _ Hi).
  assert (ends_well sh (length rd) (t_run_on E wrap n f args)) as Ff by (eapply Forall_forall; [exact F|eapply nth_error_In, Ht]).
  assert (length (got ro) <= length rd)%nat as Hgot.
  { destruct T as (_ & _ & T). destruct (T _ _ _ Ht Hro) as (r & ow & c & Ti).
    pose proof (tr_bytes _ _ _ _ _ _ _ _ _ _ _ _ _ Ti). lia. }
  pose proof (proj1 (Forall_forall _ _) S _ (nth_error_In _ _ Hi) (got ro) Hgot) as [_ HE]. cbn [fst snd] in HE.
  destruct (tracked_now _ _ _ _ _ _ _ _ T Ff Ht Hro) as (H1 & H2 & H3 & H4 & H5).
  split; [exact H1|]. split; [exact H2|]. split; [exact H3|]. split.
  - intros vs Hvs. destruct (H4 vs Hvs) as (r & ws & ow & Hh & Hr & Hone & Hc). exists ws, (sh ++ ow), (mapping r).
    rewrite Hh in HE. split; [exact HE|]. split; [exact Hc|]. symmetry. now apply renames_rel.
  - intros p Hp. destruct (H5 p Hp) as (ow & Hh). exists (sh ++ ow). now rewrite Hh in HE.
Qed.
End Apart.

Definition one_machine E := one_machine_on E (fun z => z) api_call (ends_above_api E) (fun _ _ _ H => H).
