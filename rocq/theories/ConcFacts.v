(** * Goroutines do not disturb each other *)

From Coq Require Import String.
From Verif Require Import GoBase Model GoRand GoSem GoTree GoTreeSim SpecSource SpecConc SourceBase SourceAll.
Local Open Scope Z_scope.

(** ** A floor only takes results away *)

Definition good {A} (r : res A) : Prop := match r with Done _ _ | Crash _ _ => True | _ => False end.

Lemma handle_floor {A} (t : tree A) : forall floor floor' s, (floor' <= floor)%nat ->
  good (handle floor t s) -> handle floor' t s = handle floor t s.
Proof.
  induction t; intros floor floor' s Hf Hg; cbn [handle] in *; auto.
  - destruct (Nat.ltb_spec a floor); [contradiction|].
    replace (a <? floor')%nat with false by (symmetry; apply Nat.ltb_ge; lia). auto.
  - destruct (rand_int max (source s)) as [[z rest]|]; auto.
Qed.

Lemma run_floor E wrap floor floor' n f args s : (floor' <= floor)%nat ->
  good (run E (Limits floor wrap) n f args s) -> run E (Limits floor' wrap) n f args s = run E (Limits floor wrap) n f args s.
Proof. intros Hf. rewrite <- !h_run. now apply handle_floor. Qed.

Lemma ends_floor E wrap floor f args s r : good r -> ends_above E (Limits floor wrap) f args s r -> ends_above E (Limits O wrap) f args s r.
Proof.
  intros Hg (N & H). exists N. intros n Hn. specialize (H n Hn). rewrite <- H in Hg |- *.
  apply run_floor; [lia|exact Hg].
Qed.

(** ** Every call of the API ends, and writes only objects it has made *)

Lemma ends_above_api E s f args : curve_ready (heap s) -> api_call (heap s) f args ->
  exists r, good r /\ ends_above E (length (heap s)) f args s r.
Proof.
  intros HC H.
  assert (forall A (o : outcome A) rep, answers_above E (length (heap s)) f args s o rep ->
            exists r, good r /\ ends_above E (length (heap s)) f args s r) as K1.
  { intros A o rep (new & Ha). destruct o; [destruct Ha as (vs & Ha & _)|]; eexists; (split; [|exact Ha]); exact I. }
  assert (forall A (o : outcome A) rest rep, answers_reading_above E (length (heap s)) f args s o rest rep ->
            exists r, good r /\ ends_above E (length (heap s)) f args s r) as K2.
  { intros A o rest rep (new & Ha).
    destruct o; [destruct Ha as (vs & Ha & _)|destruct Ha as (left & Ha)]; eexists; (split; [|exact Ha]); exact I. }
  assert (forall A (o : outcome A) log rep, answers_logging_above E (length (heap s)) f args s log o rep ->
            exists r, good r /\ ends_above E (length (heap s)) f args s r) as K3.
  { intros A o log rep (new & Ha). destruct o; [destruct Ha as (vs & Ha & _)|]; eexists; (split; [|exact Ha]); exact I. }
  destruct H.
  - eapply K1, above_CheckWIF. apply Nat.le_refl.
  - eapply K1, above_PrivateFromHex; [eassumption|apply Nat.le_refl].
  - eapply K1, above_PrivateFromWIF; [eassumption|apply Nat.le_refl].
  - eapply K2, above_Generate; [eassumption|apply Nat.le_refl].
  - eapply K1, above_AddPrivateKeys; [eassumption..|apply Nat.le_refl].
  - eapply K1, above_MultiplyPrivateKeys; [eassumption..|apply Nat.le_refl].
  - eapply K1, above_GetPublicKey; [eassumption..|apply Nat.le_refl].
  - eapply K1, above_PublicFromHex; [eassumption..|apply Nat.le_refl].
  - eapply K1, above_AddPublicKeys; [eassumption..|apply Nat.le_refl].
  - eapply K1, above_Format; [eassumption..|apply Nat.le_refl].
  - eapply K1, above_Address; [eassumption..|apply Nat.le_refl].
  - eapply K2, above_Mnemonic; [eassumption..|apply Nat.le_refl].
  - eapply K3, above_Seed; [eassumption..|apply Nat.le_refl].
Qed.

Lemma ends_fun E f args s r r' : ends E f args s r -> ends E f args s r' -> r = r'.
Proof. intros (N & H) (N' & H'). rewrite <- (H (max N N')), <- (H' (max N N')) by lia. reflexivity. Qed.

Lemma ends_apart E s f args r : curve_ready (heap s) -> api_call (heap s) f args ->
  ends E f args s r -> ends_above E (length (heap s)) f args s r.
Proof.
  intros HC Ha Hr. destruct (ends_above_api E s f args HC Ha) as (r' & Hg & H).
  now rewrite (ends_fun E f args s r r' Hr (ends_floor E (fun z => z) _ _ _ _ _ Hg H)).
Qed.

(** ** Interleaving *)

Notation alone sh t := (handle (length sh) (code t) (State (sh ++ own t) (bytes t) (said t))).

Lemma step_alone {A} sh (t : thread A) sh' t' : thread_step sh t sh' t' -> good (alone sh t) ->
  sh' = sh /\ alone sh t' = alone sh t.
Proof.
  intros H Hg. destruct H; cbn [code own bytes said handle] in *.
  - now split.
  - rewrite (proj2 (Nat.ltb_lt a (length sh))) in Hg by assumption. contradiction.
  - rewrite (proj2 (Nat.ltb_ge a (length sh))) in * by assumption. split; [reflexivity|].
    unfold store. cbn [heap source logged]. now rewrite set_far.
  - split; [reflexivity|]. cbn [heap source logged]. now rewrite app_length, app_assoc.
  - split; [reflexivity|]. cbn [source]. now rewrite H.
  - split; [reflexivity|]. cbn [source]. now rewrite H.
  - now split.
Qed.

Definition safe {A} (sh : list value) (t : thread A) : Prop := good (alone sh t).

Lemma steps_alone {A} sh (ts : list (thread A)) w : Forall (safe sh) ts -> reaches (World sh ts) w ->
  shared w = sh /\ Forall2 (fun t t' => alone sh t' = alone sh t) ts (threads w).
Proof.
  intros Hs H. remember (World sh ts) as w0 eqn:Hw. induction H as [w|w w1 w2 _ IH Hst]; subst.
  - split; [reflexivity|]. cbn. clear Hs. induction ts; constructor; auto.
  - specialize (IH eq_refl) as [Hsh H2]. destruct Hst as [sh1 before t after sh' t' Ht]. cbn [shared threads] in *.
    subst sh1. apply Forall2_app_inv_r in H2 as (l1 & l2 & Hb & H2 & ->).
    apply Forall_app in Hs as [Hs1 Hs2].
    inversion H2 as [|t0 ? l3 ? Ht0 Ha]; subst. apply Forall_cons_iff in Hs2 as [Hs2 Hs3].
    unfold safe in Hs2. rewrite <- Ht0 in Hs2. destruct (step_alone _ _ _ _ Ht Hs2) as [-> He].
    split; [reflexivity|]. apply Forall2_app; [exact Hb|]. constructor; [congruence|exact Ha].
Qed.

Lemma Forall2_len {A B} (P : A -> B -> Prop) l l' : Forall2 P l l' -> length l = length l'.
Proof. induction 1; cbn; congruence. Qed.

Lemma Forall2_nth {A B} (P : A -> B -> Prop) l l' : Forall2 P l l' ->
  forall i a b, nth_error l i = Some a -> nth_error l' i = Some b -> P a b.
Proof.
  induction 1 as [|x y l l' H _ IH]; intros [|i] a b Ha Hb; try discriminate; cbn in *.
  - now inversion Ha; inversion Hb; subst.
  - eauto.
Qed.

(** what [alone] says about the goroutine itself *)
Lemma alone_here {A} sh (t : thread A) : safe sh t ->
  (forall a v k, code t = TWrite a v k -> (length sh <= a)%nat) /\ code t <> TStuck /\ code t <> TFuel.
Proof.
  unfold safe. intros H. repeat split.
  - intros a v k Hc. rewrite Hc in H. cbn [handle] in H. destruct (Nat.ltb_spec a (length sh)); [contradiction|assumption].
  - intros Hc. rewrite Hc in H. contradiction.
  - intros Hc. rewrite Hc in H. contradiction.
Qed.

(** ** No deadlock, and an end *)

Lemma thread_moves {A} sh (t : thread A) : (exists sh' t', thread_step sh t sh' t') \/ finished t \/ code t = TStuck \/ code t = TFuel.
Proof.
  destruct t as [c ow rd lg]. unfold finished. cbn [code]. destruct c; auto; left.
  - eexists _, _. constructor.
  - destruct (Nat.lt_ge_cases a (length sh)); eexists _, _.
    + now apply step_write_shared.
    + now apply step_write_own.
  - eexists _, _. constructor.
  - destruct (rand_int max rd) as [[z rest]|] eqn:Hr; eexists _, _.
    + eapply step_random, Hr.
    + now eapply step_no_random.
  - eexists _, _. constructor.
Qed.

(** the steps left of a goroutine, whatever the others do *)
Definition child {A} (t' t : thread A) : Prop := exists sh sh', thread_step sh t sh' t'.

Lemma child_wf {A} (t : thread A) : Acc child t.
Proof.
  destruct t as [c ow rd lg]. revert ow rd lg. induction c; intros ow rd lg; constructor; intros t' (sh & sh1 & Hst);
    inversion Hst; subst; auto.
Qed.

Inductive list_child {A} : list (thread A) -> list (thread A) -> Prop :=
| list_child_here before t t' after : child t' t -> list_child (before ++ t' :: after) (before ++ t :: after).

Lemma list_child_cons {A} ts' (t : thread A) ts : list_child ts' (t :: ts) ->
  (exists t', child t' t /\ ts' = t' :: ts) \/ (exists us, list_child us ts /\ ts' = t :: us).
Proof.
  intros H. inversion H as [before u u' after Hc Heq1 Heq2]. destruct before as [|b before]; cbn in *.
  - inversion Heq2; subst. left. eauto.
  - inversion Heq2; subst. right. eexists. split; [|reflexivity]. now constructor.
Qed.

Lemma list_child_wf {A} (ts : list (thread A)) : Acc list_child ts.
Proof.
  induction ts as [|t ts IH].
  - constructor. intros ts' H. inversion H as [before]. now destruct before.
  - pose proof (child_wf t) as Ht. revert ts IH. induction Ht as [t _ IHt].
    intros ts IH. pose proof IH as Hts. induction Hts as [ts _ IHts].
    constructor. intros us H. apply list_child_cons in H as [(t' & Hc & ->)|(us' & Hc & ->)].
    + now apply IHt.
    + apply IHts; [exact Hc|]. now apply IH.
Qed.

Lemma step_wf {A} (w : world A) : Acc (fun w' w => step w w') w.
Proof.
  destruct w as [sh ts]. pose proof (list_child_wf ts) as H. revert sh. induction H as [ts _ IH]. intros sh.
  constructor. intros w' Hs. inversion Hs; subst. apply IH. constructor. eexists _, _. eassumption.
Qed.

(** an endless schedule does not exist *)
Lemma no_endless_schedule {A} (f : nat -> world A) : ~ forall i, step (f i) (f (S i)).
Proof.
  intros H. assert (forall w, Acc (fun w' w => step w w') w -> forall i, f i <> w) as K.
  { intros w Ha. induction Ha as [w _ IH]. intros i Hi. apply (IH (f (S i))) with (i := S i); [|reflexivity].
    rewrite <- Hi. apply H. }
  exact (K (f 0%nat) (step_wf _) 0%nat eq_refl).
Qed.

Lemma some_move {A} sh (ts : list (thread A)) : (forall t, In t ts -> code t <> TStuck /\ code t <> TFuel) ->
  Forall finished ts \/ exists w', step (World sh ts) w'.
Proof.
  intros Hok. assert (Forall finished ts \/
    exists before t after sh' t', ts = before ++ t :: after /\ thread_step sh t sh' t') as [H|H].
  { induction ts as [|t ts IH]; [left; constructor|]. destruct (thread_moves sh t) as [(sh' & t' & Hm)|[Hf|H]].
    - right. exists [], t, ts, sh', t'. split; [reflexivity|exact Hm].
    - destruct IH as [H|(before & u & after & sh' & t' & -> & Hm)].
      + intros u Hu. apply Hok. now right.
      + left. now constructor.
      + right. exists (t :: before), u, after, sh', t'. split; [reflexivity|exact Hm].
    - destruct (Hok t (or_introl eq_refl)). now destruct H. }
  - now left.
  - right. destruct H as (before & t & after & sh' & t' & -> & Hm). eexists. constructor. exact Hm.
Qed.

(** ** Calls that end when they are alone, with any ints *)
Section Apart.
Context (E : curve_params -> ecdsa_lib) (wrap : Z -> Z) (ok : list value -> string -> list value -> Prop).
Context (Hends : forall s f args, curve_ready (heap s) -> ok (heap s) f args ->
  exists r, good r /\ ends_above E (Limits (length (heap s)) wrap) f args s r).

(** a bound on depth and loops that is enough for every goroutine *)
Lemma bound_on sh jobs : curve_ready sh -> Forall (fun j => ok sh (calls j) (with_args j)) jobs ->
  exists N, forall n, (N <= n)%nat -> Forall (fun j =>
    exists r, good r /\ ends_above E (Limits (length sh) wrap) (calls j) (with_args j) (State sh (will_get j) []) r /\
      run E (Limits (length sh) wrap) n (calls j) (with_args j) (State sh (will_get j) []) = r) jobs.
Proof.
  intros HC. induction 1 as [|j jobs Hj _ (N & IH)].
  - exists 0%nat. constructor.
  - destruct (Hends (State sh (will_get j) []) _ _ HC Hj) as (r & Hg & (M & Hr)).
    exists (max N M). intros n Hn. constructor; [|apply IH; lia].
    exists r. split; [exact Hg|]. split; [exists M; exact Hr|apply Hr; lia].
Qed.

Lemma start_safe n sh j r : good r ->
  run E (Limits (length sh) wrap) n (calls j) (with_args j) (State sh (will_get j) []) = r ->
  safe sh (Thread (t_run_on E wrap n (calls j) (with_args j)) [] (will_get j) []).
Proof. intros Hg Hr. unfold safe. cbn [code own bytes said]. rewrite app_nil_r, h_run, Hr. exact Hg. Qed.

Lemma any_schedule_on sh jobs : curve_ready sh -> Forall (fun j => ok sh (calls j) (with_args j)) jobs ->
  exists N, forall n w, (N <= n)%nat -> reaches (start_on E wrap n sh jobs) w ->
    shared w = sh /\ length (threads w) = length jobs /\
    forall i j t, nth_error jobs i = Some j -> nth_error (threads w) i = Some t ->
      (forall a v k, code t = TWrite a v k -> (length sh <= a)%nat) /\ code t <> TStuck /\ code t <> TFuel /\
      (forall vs, code t = TRet vs ->
         ends_above E (Limits O wrap) (calls j) (with_args j) (State sh (will_get j) []) (Done vs (State (sh ++ own t) (bytes t) (said t)))) /\
      (forall p, code t = TCrash p ->
         ends_above E (Limits O wrap) (calls j) (with_args j) (State sh (will_get j) []) (Crash p (State (sh ++ own t) (bytes t) (said t)))).
Proof.
  intros HC Hj. destruct (bound_on sh jobs HC Hj) as (N & HN). exists N. intros n w Hn Hw.
  specialize (HN n Hn). unfold start_on in Hw.
  assert (Forall (safe sh) (map (fun j => Thread (t_run_on E wrap n (calls j) (with_args j)) [] (will_get j) []) jobs)) as Hs.
  { apply Forall_map. eapply Forall_impl; [|exact HN]. cbn. intros j (r & Hg & _ & Hr). eapply start_safe; eassumption. }
  destruct (steps_alone _ _ _ Hs Hw) as [Hsh H2]. split; [exact Hsh|]. split.
  { rewrite <- (Forall2_len _ _ _ H2). apply map_length. }
  intros i j t Hi Ht.
  assert (alone sh t = run E (Limits (length sh) wrap) n (calls j) (with_args j) (State sh (will_get j) [])) as Ha.
  { rewrite <- h_run. rewrite (Forall2_nth _ _ _ H2 i _ t (map_nth_error _ _ _ Hi) Ht).
    cbn [code own bytes said]. now rewrite app_nil_r. }
  destruct (proj1 (Forall_forall _ _) HN j (nth_error_In _ _ Hi)) as (r & Hg & He & Hr).
  rewrite Hr in Ha. pose proof (ends_floor _ _ _ _ _ _ _ Hg He) as He0.
  assert (safe sh t) as Hst by (unfold safe; rewrite Ha; exact Hg).
  destruct (alone_here sh t Hst) as (H3 & H4 & H5). split; [exact H3|]. split; [exact H4|]. split; [exact H5|].
  split; intros x Hc; rewrite Hc in Ha; cbn [handle] in Ha; now rewrite Ha.
Qed.

Lemma no_deadlock_on sh jobs : curve_ready sh -> Forall (fun j => ok sh (calls j) (with_args j)) jobs ->
  exists N, forall n w, (N <= n)%nat -> reaches (start_on E wrap n sh jobs) w ->
    Forall finished (threads w) \/ exists w', step w w'.
Proof.
  intros HC Hj. destruct (any_schedule_on sh jobs HC Hj) as (N & HN). exists N. intros n w Hn Hw.
  destruct (HN n w Hn Hw) as (_ & Hl & Ht). clear HN Hw. destruct w as [sh' ts]. cbn [threads shared] in *.
  apply some_move. intros t Hin. apply In_nth_error in Hin as (i & Hi). destruct (nth_error jobs i) as [j|] eqn:Hji.
  - destruct (Ht i j t Hji Hi) as (_ & H1 & H2 & _). now split.
  - apply nth_error_None in Hji. assert (i < length ts)%nat by (apply nth_error_Some; congruence). lia.
Qed.
End Apart.

(** ** Calls of the API, with ints without limits *)
Definition any_schedule E := any_schedule_on E (fun z => z) api_call (ends_above_api E).
Definition no_deadlock E := no_deadlock_on E (fun z => z) api_call (ends_above_api E).
