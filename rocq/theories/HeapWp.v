(** * Soundness of [behaves] for sequential and concurrent execution *)

From Verif Require Import GoBase GoNum Base58 GoRand Model Heap HeapSem.
Local Open Scope Z_scope.

(** ** Lists as heaps *)

Lemma lookup_app h o a x : lookup h a = Some x -> lookup (h ++ [o]) a = Some x.
Proof. intros H. unfold lookup in *. rewrite nth_error_app1; [exact H|]. apply nth_error_Some. congruence. Qed.

Lemma lookup_new h o : lookup (h ++ [o]) (length h) = Some o.
Proof. unfold lookup. rewrite nth_error_app2, Nat.sub_diag by lia. reflexivity. Qed.

Lemma lookup_end h : lookup h (length h) = None.
Proof. apply nth_error_None. lia. Qed.

Lemma lookup_app_inv h o a x : lookup (h ++ [o]) a = Some x ->
  lookup h a = Some x \/ (a = length h /\ x = o).
Proof.
  unfold lookup. intros H. destruct (Nat.lt_ge_cases a (length h)) as [L|L].
  - left. rewrite nth_error_app1 in H; assumption.
  - right. rewrite nth_error_app2 in H by assumption. destruct (a - length h)%nat as [|m] eqn:Em.
    + cbn in H. split; [lia|congruence].
    + destruct m; discriminate H.
Qed.

Lemma update_length h a o : length (update h a o) = length h.
Proof. revert a; induction h as [|x h IH]; intros [|a]; cbn; auto. Qed.

Lemma update_same h a o x : lookup h a = Some x -> lookup (update h a o) a = Some o.
Proof.
  revert a; induction h as [|y h IH]; intros [|a] H; try discriminate; [reflexivity|]. exact (IH a H).
Qed.

Lemma update_other h a o b : b <> a -> lookup (update h a o) b = lookup h b.
Proof.
  revert a b; induction h as [|y h IH]; intros [|a] [|b] H; try reflexivity; try congruence.
  apply IH. congruence.
Qed.

(** ** Structural rules *)

Lemma behaves_mono {A} F (p : prog A) : forall own tr lg (Q Q' : _ -> _ -> _ -> _ -> Prop),
  (forall own' tr' lg' o, Q own' tr' lg' o -> Q' own' tr' lg' o) ->
  behaves F own tr lg p Q -> behaves F own tr lg p Q'.
Proof.
  induction p as [a|e|o k IH|a k IH|a o k IH|n k IH|s k IH]; intros own tr lg Q Q' HQ; cbn.
  - auto.
  - auto.
  - intros H a Ha. eapply IH; eauto.
  - intros (o & Ho & H). exists o. split; [exact Ho|]. eapply IH; eauto.
  - intros (Ha & H). split; [exact Ha|]. eapply IH; eauto.
  - intros (H1 & H2). split; intros bs Hb; eapply IH; eauto.
  - intros H. eapply IH; eauto.
Qed.

Lemma behaves_bind {A B} F (p : prog A) (f : A -> prog B) : forall own tr lg Q,
  behaves F own tr lg p (fun own' tr' lg' o =>
    match o with Ret a => behaves F own' tr' lg' (f a) Q | Panic e => Q own' tr' lg' (Panic e) end) ->
  behaves F own tr lg (pbind p f) Q.
Proof.
  induction p as [a|e|o k IH|a k IH|a o k IH|n k IH|s k IH]; intros own tr lg Q; cbn.
  - auto.
  - auto.
  - intros H a Ha. apply IH; auto.
  - intros (o & Ho & H). exists o. split; [exact Ho|]. apply IH; auto.
  - intros (Ha & H). split; [exact Ha|]. apply IH; auto.
  - intros (H1 & H2). split; intros bs Hb; apply IH; auto.
  - intros H. apply IH; auto.
Qed.

Lemma behaves_try {A} F (p : prog A) : forall own tr lg Q,
  behaves F own tr lg p (fun own' tr' lg' o => Q own' tr' lg' (Ret o)) -> behaves F own tr lg (try p) Q.
Proof.
  induction p as [a|e|o k IH|a k IH|a o k IH|n k IH|s k IH]; intros own tr lg Q; cbn.
  - auto.
  - auto.
  - intros H a Ha. apply IH; auto.
  - intros (o & Ho & H). exists o. split; [exact Ho|]. apply IH; auto.
  - intros (Ha & H). split; [exact Ha|]. apply IH; auto.
  - intros (H1 & H2). split; intros bs Hb; apply IH; auto.
  - intros H. apply IH; auto.
Qed.

(** ** Sequential soundness *)

(** The heap contains the frozen and the own objects, which are disjoint. *)
Definition holds (h : heap) (F own : omap) : Prop :=
  (forall a o, F a = Some o -> lookup h a = Some o) /\
  (forall a o, own a = Some o -> lookup h a = Some o) /\
  (forall a, own a <> None -> F a = None).

Lemma holds_look h F own a o : holds h F own -> look F own a = Some o -> lookup h a = Some o.
Proof. intros (HF & HO & _). unfold look. destruct (own a) eqn:E; intros H; auto. injection H as <-. auto. Qed.

Lemma holds_fresh h F own : holds h F own -> look F own (length h) = None.
Proof.
  intros (HF & HO & _). pose proof (lookup_end h) as E. unfold look.
  destruct (own (length h)) eqn:E1; [apply HO in E1; congruence|].
  destruct (F (length h)) eqn:E2; [apply HF in E2; congruence|]. reflexivity.
Qed.

Lemma look_none F own a : look F own a = None -> own a = None /\ F a = None.
Proof. unfold look. destruct (own a); [discriminate|auto]. Qed.

Lemma holds_alloc h F own o : holds h F own -> holds (h ++ [o]) F (oset own (length h) o).
Proof.
  intros H. pose proof (look_none _ _ _ (holds_fresh _ _ _ H)) as [N1 N2]. destruct H as (HF & HO & D).
  split; [|split].
  - intros a x Ha. apply lookup_app. auto.
  - intros a x Ha. unfold oset in Ha. destruct (Nat.eqb_spec a (length h)) as [->|Hn].
    + injection Ha as <-. apply lookup_new.
    + apply lookup_app. auto.
  - intros a Ha. unfold oset in Ha. destruct (Nat.eqb_spec a (length h)) as [E|Hn]; [rewrite E; exact N2|auto].
Qed.

Lemma holds_write h F own a o : holds h F own -> own a <> None -> holds (update h a o) F (oset own a o).
Proof.
  intros (HF & HO & D) Ha. destruct (own a) as [x|] eqn:Ex; [|congruence]. split; [|split].
  - intros b y Hb. rewrite update_other; auto. intros ->. rewrite D in Hb; congruence.
  - intros b y Hb. unfold oset in Hb. destruct (Nat.eqb_spec b a) as [->|Hn].
    + injection Hb as <-. eapply update_same; eauto.
    + rewrite update_other; auto.
  - intros b Hb. unfold oset in Hb. destruct (Nat.eqb_spec b a) as [E|Hn]; [|auto]. rewrite E. apply D. congruence.
Qed.

Lemma run_sound {A} (p : prog A) : forall h F own tr lg Q src,
  holds h F own -> behaves F own tr lg p Q ->
  exists own' d h' src' l o, run p h src = (h', src', l, o) /\ holds h' F own' /\
    src = d ++ src' /\ Q own' (tr ++ d) (lg ++ l) o.
Proof.
  induction p as [a|e|o k IH|a k IH|a o k IH|n k IH|s k IH]; intros h F own tr lg Q src Hh; cbn.
  - intros H. exists own, [], h, src, [], (Ret a). rewrite !app_nil_r. auto.
  - intros H. exists own, [], h, src, [], (Panic e). rewrite !app_nil_r. auto.
  - intros H. apply IH with (own := oset own (length h) o); [apply holds_alloc, Hh|]. apply H.
    apply holds_fresh, Hh.
  - intros (o & Ho & H). rewrite (holds_look _ _ _ _ _ Hh Ho). eapply IH; eauto.
  - intros (Ha & H). destruct (own a) as [x|] eqn:Ex; [|congruence].
    pose proof Hh as (_ & HO & _). rewrite (HO _ _ Ex). eapply IH; [|exact H].
    apply holds_write; [exact Hh|congruence].
  - intros (H1 & H2). destruct (Nat.leb_spec n (length src)) as [L|L].
    + assert (Hl : length (firstn n src) = n) by (rewrite firstn_length; lia).
      destruct (IH (Some (firstn n src)) h F own _ lg Q (skipn n src) Hh (H1 _ Hl))
        as (own' & d & h' & src' & l & o & -> & Hh' & Es & HQ).
      exists own', (firstn n src ++ d), h', src', l, o. split; [reflexivity|]. split; [exact Hh'|]. split.
      * rewrite <- app_assoc, <- Es, firstn_skipn. reflexivity.
      * rewrite app_assoc. exact HQ.
    + destruct (IH None h F own _ lg Q [] Hh (H2 src L))
        as (own' & d & h' & src' & l & o & -> & Hh' & Es & HQ).
      exists own', (src ++ d), h', src', l, o. split; [reflexivity|]. split; [exact Hh'|]. split.
      * symmetry in Es. apply app_eq_nil in Es as [-> ->]. rewrite !app_nil_r. reflexivity.
      * rewrite app_assoc. exact HQ.
  - intros H. destruct (IH h F own tr (lg ++ [s]) Q src Hh H)
      as (own' & d & h' & src' & l & o & -> & Hh' & Es & HQ).
    exists own', d, h', src', (s :: l), o. split; [reflexivity|]. split; [exact Hh'|]. split; [exact Es|].
    rewrite <- app_assoc in HQ. exact HQ.
Qed.

(** ** Concurrent soundness *)

Section Concurrent.
Context {A : Type} (F : omap).
Definition post := omap -> list byte -> list gostring -> outcome A -> Prop.

(** Thread [t], owning [own], will end in its postcondition. *)
Definition good (t : thread A) (own : omap) (Q : post) : Prop := behaves F own (drawn t) (lines t) (code t) Q.

Inductive all3 (h : heap) : list (thread A) -> list omap -> list post -> Prop :=
| all3_nil : all3 h [] [] []
| all3_cons t ts own owns Q Qs : holds h F own -> good t own Q -> all3 h ts owns Qs ->
    all3 h (t :: ts) (own :: owns) (Q :: Qs).

Definition disjoint (m n : omap) : Prop := forall a, m a <> None -> n a = None.
Definition pairwise (owns : list omap) : Prop :=
  forall i j m n, i <> j -> nth_error owns i = Some m -> nth_error owns j = Some n -> disjoint m n.

Definition inv (w : world A) (owns : list omap) (Qs : list post) : Prop :=
  (forall a o, F a = Some o -> lookup (wheap w) a = Some o) /\
  all3 (wheap w) (wthreads w) owns Qs /\ pairwise owns.

Lemma all3_length h ts owns Qs : all3 h ts owns Qs -> length ts = length owns /\ length owns = length Qs.
Proof. induction 1; cbn; lia. Qed.

Lemma all3_nth h ts owns Qs i t : all3 h ts owns Qs -> nth_error ts i = Some t ->
  exists own Q, nth_error owns i = Some own /\ nth_error Qs i = Some Q /\ holds h F own /\ good t own Q.
Proof.
  intros H. revert i. induction H as [|t' ts own owns Q Qs Hh Hg H IH]; intros [|i] Ht; try discriminate.
  - cbn in Ht. injection Ht as ->. exists own, Q. auto.
  - apply IH, Ht.
Qed.

Lemma all3_split h ts1 t ts2 owns Qs : all3 h (ts1 ++ t :: ts2) owns Qs ->
  exists o1 own o2 Q1 Q Q2, owns = o1 ++ own :: o2 /\ Qs = Q1 ++ Q :: Q2 /\ length o1 = length ts1 /\
    all3 h ts1 o1 Q1 /\ holds h F own /\ good t own Q /\ all3 h ts2 o2 Q2.
Proof.
  revert owns Qs. induction ts1 as [|t1 ts1 IH]; intros owns Qs H; inversion H; subst; clear H.
  - exists [], own, owns0, [], Q, Qs0. do 3 (split; [reflexivity|]). split; [constructor|]. auto.
  - match goal with H : all3 h (ts1 ++ t :: ts2) _ _ |- _ => destruct (IH _ _ H)
      as (o1 & own' & o2 & Q1 & Q' & Q2 & -> & -> & L & A1 & Ho & Hg & A2) end.
    exists (own :: o1), own', o2, (Q :: Q1), Q', Q2. do 2 (split; [reflexivity|]).
    split; [cbn; lia|]. split; [constructor; auto|]. auto.
Qed.

Lemma all3_join h ts1 t ts2 o1 own o2 Q1 Q Q2 : all3 h ts1 o1 Q1 -> holds h F own -> good t own Q ->
  all3 h ts2 o2 Q2 -> all3 h (ts1 ++ t :: ts2) (o1 ++ own :: o2) (Q1 ++ Q :: Q2).
Proof. intros H. revert t own Q. induction H; cbn; intros; constructor; auto. Qed.

(** Objects of the other threads do not change. *)
Lemma all3_heap h h' ts owns Qs : all3 h ts owns Qs ->
  (forall a o, F a = Some o -> lookup h' a = Some o) ->
  (forall m a o, In m owns -> m a = Some o -> lookup h' a = Some o) -> all3 h' ts owns Qs.
Proof.
  intros H HF. induction H as [|t ts own owns Q Qs (_ & _ & D) Hg H IH]; intros Ho; [constructor|].
  constructor; [|exact Hg|apply IH; intros; eapply Ho; cbn; eauto].
  split; [exact HF|]. split; [|exact D]. intros a o Ha. apply (Ho own); cbn; auto.
Qed.

Lemma pairwise_mid o1 own o2 own' :
  pairwise (o1 ++ own :: o2) -> (forall m a, In m (o1 ++ o2) -> m a <> None -> own' a = None) ->
  pairwise (o1 ++ own' :: o2).
Proof.
  intros P D i j m n Hij Hi Hj.
  assert (Nth : forall k x, nth_error (o1 ++ own' :: o2) k = Some x ->
            (k = length o1 /\ x = own') \/ (k <> length o1 /\ nth_error (o1 ++ own :: o2) k = Some x /\ In x (o1 ++ o2))).
  { intros k x Hx. destruct (lt_eq_lt_dec k (length o1)) as [[Lt| ->]|Gt].
    - right. rewrite nth_error_app1 in Hx by assumption. rewrite nth_error_app1 by assumption.
      split; [lia|]. split; [exact Hx|]. apply in_or_app. left. eapply nth_error_In; eauto.
    - left. rewrite nth_error_app2, Nat.sub_diag in Hx by lia. cbn in Hx. split; congruence.
    - right. rewrite nth_error_app2 in Hx by lia. rewrite nth_error_app2 by lia.
      destruct (k - length o1)%nat as [|q] eqn:Eq; [lia|]. cbn in *. split; [lia|]. split; [exact Hx|].
      apply in_or_app. right. eapply nth_error_In; eauto. }
  destruct (Nth i m Hi) as [[-> ->]|(Ni & Hi' & Ii)], (Nth j n Hj) as [[-> ->]|(Nj & Hj' & Ij)].
  - congruence.
  - intros a Ha. destruct (n a) eqn:En; [|reflexivity]. exfalso. apply Ha. eapply D; eauto. congruence.
  - intros a Ha. eapply D; eauto.
  - eapply (P i j); eauto.
Qed.

Lemma in_mid (x own : omap) o1 o2 : In x (o1 ++ o2) -> exists k, k <> length o1 /\ nth_error (o1 ++ own :: o2) k = Some x.
Proof.
  intros H. apply in_app_or in H as [H|H]; apply In_nth_error in H as [k Hk].
  - exists k. assert (k < length o1)%nat by (apply nth_error_Some; congruence). split; [lia|].
    rewrite nth_error_app1 by assumption. exact Hk.
  - exists (length o1 + S k)%nat. split; [lia|]. rewrite nth_error_app2 by lia.
    replace (length o1 + S k - length o1)%nat with (S k) by lia. exact Hk.
Qed.

Lemma step_inv w w' owns Qs : inv w owns Qs -> step w w' -> exists owns', inv w' owns' Qs.
Proof.
  intros (HF & H3 & P) St. destruct St as [h src lg ts1 t ts2 h' src' lg' t' Ts]. cbn in *.
  destruct (all3_split _ _ _ _ _ _ H3) as (o1 & own & o2 & Q1 & Q & Q2 & -> & -> & L & A1 & Hh & Hg & A2).
  assert (Mid : nth_error (o1 ++ own :: o2) (length o1) = Some own).
  { rewrite nth_error_app2, Nat.sub_diag by lia. reflexivity. }
  assert (Oth : forall m a o, In m (o1 ++ o2) -> m a = Some o -> lookup h a = Some o /\ own a = None).
  { intros m a o Hm Ha. split.
    - assert (K : forall ts os Ps, all3 h ts os Ps -> In m os -> lookup h a = Some o).
      { induction 1; intros []; subst; auto. destruct H as (_ & HO & _). auto. }
      apply in_app_or in Hm as [Hm|Hm]; [exact (K _ _ _ A1 Hm)|exact (K _ _ _ A2 Hm)].
    - destruct (in_mid m own o1 o2 Hm) as (k & Nk & Ek). apply (P k (length o1) m own Nk Ek Mid). congruence. }
  unfold good in Hg.
  destruct Ts as [h src lg o k d l|h src lg a k o d l Ha|h src lg a o k d l Ha|bs h src lg n k d l Hn
                 |h src lg n k d l Hn|h src lg s k d l]; cbn in Hg.
  - (* alloc *)
    exists (o1 ++ oset own (length h) o :: o2). unfold inv. cbn.
    assert (HF' : forall a x, F a = Some x -> lookup (h ++ [o]) a = Some x) by (intros; apply lookup_app; auto).
    split; [exact HF'|]. split.
    + apply all3_join; [| | |].
      * eapply all3_heap; [exact A1|exact HF'|]. intros m a x Hm Ha. apply lookup_app.
        eapply Oth; [apply in_or_app; left; exact Hm|exact Ha].
      * apply holds_alloc, Hh.
      * unfold good. cbn. apply Hg. apply holds_fresh, Hh.
      * eapply all3_heap; [exact A2|exact HF'|]. intros m a x Hm Ha. apply lookup_app.
        eapply Oth; [apply in_or_app; right; exact Hm|exact Ha].
    + eapply pairwise_mid; [exact P|]. intros m a Hm Ha. unfold oset. destruct (Nat.eqb_spec a (length h)) as [->|Nn].
      * exfalso. destruct (m (length h)) as [x|] eqn:Ex; [|congruence].
        destruct (Oth m (length h) x Hm Ex) as [Hl _]. rewrite lookup_end in Hl. discriminate.
      * destruct (m a) as [x|] eqn:Ex; [|congruence]. eapply Oth; eauto.
  - (* read *)
    destruct Hg as (o' & Ho & Hg). exists (o1 ++ own :: o2). split; [exact HF|]. cbn. split; [|exact P].
    apply all3_join; auto. unfold good. cbn.
    assert (o' = o) by (apply (holds_look _ _ _ _ _ Hh) in Ho; congruence). subst. exact Hg.
  - (* write *)
    destruct Hg as (Hown & Hg). exists (o1 ++ oset own a o :: o2). unfold inv. cbn.
    assert (HF' : forall b x, F b = Some x -> lookup (update h a o) b = Some x).
    { intros b x Hb. rewrite update_other; auto. intros ->. destruct Hh as (_ & _ & D). rewrite D in Hb; congruence. }
    assert (Ot : forall m b x, In m (o1 ++ o2) -> m b = Some x -> lookup (update h a o) b = Some x).
    { intros m b x Hm Hb. destruct (Oth m b x Hm Hb) as [Hl Hn]. rewrite update_other; auto. intros ->. congruence. }
    split; [exact HF'|]. split.
    + apply all3_join.
      * eapply all3_heap; [exact A1|exact HF'|]. intros m b x Hm. apply Ot, in_or_app. auto.
      * apply holds_write; assumption.
      * exact Hg.
      * eapply all3_heap; [exact A2|exact HF'|]. intros m b x Hm. apply Ot, in_or_app. auto.
    + eapply pairwise_mid; [exact P|]. intros m b Hm Hb. destruct (m b) as [x|] eqn:Ex; [|congruence].
      destruct (Oth m b x Hm Ex) as [_ Hn]. unfold oset. destruct (Nat.eqb_spec b a) as [->|]; [congruence|exact Hn].
  - (* random *)
    destruct Hg as (Hg & _). exists (o1 ++ own :: o2). split; [exact HF|]. cbn. split; [|exact P].
    apply all3_join; auto. exact (Hg bs Hn).
  - destruct Hg as (_ & Hg). exists (o1 ++ own :: o2). split; [exact HF|]. cbn. split; [|exact P].
    apply all3_join; auto. exact (Hg src Hn).
  - exists (o1 ++ own :: o2). split; [exact HF|]. cbn. split; [|exact P]. apply all3_join; auto.
Qed.

Lemma steps_inv w w' owns Qs : inv w owns Qs -> steps w w' -> exists owns', inv w' owns' Qs.
Proof.
  intros Hi St. revert owns Hi. induction St as [w|w w' w'' St IH St1]; intros owns Hi; [eauto|].
  destruct (IH owns Hi) as (owns' & Hi'). eapply step_inv; eauto.
Qed.

(** Start: nobody owns anything. *)
Definition nothing : omap := fun _ => None.

Lemma start_inv h src ps Qs : (forall a o, F a = Some o -> lookup h a = Some o) ->
  Forall2 (fun p Q => behaves F nothing [] [] p Q) ps Qs ->
  inv (start h src ps) (map (fun _ => nothing) ps) Qs.
Proof.
  intros EF H. split; [exact EF|]. cbn. split.
  - induction H as [|p Q ps Qs Hp H IH]; [constructor|]. constructor; [|exact Hp|exact IH].
    split; [exact EF|]. split; [discriminate|]. intros a Ha. exfalso. apply Ha. reflexivity.
  - intros i j m n _ Hi Hj a Ha. exfalso. apply Ha.
    apply nth_error_In, in_map_iff in Hi as (p & <- & _). reflexivity.
Qed.

(** A thread can always move unless it has ended. *)
Definition ended (p : prog A) : Prop := (exists a, p = PRet a) \/ (exists e, p = PPanic e).

Lemma progress w owns Qs ts1 t ts2 : inv w owns Qs -> wthreads w = ts1 ++ t :: ts2 ->
  ended (code t) \/ exists h' src' lg' t', tstep (wheap w) (wsource w) (wlog w) t h' src' lg' t'.
Proof.
  intros (HF & H3 & P) Et. rewrite Et in H3.
  destruct (all3_split _ _ _ _ _ _ H3) as (o1 & own & o2 & Q1 & Q & Q2 & -> & -> & L & A1 & Hh & Hg & A2).
  destruct t as [c d l]. unfold good in Hg. cbn in *. destruct c as [a|e|o k|a k|a o k|n k|s k]; cbn in Hg.
  - left. left. eauto.
  - left. right. eauto.
  - right. eexists _, _, _, _. constructor.
  - right. destruct Hg as (o & Ho & _). eexists _, _, _, _. constructor. eapply holds_look; eauto.
  - right. destruct Hg as (Ho & _). eexists _, _, _, _. constructor.
    destruct (own a) as [x|] eqn:Ex; [|congruence]. exists x. destruct Hh as (_ & HO & _). auto.
  - right. destruct (Nat.lt_ge_cases (length (wsource w)) n) as [Lt|Ge].
    + eexists _, _, _, _. apply t_random_fails, Lt.
    + rewrite <- (firstn_skipn n (wsource w)). eexists _, _, _, _. apply t_random. rewrite firstn_length. lia.
  - right. eexists _, _, _, _. constructor.
Qed.

(** Two threads never access one object at the same time with one writing. *)
Lemma no_race w owns Qs i j t u a b c : inv w owns Qs -> i <> j ->
  nth_error (wthreads w) i = Some t -> nth_error (wthreads w) j = Some u ->
  next_access (code t) = Some (a, b) -> next_access (code u) = Some (a, c) -> b = false /\ c = false.
Proof.
  intros (HF & H3 & P) Hij Hi Hj Na Nb.
  destruct (all3_nth _ _ _ _ _ _ H3 Hi) as (m & Q & Om & _ & Hm & Gm).
  destruct (all3_nth _ _ _ _ _ _ H3 Hj) as (n & R & On & _ & Hn & Gn).
  pose proof (P i j m n Hij Om On) as D1. pose proof (P j i n m ltac:(auto) On Om) as D2.
  unfold good in *. destruct t as [ct dt lt], u as [cu du lu]. cbn in *.
  assert (W : forall own (p : prog A) b (Q : post) d l, behaves F own d l p Q -> next_access p = Some (a, b) ->
            (b = true -> own a <> None) /\ (look F own a <> None \/ own a <> None)).
  { intros own p b' Q' d' l' Hb Hna. destruct p; cbn in *; try discriminate; injection Hna as -> <-.
    - destruct Hb as (o & Ho & _). split; [discriminate|]. left. congruence.
    - destruct Hb as (Ho & _). split; auto. }
  destruct (W m ct b _ _ _ Gm Na) as [W1 W2], (W n cu c _ _ _ Gn Nb) as [W3 W4].
  destruct Hm as (_ & _ & Dm), Hn as (_ & _ & Dn).
  split.
  - destruct b; [|reflexivity]. exfalso. specialize (W1 eq_refl). pose proof (D1 a W1) as N.
    pose proof (Dm a W1) as NF. unfold look in W4. rewrite N, NF in W4. destruct W4; congruence.
  - destruct c; [|reflexivity]. exfalso. specialize (W3 eq_refl). pose proof (D2 a W3) as N.
    pose proof (Dn a W3) as NF. unfold look in W2. rewrite N, NF in W2. destruct W2; congruence.
Qed.

(** A thread that has ended satisfies its postcondition. *)
Lemma finished w owns Qs i t Q o : inv w owns Qs -> nth_error (wthreads w) i = Some t -> nth_error Qs i = Some Q ->
  (code t = match o with Ret a => PRet a | Panic e => PPanic e end) ->
  exists own, holds (wheap w) F own /\ Q own (drawn t) (lines t) o.
Proof.
  intros (HF & H3 & P) Hi HQ Ec.
  destruct (all3_nth _ _ _ _ _ _ H3 Hi) as (m & Q' & Om & HQ' & Hm & Gm).
  assert (Q' = Q) by congruence. subst Q'. exists m. split; [exact Hm|]. unfold good in Gm. rewrite Ec in Gm.
  destruct o; exact Gm.
Qed.

End Concurrent.

(** ** Random bytes are handed out once *)

Lemma drawn_bound {A} (w w' : world A) : steps w w' ->
  (list_sum (map (fun t => length (drawn t)) (wthreads w')) + length (wsource w') =
   list_sum (map (fun t => length (drawn t)) (wthreads w)) + length (wsource w))%nat.
Proof.
  induction 1 as [w|w w' w'' St IH St1]; [reflexivity|]. rewrite <- IH. clear IH St.
  destruct St1 as [h src lg ts1 t ts2 h' src' lg' t' Ts]. cbn. rewrite !map_app. cbn. rewrite !list_sum_app. cbn.
  destruct Ts; cbn; rewrite ?app_length; lia.
Qed.
