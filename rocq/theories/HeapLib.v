(** * A library that meets the contract, and the lemmas about shared networks *)

From Verif Require Import GoBase GoNum Base58 GoRand Model GenFacts Heap HeapSem HeapWp HeapRules HeapFacts HeapRand
  HeapCalls HeapProps.
Local Open Scope Z_scope.

(** ** The simplest implementation: read the arguments, return new objects *)

Definition fresh_lib (E : ecdsa_lib) : hlib := {|
  h_GetY := fun _ x =>
    do vx <- read_int (Some x);
    do a <- new_int_of (fst (lib_GetY E vx)); PRet (Some a, snd (lib_GetY E vx));
  h_MultMod := fun _ x y =>
    do vx <- read_int (Some x); do vy <- read_int (Some y);
    do a <- new_int_of (lib_MultMod E vx vy); PRet (Some a);
  h_ScalarMult := fun _ k p =>
    do vk <- read_int (Some k); do vx <- read_int (Some (fst p)); do vy <- read_int (Some (snd p));
    let r := lib_ScalarMult E vk (vx, vy) in
    do a <- new_int_of (fst (fst r)); do b <- new_int_of (snd (fst r)); PRet (Some a, Some b, snd r);
  h_AddPoints := fun _ p q =>
    do vx <- read_int (Some (fst p)); do vy <- read_int (Some (snd p));
    do wx <- read_int (Some (fst q)); do wy <- read_int (Some (snd q));
    let r := lib_AddPoints E (vx, vy) (wx, wy) in
    do a <- new_int_of (fst (fst r)); do b <- new_int_of (snd (fst r)); PRet (Some a, Some b, snd r) |}.

Lemma routine_intro {A} F own (p : prog A) (R : omap -> A -> Prop) :
  (forall tr lg, behaves F own tr lg p (fun own' tr' lg' o =>
     keep F own own' /\ tr' = tr /\ lg' = lg /\ exists v, o = Ret v /\ R (look F own') v)) ->
  routine F own p R.
Proof.
  intros H tr lg. eapply behaves_mono; [|apply H]. cbn. intros own' tr' lg' o ([K1 K2] & H'). auto.
Qed.

Lemma fresh_lib_meets E g : hlib_meets (fresh_lib E) g E.
Proof.
  split.
  - intros F own x vx _ Hx. apply routine_intro. intros tr lg. cbn [h_GetY fresh_lib].
    eapply b_read_int; [exists vx; split; [exact Hx|reflexivity]|]. cbn beta iota.
    apply b_alloc; intros a Na. cbn [behaves]. split; [keep_tac|]. do 2 (split; [reflexivity|]).
    eexists; split; [reflexivity|]. cbn [fst snd]. split; [reflexivity|]. intros _. eexists; split; [at_tac|reflexivity].
  - intros F own x y vx vy _ Hx Hy. apply routine_intro. intros tr lg. cbn [h_MultMod fresh_lib].
    eapply b_read_int; [exists vx; split; [exact Hx|reflexivity]|]. cbn beta iota.
    eapply b_read_int; [exists vy; split; [exact Hy|reflexivity]|]. cbn beta iota.
    apply b_alloc; intros a Na. cbn [behaves]. split; [keep_tac|]. do 2 (split; [reflexivity|]).
    eexists; split; [reflexivity|]. eexists; split; [at_tac|reflexivity].
  - intros F own k x y vk vx vy _ Hk Hx Hy. apply routine_intro. intros tr lg. cbn [h_ScalarMult fresh_lib fst snd].
    eapply b_read_int; [exists vk; split; [exact Hk|reflexivity]|]. cbn beta iota.
    eapply b_read_int; [exists vx; split; [exact Hx|reflexivity]|]. cbn beta iota.
    eapply b_read_int; [exists vy; split; [exact Hy|reflexivity]|]. cbn beta iota zeta.
    apply b_alloc; intros a Na. apply b_alloc; intros b Nb. fr_tac. cbn [behaves]. split; [keep_tac|].
    do 2 (split; [reflexivity|]). eexists; split; [reflexivity|]. cbn [fst snd]. split; [reflexivity|]. intros _.
    split; eexists; (split; [at_tac|reflexivity]).
  - intros F own x y x' y' vx vy vx' vy' _ Hx Hy Hx' Hy'. apply routine_intro. intros tr lg.
    cbn [h_AddPoints fresh_lib fst snd].
    eapply b_read_int; [exists vx; split; [exact Hx|reflexivity]|]. cbn beta iota.
    eapply b_read_int; [exists vy; split; [exact Hy|reflexivity]|]. cbn beta iota.
    eapply b_read_int; [exists vx'; split; [exact Hx'|reflexivity]|]. cbn beta iota.
    eapply b_read_int; [exists vy'; split; [exact Hy'|reflexivity]|]. cbn beta iota zeta.
    apply b_alloc; intros a Na. apply b_alloc; intros b Nb. fr_tac. cbn [behaves]. split; [keep_tac|].
    do 2 (split; [reflexivity|]). eexists; split; [reflexivity|]. cbn [fst snd]. split; [reflexivity|]. intros _.
    split; eexists; (split; [at_tac|reflexivity]).
Qed.

(** ** The network of a key *)

Lemma new_priv_net F own net own' a v (h : heap) : incl_map (look F own') (lookup h) ->
  new_priv F own net own' a v -> network_of h a = Some net.
Proof. intros I (_ & _ & k & H & _). unfold network_of. rewrite (I _ _ H). reflexivity. Qed.
Lemma new_pub_net F own net own' a v (h : heap) : incl_map (look F own') (lookup h) ->
  new_pub F own net own' a v -> network_of h a = Some net.
Proof. intros I (_ & x & y & H & _). unfold network_of. rewrite (I _ _ H). reflexivity. Qed.

Lemma PrivateFromHex_net h src s p v h' src' l a : net_at (lookup h) p v ->
  run (h_PrivateFromHex s p) h src = (h', src', l, Ret (Ok a)) -> network_of h' a = Some p.
Proof.
  intros Hn Hr. destruct (run_quiet _ h src _ (PrivateFromHex_heap (lookup h) nothing s p v Hn))
    as (h1 & o & own' & Hr1 & R & _ & I). rewrite Hr in Hr1. injection Hr1 as <- _ _ <-.
  unfold priv_result in R. destruct (PrivateFromHex s v) as [[k|]|]; try contradiction. eapply new_priv_net; eassumption.
Qed.
Lemma PrivateFromWIF_net h src s p v h' src' l a : net_at (lookup h) p v ->
  run (h_PrivateFromWIF s p) h src = (h', src', l, Ret (Ok a)) -> network_of h' a = Some p.
Proof.
  intros Hn Hr. destruct (run_quiet _ h src _ (PrivateFromWIF_heap (lookup h) nothing s p v Hn))
    as (h1 & o & own' & Hr1 & R & _ & I). rewrite Hr in Hr1. injection Hr1 as <- _ _ <-.
  unfold priv_result in R. destruct (PrivateFromWIF s v) as [[k|]|]; try contradiction. eapply new_priv_net; eassumption.
Qed.
Lemma GeneratePrivateKey_net fuel h src p v h' src' l a : net_at (lookup h) p v ->
  run (h_GeneratePrivateKey fuel p) h src = (h', src', l, Ret a) -> network_of h' a = Some p.
Proof.
  intros Hn Hr. destruct (run_noisy _ h src _ (GeneratePrivateKey_heap (lookup h) p v fuel nothing Hn))
    as (h1 & s1 & l1 & o & own' & d & Hr1 & _ & (_ & R) & _ & I). rewrite Hr in Hr1. injection Hr1 as <- _ _ <-.
  destruct R as (k & _ & Hk). eapply new_priv_net; eassumption.
Qed.
Lemma combine_net op h src g p1 p2 v1 v2 h' src' l a : globals_at (lookup h) g ->
  priv_at (lookup h) p1 v1 -> priv_at (lookup h) p2 v2 ->
  run (h_combine op g p1 p2) h src = (h', src', l, Ret (Ok a)) -> network_of h' a = network_of h p1.
Proof.
  intros Hg H1 H2 Hr. destruct (run_quiet _ h src _ (combine_heap op (lookup h) nothing g p1 p2 v1 v2 Hg H1 H2))
    as (h1 & o & own' & Hr1 & R & _ & I). rewrite Hr in Hr1. injection Hr1 as <- _ _ <-.
  unfold priv_result in R. destruct (v_combine op v1 v2) as [[k|]|]; try contradiction.
  destruct H1 as (kk & n & L1 & _). change (look (lookup h) nothing p1) with (lookup h p1) in R. rewrite L1 in R.
  unfold network_of at 2. rewrite L1. eapply new_priv_net; eassumption.
Qed.

Section Lib.
Context (L : hlib) (g : globals) (E : ecdsa_lib) (M : hlib_meets L g E).
Lemma PublicFromHex_net h src s p v h' src' l a : globals_at (lookup h) g -> net_at (lookup h) p v ->
  run (h_PublicFromHex L g s p) h src = (h', src', l, Ret (Ok a)) ->
  network_of h' a = Some p /\ exists w, PublicFromHex E s v = Ret (Ok w) /\ pub_at (lookup h') a w.
Proof.
  intros Hg Hn Hr. destruct (run_quiet _ h src _ (PublicFromHex_heap L g E M (lookup h) nothing s p v Hg Hn))
    as (h1 & o & own' & Hr1 & R & _ & I). rewrite Hr in Hr1. injection Hr1 as <- _ _ <-.
  unfold pub_result in R. destruct (PublicFromHex E s v) as [[k|]|]; try contradiction.
  split; [eapply new_pub_net; eassumption|]. exists k. split; [reflexivity|].
  eapply pub_mono; [exact I|]. eapply new_pub_at, R.
Qed.
Lemma GetPublicKey_net h src p v h' src' l q : globals_at (lookup h) g -> priv_at (lookup h) p v ->
  run (h_GetPublicKey L g p) h src = (h', src', l, Ret (Some q)) -> network_of h' q = network_of h p.
Proof.
  intros Hg Hn Hr. destruct (run_quiet _ h src _ (GetPublicKey_heap L g E M (lookup h) nothing p v Hg Hn))
    as (h1 & o & own' & Hr1 & R & _ & I). rewrite Hr in Hr1. injection Hr1 as <- _ _ <-.
  destruct (GetPublicKey E v) as [[k|]|]; try contradiction. cbn in R.
  destruct Hn as (kk & n & L1 & _). change (look (lookup h) nothing p) with (lookup h p) in R. rewrite L1 in R.
  unfold network_of at 2. rewrite L1. eapply new_pub_net; eassumption.
Qed.
Lemma AddPublicKeys_net h src p1 p2 c v1 v2 h' src' l q : globals_at (lookup h) g ->
  pub_at (lookup h) p1 v1 -> pub_at (lookup h) p2 v2 ->
  run (h_AddPublicKeys L g p1 p2 c) h src = (h', src', l, Ret (Ok q)) -> network_of h' q = network_of h p1.
Proof.
  intros Hg H1 H2 Hr.
  destruct (run_quiet _ h src _ (AddPublicKeys_heap L g E M (lookup h) nothing p1 p2 c v1 v2 Hg H1 H2))
    as (h1 & o & own' & Hr1 & R & _ & I). rewrite Hr in Hr1. injection Hr1 as <- _ _ <-.
  unfold pub_result in R. destruct (AddPublicKeys E v1 v2 c) as [[k|]|]; try contradiction.
  destruct H1 as (x & y & n & L1 & _). change (look (lookup h) nothing p1) with (lookup h p1) in R. rewrite L1 in R.
  unfold network_of at 2. rewrite L1. eapply new_pub_net; eassumption.
Qed.
End Lib.

(** ** Changing a network object *)

Lemma Address_run h src a c v : pub_at (lookup h) a v ->
  exists h', run (h_Address a c) h src = (h', src, [], Address v c) /\ preserves h h'.
Proof.
  intros Ha. destruct (run_quiet _ h src _ (Address_heap (lookup h) nothing a c v Ha))
    as (h1 & o & own' & Hr1 & (-> & ->) & P & I). exists h1. auto.
Qed.

Lemma int_at_update h b m p v : int_at (lookup h) p v -> (exists o, lookup h b = Some (ONet o)) ->
  int_at (lookup (update h b (ONet m))) p v.
Proof.
  intros H (o & Hb). destruct p as [a|]; [|exact H]. destruct H as (z & Hz & Ev). exists z. split; [|exact Ev].
  rewrite update_other; [exact Hz|]. intros ->. congruence.
Qed.

Lemma pub_at_update_same h a v n o m : pub_at (lookup h) a v -> network_of h a = Some (Some n) ->
  lookup h n = Some (ONet o) ->
  pub_at (lookup (update h n (ONet m))) a (PublicKey (PX v) (PY v) (Some m)).
Proof.
  intros (x & y & p & La & Ix & Iy & Nn) Hn Ln. unfold network_of in Hn. rewrite La in Hn. injection Hn as ->.
  exists x, y, (Some n). split; [rewrite update_other; [exact La|intros ->; congruence]|].
  split; [apply int_at_update; eauto|]. split; [apply int_at_update; eauto|].
  exists m. split; [eapply update_same; eassumption|reflexivity].
Qed.

Lemma pub_at_update_other h a v b o m : pub_at (lookup h) a v -> network_of h a <> Some (Some b) ->
  lookup h b = Some (ONet o) -> pub_at (lookup (update h b (ONet m))) a v.
Proof.
  intros (x & y & p & La & Ix & Iy & Nn) Hn Lb. unfold network_of in Hn. rewrite La in Hn.
  exists x, y, p. split; [rewrite update_other; [exact La|intros ->; congruence]|].
  split; [apply int_at_update; eauto|]. split; [apply int_at_update; eauto|].
  destruct p as [n|]; [|exact Nn]. destruct Nn as (w & Lw & Ew). exists w. split; [|exact Ew].
  rewrite update_other; [exact Lw|]. intros ->. apply Hn. reflexivity.
Qed.

Lemma address_follows h src a c v n o m : pub_at (lookup h) a v -> network_of h a = Some (Some n) ->
  lookup h n = Some (ONet o) ->
  snd (run (h_Address a c) (update h n (ONet m)) src) = Address (PublicKey (PX v) (PY v) (Some m)) c.
Proof.
  intros Ha Hn Ln. destruct (Address_run (update h n (ONet m)) src a c _ (pub_at_update_same h a v n o m Ha Hn Ln))
    as (h' & -> & _). reflexivity.
Qed.
Lemma address_ignores h src a c v b o m : pub_at (lookup h) a v -> network_of h a <> Some (Some b) ->
  lookup h b = Some (ONet o) ->
  snd (run (h_Address a c) (update h b (ONet m)) src) = Address v c /\
  snd (run (h_Address a c) h src) = Address v c.
Proof.
  intros Ha Hn Lb. destruct (Address_run (update h b (ONet m)) src a c _ (pub_at_update_other h a v b o m Ha Hn Lb))
    as (h' & -> & _). destruct (Address_run h src a c v Ha) as (h1 & -> & _). split; reflexivity.
Qed.

Lemma priv_at_update_same h a v n o m : priv_at (lookup h) a v -> network_of h a = Some (Some n) ->
  lookup h n = Some (ONet o) ->
  priv_at (lookup (update h n (ONet m))) a (PrivateKey (Key v) (Hex v) (WIF v) (Some m)).
Proof.
  intros (k & p & La & Ik & Nn) Hn Ln. unfold network_of in Hn. rewrite La in Hn. injection Hn as ->.
  exists k, (Some n). split; [rewrite update_other; [exact La|intros ->; congruence]|].
  split; [apply int_at_update; eauto|].
  exists m. split; [eapply update_same; eassumption|reflexivity].
Qed.
Lemma priv_at_update_other h a v b o m : priv_at (lookup h) a v -> network_of h a <> Some (Some b) ->
  lookup h b = Some (ONet o) -> priv_at (lookup (update h b (ONet m))) a v.
Proof.
  intros (k & p & La & Ik & Nn) Hn Lb. unfold network_of in Hn. rewrite La in Hn.
  exists k, p. split; [rewrite update_other; [exact La|intros ->; congruence]|].
  split; [apply int_at_update; eauto|].
  destruct p as [n|]; [|exact Nn]. destruct Nn as (w & Lw & Ew). exists w. split; [|exact Ew].
  rewrite update_other; [exact Lw|]. intros ->. apply Hn. reflexivity.
Qed.

(** ** Running a given schedule (used in the examples) *)

Section Sched.
Context {A : Type}.

Definition texec (h : heap) (src : list byte) (lg : list gostring) (t : thread A)
  : option (heap * list byte * list gostring * thread A) :=
  match t with
  | Thread (PRet _) _ _ | Thread (PPanic _) _ _ => None
  | Thread (PAlloc o k) d l => Some (h ++ [o], src, lg, Thread (k (length h)) d l)
  | Thread (PRead a k) d l =>
      match lookup h a with Some o => Some (h, src, lg, Thread (k o) d l) | None => None end
  | Thread (PWrite a o k) d l =>
      match lookup h a with Some _ => Some (update h a o, src, lg, Thread k d l) | None => None end
  | Thread (PRandom n k) d l =>
      if (n <=? length src)%nat
      then Some (h, skipn n src, lg, Thread (k (Some (firstn n src))) (d ++ firstn n src) l)
      else Some (h, [], lg, Thread (k None) (d ++ src) l)
  | Thread (PLogLine s k) d l => Some (h, src, lg ++ [s], Thread k d (l ++ [s]))
  end.

Lemma texec_ok h src lg t h' src' lg' t' : texec h src lg t = Some (h', src', lg', t') ->
  tstep h src lg t h' src' lg' t'.
Proof.
  destruct t as [p d l]. destruct p as [a|e|o k|a k|a o k|n k|s k]; cbn; try discriminate.
  - intros [= <- <- <- <-]. constructor.
  - destruct (lookup h a) eqn:Ea; [|discriminate]. intros [= <- <- <- <-]. constructor. exact Ea.
  - destruct (lookup h a) eqn:Ea; [|discriminate]. intros [= <- <- <- <-]. constructor. eauto.
  - destruct (n <=? length src)%nat eqn:En.
    + intros [= <- <- <- <-]. rewrite <- (firstn_skipn n src) at 1. constructor.
      apply Nat.leb_le in En. apply firstn_length_le, En.
    + intros [= <- <- <- <-]. constructor. apply Nat.leb_gt, En.
  - intros [= <- <- <- <-]. constructor.
Qed.

(** Move goroutine [i], if it can. *)
Definition move (w : world A) (i : nat) : world A :=
  match nth_error (wthreads w) i with
  | Some t =>
      match texec (wheap w) (wsource w) (wlog w) t with
      | Some (h', src', lg', t') => World h' src' lg' (firstn i (wthreads w) ++ t' :: skipn (S i) (wthreads w))
      | None => w
      end
  | None => w
  end.

Lemma move_ok w i : steps w (move w i).
Proof.
  unfold move. destruct (nth_error (wthreads w) i) as [t|] eqn:Et; [|constructor].
  destruct (texec _ _ _ t) as [[[[h' src'] lg'] t']|] eqn:Ex; [|constructor].
  apply texec_ok in Ex. econstructor; [constructor|]. destruct w as [h src lg ts]. cbn in *.
  replace ts with (firstn i ts ++ t :: skipn (S i) ts) at 1; [constructor; exact Ex|].
  clear - Et. revert i Et. induction ts as [|u ts IH]; intros [|i] Et; try discriminate; cbn.
  - injection Et as ->. reflexivity.
  - f_equal. apply IH, Et.
Qed.

Lemma steps_trans (w1 w2 w3 : world A) : steps w1 w2 -> steps w2 w3 -> steps w1 w3.
Proof. intros H1 H2. induction H2 as [|w2 w3 w4 H2 IH St]; [exact H1|]. econstructor; [apply IH, H1|exact St]. Qed.

Definition sched (is : list nat) (w : world A) : world A := fold_left move is w.

Lemma sched_ok is w : steps w (sched is w).
Proof.
  revert w. induction is as [|i is IH]; intros w; [constructor|]. cbn. eapply steps_trans; [apply move_ok|apply IH].
Qed.
End Sched.

(** The heap and the package variables after the package is loaded. *)
Definition h0 : heap := fst (fst (fst (run init [] []))).
Definition g0 : globals :=
  match snd (run init [] []) with Ret g => g | Panic _ => Globals O O O O O O O O O end.
Lemma h0_globals : globals_at (lookup h0) g0.
Proof. repeat split. Qed.
