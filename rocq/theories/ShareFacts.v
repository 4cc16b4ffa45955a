(** * No program can get at the curve (C107) *)

From Coq Require Import String.
From Verif Require Import GoBase GoNum Model ModelPtr GoSyntax GoSource GoSem SpecSource SpecShare SpecConc SpecHistory.
From Verif Require Import SourceBase SourcePriv SourcePub SourceAll.
Local Open Scope Z_scope.

Lemma field_pointers t fs x v a : In (x, v) fs -> In a (pointers v) -> In a (pointers (VStruct t fs)).
Proof.
  intros Hi Ha. cbn [pointers]. induction fs as [|p fs IH]; [contradiction|]. apply in_or_app.
  destruct Hi as [->|Hi]; [left; exact Ha|right; auto].
Qed.

(** the objects of a program: [P] holds them all, and nothing points out of it *)
Record region (h : list value) (hs : list value) (P : nat -> Prop) : Prop := {
  region_held : forall v a, In v hs -> In a (pointers v) -> P a;
  region_closed : forall b c a, P b -> nth_error h b = Some c -> In a (pointers c) -> P a;
  region_low : forall a, P a -> (a < length h)%nat }.

Lemma reach_region h hs P : region h hs P -> forall a, reach h hs a -> P a.
Proof. intros [H1 H2 H3] a R. induction R; eauto. Qed.

(** the curve, at addresses that are not among [P] *)
Definition number_apart (P : nat -> Prop) (h : list value) (v : value) (z : Z) : Prop :=
  exists a, v = VPtr a /\ nth_error h a = Some (VBig z) /\ ~ P a.
Definition curve_apart (P : nat -> Prop) (h : list value) : Prop :=
  exists z a b p gx gy n c,
    global "secp256k1" = Some z /\ ~ P z /\
    nth_error h z = Some (VStruct "ecdsa.Curve" [("A", a); ("B", b); ("P", p);
                              ("G", VStruct "ecdsa.Point" [("X", gx); ("Y", gy)]);
                              ("N", n); ("H", c)]%string) /\
    number_apart P h a secp_A /\ number_apart P h b secp_B /\ number_apart P h p secp_P /\
    number_apart P h gx secp_Gx /\ number_apart P h gy secp_Gy /\
    number_apart P h n secp_N /\ number_apart P h c secp_H.

Lemma number_is P h v z : number_apart P h v z -> is_big h v (Some z).
Proof. intros (a & -> & H & _). exists a. auto. Qed.
Lemma curve_apart_ready P h : curve_apart P h -> curve_ready h.
Proof.
  intros (z & a & b & p & gx & gy & n & c & Hz & _ & Hc & H1 & H2 & H3 & H4 & H5 & H6 & H7).
  exists a, b, p, gx, gy, n, c. split; [exists z; auto|].
  repeat split; eapply number_is; eassumption.
Qed.

Lemma curve_apart_same (P Q : nat -> Prop) h h' : (forall a, Q a -> P a \/ (length h <= a)%nat) ->
  (forall a c, ~ P a -> nth_error h a = Some c -> nth_error h' a = Some c) -> curve_apart P h -> curve_apart Q h'.
Proof.
  intros HQ HS (z & a & b & p & gx & gy & n & c & Hz & Hp & Hc & H1 & H2 & H3 & H4 & H5 & H6 & H7).
  assert (NQ : forall i x, ~ P i -> nth_error h i = Some x -> ~ Q i).
  { intros i x Hi Hx Hq. destruct (HQ _ Hq) as [G|G]; [auto|].
    assert (nth_error h i <> None) as N by congruence. apply nth_error_Some in N. lia. }
  assert (NA : forall v w, number_apart P h v w -> number_apart Q h' v w).
  { intros v w (i & -> & Hi & Hn). exists i. split; [reflexivity|]. split; [auto|eauto]. }
  exists z, a, b, p, gx, gy, n, c. split; [exact Hz|]. split; [eauto|]. split; [auto|].
  repeat split; auto.
Qed.

Lemma hset_length h a v : length (hset h a v) = length h.
Proof.
  unfold hset. rewrite app_length, firstn_length. destruct (skipn a h) as [|x t] eqn:Hs.
  - cbn [length]. assert (length (skipn a h) = 0)%nat as H by now rewrite Hs. rewrite skipn_length in H. lia.
  - cbn [length]. assert (length (skipn a h) = S (length t)) as H by now rewrite Hs. rewrite skipn_length in H. lia.
Qed.
Lemma hset_same h a v : (a < length h)%nat -> nth_error (hset h a v) a = Some v.
Proof. intros H. destruct (nth_error h a) eqn:Ha; [now apply (get_set h a v v0)|]. apply nth_error_None in Ha. lia. Qed.
Lemma hset_other h a b v : a <> b -> nth_error (hset h a v) b = nth_error h b.
Proof.
  intros H. destruct (nth_error h b) as [x|] eqn:Hb; [now apply get_unset|].
  apply nth_error_None. rewrite hset_length. now apply nth_error_None.
Qed.

Definition safe (s : state) (hs : list value) : Prop := exists P, region (heap s) hs P /\ curve_apart P (heap s).

(** ** The steps of a program *)

Lemma low_of h a (c : value) : nth_error h a = Some c -> (a < length h)%nat.
Proof. intros H. apply nth_error_Some. congruence. Qed.

Lemma old_cell (h l : list value) a c : (a < length h)%nat -> nth_error (h ++ l) a = Some c -> nth_error h a = Some c.
Proof. intros H E. now rewrite nth_error_app1 in E. Qed.

Lemma safe_makes s hs v : safe s hs -> within (heap s) hs v ->
  safe (State (heap s ++ [v]) (source s) (logged s)) (VPtr (length (heap s)) :: hs).
Proof.
  intros (P & HR & HC) Hw. assert (HP := reach_region _ _ _ HR). destruct HR as [R1 R2 R3].
  exists (fun a => P a \/ a = length (heap s)). cbn [heap]. split; [split|].
  - intros w a [<-|Hi] Ha; [cbn in Ha; destruct Ha as [<-|[]]; auto|left; eauto].
  - intros b c a [Hb| ->] Hc Ha.
    + left. apply (R2 b c a Hb); [|exact Ha]. apply (old_cell _ [v]); auto.
    + rewrite nth_error_app2, Nat.sub_diag in Hc by lia. injection Hc as <-. left. auto.
  - intros a [Ha| ->]; rewrite app_length; cbn [length]; [apply R3 in Ha; lia|lia].
  - apply (curve_apart_same P _ (heap s)); [intros a [Ha| ->]; auto| |exact HC].
    intros a c _. apply get_old.
Qed.

Lemma safe_overwrites s hs a v : safe s hs -> reach (heap s) hs a -> within (heap s) hs v ->
  safe (State (hset (heap s) a v) (source s) (logged s)) hs.
Proof.
  intros (P & HR & HC) Ha Hw. assert (HP := reach_region _ _ _ HR). destruct HR as [R1 R2 R3].
  assert (La := R3 _ (HP _ Ha)).
  assert (HL : length (hset (heap s) a v) = length (heap s)) by apply hset_length.
  exists P. cbn [heap]. split; [split|].
  - exact R1.
  - intros b c i Hb Hc Hi. destruct (Nat.eq_dec b a) as [->|Hne].
    + rewrite hset_same in Hc by exact La. injection Hc as <-. auto.
    + rewrite hset_other in Hc by congruence. eauto.
  - intros i Hi. rewrite HL. auto.
  - apply (curve_apart_same P P (heap s)); [auto| |exact HC].
    intros i c Hi Hc. rewrite hset_other; [exact Hc|]. intros <-. apply Hi. auto.
Qed.

(** ** Calls *)

(** a call that hands out new objects [N] only, and nothing else that was not there *)
Lemma safe_grows s hs vs new rd lg (N : nat -> Prop) : safe s hs ->
  (forall P, region (heap s) hs P ->
     (forall v a, In v vs -> In a (pointers v) -> P a \/ N a) /\
     (forall b c a, N b -> nth_error (heap s ++ new) b = Some c -> In a (pointers c) -> P a \/ N a)) ->
  (forall a, N a -> (length (heap s) <= a < length (heap s ++ new))%nat) ->
  safe (State (heap s ++ new) rd lg) (vs ++ hs).
Proof.
  intros (P & HR & HC) HN HL. destruct (HN P HR) as (N1 & N2). destruct HR as [R1 R2 R3].
  exists (fun a => P a \/ N a). cbn [heap]. split; [split|].
  - intros v a Hi Ha. apply in_app_or in Hi as [Hi|Hi]; [eauto|left; eauto].
  - intros b c a [Hb|Hb] Hc Ha; [|eauto]. left. apply (R2 b c a Hb); [|exact Ha]. apply (old_cell _ new); auto.
  - intros a [Ha|Ha]; [apply R3 in Ha; rewrite app_length; lia|apply HL in Ha; lia].
  - apply (curve_apart_same P _ (heap s)); [intros a [Ha|Ha]; [auto|right; apply HL in Ha; lia]| |exact HC].
    intros a c _. apply get_old.
Qed.

Lemma safe_plain s hs vs new rd lg : safe s hs -> Forall (fun v => pointers v = []) vs ->
  safe (State (heap s ++ new) rd lg) (vs ++ hs).
Proof.
  intros HS HV. apply (safe_grows s hs vs new rd lg (fun _ => False) HS); [|tauto].
  intros P _. split; [|tauto]. intros v a Hi Ha. rewrite Forall_forall in HV. rewrite (HV v Hi) in Ha. contradiction.
Qed.


Lemma safe_priv s hs net new rd lg v w k : safe s hs -> within (heap s) hs net -> pointers w = [] ->
  made_priv (heap s) net (heap s ++ new) v k -> safe (State (heap s ++ new) rd lg) ([v; w] ++ hs).
Proof.
  intros HS Hn Hw (a & key & -> & Ha & Hc & Hb & Hf & _).
  assert (La := low_of _ _ _ Hc).
  apply (safe_grows s hs _ new rd lg (fun i => i = a \/ key = VPtr i) HS).
  - intros P HR. assert (HP := reach_region _ _ _ HR). split.
    + intros u i [<-|[<-|[]]] Hi; [cbn in Hi; destruct Hi as [<-|[]]; auto|rewrite Hw in Hi; contradiction].
    + intros b c i [->|Hk] Hc' Hi.
      * rewrite Hc in Hc'. injection Hc' as <-. cbn [pointers snd app] in Hi.
        apply in_app_or in Hi as [Hi|Hi].
        -- right. right. destruct Hf as [-> | (j & -> & _)]; [contradiction|]. destruct Hi as [<-|[]]. reflexivity.
        -- rewrite app_nil_r in Hi. left. auto.
      * subst key. destruct (Key k) as [z|]; cbn in Hb; [|discriminate]. destruct Hb as (j & [= <-] & Hj).
        rewrite Hj in Hc'. injection Hc' as <-. contradiction.
  - intros i [->|Hk]; [lia|]. subst key. destruct Hf as [Hf|(j & [= <-] & Hj)]; [discriminate|]. split; [exact Hj|].
    destruct (Key k) as [z|]; cbn in Hb; [|discriminate]. destruct Hb as (j & [= <-] & Hj'). eapply low_of, Hj'.
Qed.

Lemma safe_pub s hs net new rd lg v w p : safe s hs -> within (heap s) hs net -> pointers w = [] ->
  made_pub (heap s) net (heap s ++ new) v p -> safe (State (heap s ++ new) rd lg) ([v; w] ++ hs).
Proof.
  intros HS Hn Hw (a & x & y & -> & Ha & Hc & Hx & Hfx & Hy & Hfy & _).
  assert (La := low_of _ _ _ Hc).
  assert (B : forall u z i, is_big (heap s ++ new) u z -> u = VPtr i -> exists t, nth_error (heap s ++ new) i = Some (VBig t)).
  { intros u [z|] i Hu ->; cbn in Hu; [|discriminate]. destruct Hu as (j & [= <-] & Hj). eauto. }
  apply (safe_grows s hs _ new rd lg (fun i => i = a \/ x = VPtr i \/ y = VPtr i) HS).
  - intros P HR. assert (HP := reach_region _ _ _ HR). split.
    + intros u i [<-|[<-|[]]] Hi; [cbn in Hi; destruct Hi as [<-|[]]; auto|rewrite Hw in Hi; contradiction].
    + intros b c i [->|Hk] Hc' Hi.
      * rewrite Hc in Hc'. injection Hc' as <-. cbn [pointers snd app] in Hi.
        apply in_app_or in Hi as [Hi|Hi]; [|apply in_app_or in Hi as [Hi|Hi]].
        -- right. right. left. destruct Hfx as [-> | (j & -> & _)]; [contradiction|]. destruct Hi as [<-|[]]. reflexivity.
        -- right. right. right. destruct Hfy as [-> | (j & -> & _)]; [contradiction|]. destruct Hi as [<-|[]]. reflexivity.
        -- rewrite app_nil_r in Hi. left. auto.
      * assert (exists t, nth_error (heap s ++ new) b = Some (VBig t)) as (t & Ht) by (destruct Hk; eauto).
        rewrite Ht in Hc'. injection Hc' as <-. contradiction.
  - intros i [->|Hk]; [lia|].
    assert (exists t, nth_error (heap s ++ new) i = Some (VBig t)) as (t & Ht) by (destruct Hk; eauto).
    split; [|eapply low_of, Ht].
    destruct Hk as [-> | ->]; [destruct Hfx as [H|(j & [= <-] & H)]|destruct Hfy as [H|(j & [= <-] & H)]]; try discriminate; exact H.
Qed.

Lemma field_within h hs v x w : within h hs v -> field_is h v x w -> within h hs w.
Proof.
  intros Hv (a & t & fs & -> & Hc & Hi) i Hin. apply (reach_step _ _ a (VStruct t fs)).
  - apply Hv. cbn. auto.
  - exact Hc.
  - eapply field_pointers; eassumption.
Qed.

Section Calls.
Context (E : curve_params -> ecdsa_lib).

Lemma ends_one f args s r r' : ends E f args s r -> ends E f args s r' -> r = r'.
Proof.
  intros (n & Hn) (m & Hm). rewrite <- (Hn (n + m)%nat), <- (Hm (n + m)%nat) by lia. reflexivity.
Qed.

(** calls by what they answer *)
Lemma by_plain {A} f args s hs vs s' (o : outcome A) (rep : repr A) : safe s hs ->
  (forall h a us, rep h a us -> Forall (fun v => pointers v = []) us) ->
  answers E f args s o rep -> ends E f args s (Done vs s') -> safe s' (vs ++ hs).
Proof.
  intros HS HP (new & R) HE. destruct o as [a|p].
  - destruct R as (us & R & Hr). pose proof (ends_one _ _ _ _ _ HE R) as [= -> ->]. apply safe_plain; eauto.
  - pose proof (ends_one _ _ _ _ _ HE R). discriminate.
Qed.
Lemma by_priv f args net s hs vs s' o : safe s hs -> within (heap s) hs net ->
  answers E f args s o (own_priv s net) -> ends E f args s (Done vs s') -> safe s' (vs ++ hs).
Proof.
  intros HS Hn (new & R) HE. destruct o as [[k|e]|p].
  - destruct R as (us & R & u & -> & Hr). pose proof (ends_one _ _ _ _ _ HE R) as [= -> ->].
    eapply safe_priv; [exact HS|exact Hn|reflexivity|exact Hr].
  - destruct R as (us & R & Hr). pose proof (ends_one _ _ _ _ _ HE R) as [= -> ->]. hnf in Hr. subst us.
    apply safe_plain; [exact HS|repeat constructor].
  - pose proof (ends_one _ _ _ _ _ HE R). discriminate.
Qed.
Lemma by_pub f args net s hs vs s' o : safe s hs -> within (heap s) hs net ->
  answers E f args s o (own_pub s net) -> ends E f args s (Done vs s') -> safe s' (vs ++ hs).
Proof.
  intros HS Hn (new & R) HE. destruct o as [[k|e]|p].
  - destruct R as (us & R & u & -> & Hr). pose proof (ends_one _ _ _ _ _ HE R) as [= -> ->].
    eapply safe_pub; [exact HS|exact Hn|reflexivity|exact Hr].
  - destruct R as (us & R & Hr). pose proof (ends_one _ _ _ _ _ HE R) as [= -> ->]. hnf in Hr. subst us.
    apply safe_plain; [exact HS|repeat constructor].
  - pose proof (ends_one _ _ _ _ _ HE R). discriminate.
Qed.

Lemma plain_text_or_err h a us : text_or_err h a us -> Forall (fun v => pointers v = []) us.
Proof. destruct a; [intros (v & -> & ->)|intros ->]; repeat constructor. Qed.
Lemma plain_bytes_or_err h a us : bytes_or_err h a us -> Forall (fun v => pointers v = []) us.
Proof. destruct a as [[b|]|e]; [intros (v & -> & ->)|intros (v & -> & ->)|intros ->]; repeat constructor. Qed.

(** a panic is no answer *)
Lemma by_panic {A} f args s hs vs s' (o : outcome A) (rep : repr A) p : o = Panic p ->
  answers E f args s o rep -> ends E f args s (Done vs s') -> safe s' (vs ++ hs).
Proof. intros -> (new & R) HE. pose proof (ends_one _ _ _ _ _ HE R). discriminate. Qed.

Lemma safe_calls s hs f args vs s' : safe s hs -> Forall (within (heap s) hs) args ->
  api_call (heap s) f args -> ends E f args s (Done vs s') -> safe s' (vs ++ hs).
Proof.
  intros HS HW HA HE. assert (HC : curve_ready (heap s)) by (destruct HS as (P & _ & HC); eapply curve_apart_ready, HC).
  pose proof (Nat.le_0_l (length (heap s))) as H0.
  destruct HA.
  - eapply by_plain; [exact HS| |apply answers_CheckWIF|exact HE]. intros ? ? ? ->. repeat constructor.
  - eapply by_priv; [exact HS| |exact (own_PrivateFromHex E O x v net s H H0)|exact HE].
    inversion HW as [|? ? _ HW']. now inversion HW'.
  - eapply by_priv; [exact HS| |exact (own_PrivateFromWIF E O x v net s (roomy_unbounded _ _) H H0)|exact HE].
    inversion HW as [|? ? _ HW']. now inversion HW'.
  - destruct (own_Generate E O v net s H H0) as (new & R). destruct (GeneratePrivateKey net (source s)) as [[k rest]|p].
    + destruct R as (us & R & u & -> & Hr). pose proof (ends_one _ _ _ _ _ HE R) as [= -> ->].
      assert (Hv : within (heap s) hs v) by now inversion HW.
      assert (HH : safe (State (heap s ++ new) rest (logged s)) ([u; VNil] ++ hs))
        by (eapply safe_priv; [exact HS|exact Hv|reflexivity|exact Hr]).
      destruct HH as (P & [R1 R2 R3] & HP). exists P. split; [|exact HP]. split; [|exact R2|exact R3].
      intros w a Hi Ha. apply (R1 w a); [|exact Ha]. cbn [app In] in *. tauto.
    + destruct R as (left & R). pose proof (ends_one _ _ _ _ _ HE R). discriminate.
  - assert (Hv : within (heap s) hs v) by now inversion HW.
    destruct p as [p|]; [destruct q as [q|]|].
    + destruct (priv_field _ _ _ H) as (net & Hf).
      eapply by_priv; [exact HS|exact (field_within _ _ _ _ _ Hv Hf)|exact (own_AddPrivateKeys E O v p w q net s HC H H1 Hf H0)|exact HE].
    + eapply by_panic; [|exact (answers_AddPrivateKeys E v _ w _ s HC H H1)|exact HE]. reflexivity.
    + eapply by_panic; [|exact (answers_AddPrivateKeys E v _ w _ s HC H H1)|exact HE]. reflexivity.
  - assert (Hv : within (heap s) hs v) by now inversion HW.
    destruct p as [p|]; [destruct q as [q|]|].
    + destruct (priv_field _ _ _ H) as (net & Hf).
      eapply by_priv; [exact HS|exact (field_within _ _ _ _ _ Hv Hf)|exact (own_MultiplyPrivateKeys E O v p w q net s HC H H1 Hf H0)|exact HE].
    + eapply by_panic; [|exact (answers_MultiplyPrivateKeys E v _ w _ s HC H H1)|exact HE]. reflexivity.
    + eapply by_panic; [|exact (answers_MultiplyPrivateKeys E v _ w _ s HC H H1)|exact HE]. reflexivity.
  - assert (Hv : within (heap s) hs v) by now inversion HW.
    destruct p as [p|].
    2: { eapply by_panic; [|exact (answers_GetPublicKey E v _ s HC H)|exact HE]. reflexivity. }
    destruct (priv_field _ _ _ H) as (net & Hf). pose proof (field_within _ _ _ _ _ Hv Hf) as Hn.
    destruct (own_GetPublicKey E O v p net s HC H Hf H0) as (new & R). destruct (GetPublicKey _ p) as [[k|]|e].
    + destruct R as (us & R & u & -> & Hr). pose proof (ends_one _ _ _ _ _ HE R) as [= -> ->].
      eapply safe_pub; [exact HS|exact Hn|reflexivity|exact Hr].
    + destruct R as (us & R & Hr). pose proof (ends_one _ _ _ _ _ HE R) as [= -> ->]. hnf in Hr. subst us.
      apply safe_plain; [exact HS|repeat constructor].
    + pose proof (ends_one _ _ _ _ _ HE R). discriminate.
  - eapply by_pub; [exact HS| |exact (own_PublicFromHex E O x v net s HC H H0)|exact HE].
    inversion HW as [|? ? _ HW']. now inversion HW'.
  - assert (Hv : within (heap s) hs v) by now inversion HW.
    destruct p as [p|]; [destruct q as [q|]|].
    + destruct (pub_field _ _ _ H) as (net & Hf).
      eapply by_pub; [exact HS|exact (field_within _ _ _ _ _ Hv Hf)|exact (own_AddPublicKeys E O v p w q c net s HC H H1 Hf H0)|exact HE].
    + eapply by_panic; [|exact (answers_AddPublicKeys E v _ w _ c s HC H H1)|exact HE]. reflexivity.
    + eapply by_panic; [|exact (answers_AddPublicKeys E v _ w _ c s HC H H1)|exact HE]. reflexivity.
  - eapply by_plain; [exact HS| |exact (answers_Format E v p c s H)|exact HE]. intros ? ? ? ->. repeat constructor.
  - eapply by_plain; [exact HS| |exact (answers_Address E v p c s H)|exact HE]. exact plain_text_or_err.
  - destruct (answers_Mnemonic E n v wl s H) as (new & R). destruct (NewMnemonic n wl (source s)) as [a|p].
    + destruct R as (us & R & Hr). pose proof (ends_one _ _ _ _ _ HE R) as [= -> ->].
      apply safe_plain; [exact HS|]. eapply plain_text_or_err, Hr.
    + destruct R as (left & R). pose proof (ends_one _ _ _ _ _ HE R). discriminate.
  - destruct (answers_Seed E m p v wl s H) as (new & R). destruct (snd (NewSeedFromMnemonic m p wl)) as [a|q].
    + destruct R as (us & R & Hr). pose proof (ends_one _ _ _ _ _ HE R) as [= -> ->].
      apply safe_plain; [exact HS|]. eapply plain_bytes_or_err, Hr.
    + pose proof (ends_one _ _ _ _ _ HE R). discriminate.
Qed.

(** ** The start *)
Lemma safe_begins rd lg s a b : ends E "init" [] (State start_heap rd lg) (Done [] s) ->
  global "MainNetwork" = Some a -> global "TestNetwork" = Some b -> safe s [VPtr a; VPtr b].
Proof.
  intros HE Ha Hb. destruct (answers_init E rd lg) as (h & HI & HC & (v & (a' & Ha' & Va) & Hv) & w & (b' & Hb' & Vb) & Hw).
  pose proof (ends_one _ _ _ _ _ HE HI) as [= ->]. rewrite Ha in Ha'. injection Ha' as <-. rewrite Hb in Hb'. injection Hb' as <-.
  destruct Hv as (i & -> & Hi), Hw as (j & -> & Hj).
  exists (fun z => z = a \/ z = b \/ z = i \/ z = j). cbn [heap]. split; [split|].
  - intros u z [<-|[<-|[]]] Hz; cbn in Hz; destruct Hz as [<-|[]]; auto.
  - intros z c d [->|[->|[->| ->]]] Hc Hd.
    + rewrite Va in Hc. injection Hc as <-. cbn in Hd. destruct Hd as [<-|[]]. auto.
    + rewrite Vb in Hc. injection Hc as <-. cbn in Hd. destruct Hd as [<-|[]]. auto.
    + rewrite Hi in Hc. injection Hc as <-. contradiction.
    + rewrite Hj in Hc. injection Hc as <-. contradiction.
  - intros z [->|[->|[->| ->]]]; eapply low_of; eassumption.
  - destruct HC as (xa & xb & xp & gx & gy & n & c & (z & Hz & Hc) & H).
    assert (NB : forall u t, is_big h u (Some t) -> number_apart (fun z => z = a \/ z = b \/ z = i \/ z = j) h u t).
    { intros u t (d & -> & Hd). exists d. split; [reflexivity|]. split; [exact Hd|].
      unfold network_cell in *. intros [->|[->|[->| ->]]]; congruence. }
    exists z, xa, xb, xp, gx, gy, n, c. split; [exact Hz|]. split.
    { unfold network_cell in *. intros [->|[->|[->| ->]]]; congruence. }
    split; [exact Hc|]. repeat split; apply NB; tauto.
Qed.

(** every call comes to an end, and leaves every object as it was *)
Lemma every_call_ends s f args : curve_ready (heap s) -> api_call (heap s) f args ->
  exists r new rd lg, ends E f args s r /\
    ((exists vs, r = Done vs (State (heap s ++ new) rd lg)) \/ (exists p, r = Crash p (State (heap s ++ new) rd lg))).
Proof.
  intros HC HA.
  assert (K : forall A g l t (o : outcome A) rep, answers E g l t o rep ->
     exists r new rd lg, ends E g l t r /\
    ((exists vs, r = Done vs (State (heap t ++ new) rd lg)) \/ (exists p, r = Crash p (State (heap t ++ new) rd lg)))).
  { intros A g l t o rep (new & H). destruct o as [a|p]; [destruct H as (vs & H & _)|]; do 4 eexists; (split; [exact H|]); eauto. }
  destruct HA.
  - eapply K, answers_CheckWIF.
  - eapply K, answers_PrivateFromHex, H.
  - eapply K, answers_PrivateFromWIF, H.
  - destruct (answers_Generate E v net s H) as (new & R). destruct (GeneratePrivateKey net (source s)) as [a|p].
    + destruct R as (vs & R & _). do 4 eexists. split; [exact R|eauto].
    + destruct R as (left & R). do 4 eexists. split; [exact R|eauto].
  - eapply K, answers_AddPrivateKeys; eassumption.
  - eapply K, answers_MultiplyPrivateKeys; eassumption.
  - eapply K, answers_GetPublicKey; eassumption.
  - eapply K, answers_PublicFromHex; eassumption.
  - eapply K, answers_AddPublicKeys; eassumption.
  - eapply K, answers_Format, H.
  - eapply K, answers_Address, H.
  - destruct (answers_Mnemonic E n v wl s H) as (new & R). destruct (NewMnemonic n wl (source s)) as [a|p].
    + destruct R as (vs & R & _). do 4 eexists. split; [exact R|eauto].
    + destruct R as (left & R). do 4 eexists. split; [exact R|eauto].
  - destruct (answers_Seed E m p v wl s H) as (new & R). destruct (snd (NewSeedFromMnemonic m p wl)) as [a|q].
    + destruct R as (vs & R & _). do 4 eexists. split; [exact R|eauto].
    + do 4 eexists. split; [exact R|eauto].
Qed.
Lemma history_safe s hs : history E s hs -> safe s hs.
Proof.
  induction 1.
  - eapply safe_begins; eassumption.
  - now apply safe_makes.
  - now apply safe_overwrites.
  - destruct IHhistory as (P & HR & HC). exists P. auto.
  - eapply safe_calls; eassumption.
  - assert (HC : curve_ready (heap s)) by (destruct IHhistory as (P & _ & HC); eapply curve_apart_ready, HC).
    destruct (every_call_ends s f args HC H1) as (r & new & rd & lg & HE & [(us & ->)|(q & ->)]);
      pose proof (ends_one _ _ _ _ _ H2 HE) as R; [discriminate|]. injection R as -> ->.
    apply (safe_plain s hs [] new rd lg IHhistory). constructor.
Qed.

Lemma history_curve s hs : history E s hs -> curve_ready (heap s).
Proof. intros H. destruct (history_safe _ _ H) as (P & _ & HC). eapply curve_apart_ready, HC. Qed.

(** no number of the curve can be got at *)
Lemma history_apart s hs a b p gx gy n c v i : history E s hs ->
  var_is (heap s) "secp256k1" (VStruct "ecdsa.Curve" [("A", a); ("B", b); ("P", p);
                              ("G", VStruct "ecdsa.Point" [("X", gx); ("Y", gy)]); ("N", n); ("H", c)]%string) ->
  In v [a; b; p; gx; gy; n; c] -> v = VPtr i -> ~ reach (heap s) hs i.
Proof.
  intros H (z & Hz & Hv) Hi -> HR. destruct (history_safe _ _ H) as (P & R & C).
  destruct C as (z' & a' & b' & p' & gx' & gy' & n' & c' & Hz' & _ & Hc & H1 & H2 & H3 & H4 & H5 & H6 & H7).
  rewrite Hz in Hz'. injection Hz' as <-. rewrite Hv in Hc. injection Hc as <- <- <- <- <- <- <-.
  apply (reach_region _ _ _ R) in HR.
  assert (A : forall u t, number_apart P (heap s) u t -> u = VPtr i -> False)
    by (intros u t (k & -> & _ & Hk) [= ->]; auto).
  destruct Hi as [Hi|[Hi|[Hi|[Hi|[Hi|[Hi|[Hi|[]]]]]]]]; [exact (A _ _ H1 Hi)|exact (A _ _ H2 Hi)|exact (A _ _ H3 Hi)|exact (A _ _ H4 Hi)|
    exact (A _ _ H5 Hi)|exact (A _ _ H6 Hi)|exact (A _ _ H7 Hi)].
Qed.

Lemma history_call_ends s hs f args : history E s hs -> api_call (heap s) f args ->
  exists r new rd lg, ends E f args s r /\
    ((exists vs, r = Done vs (State (heap s ++ new) rd lg)) \/ (exists p, r = Crash p (State (heap s ++ new) rd lg))).
Proof. intros H. apply every_call_ends, (history_curve _ _ H). Qed.

(** ** The calls that make keys *)
Lemma new_PrivateFromHex x v net s : is_net (heap s) v net ->
  answers E "PrivateFromHex" [VStr x; v] s (PrivateFromHex x net) (own_priv s v).
Proof. intros H. exact (own_PrivateFromHex E O x v net s H (Nat.le_0_l _)). Qed.
Lemma new_PrivateFromWIF w v net s : is_net (heap s) v net ->
  answers E "PrivateFromWIF" [VStr w; v] s (PrivateFromWIF w net) (own_priv s v).
Proof. intros H. exact (own_PrivateFromWIF E O w v net s (roomy_unbounded _ _) H (Nat.le_0_l _)). Qed.
Lemma new_GeneratePrivateKey v net s : is_net (heap s) v net ->
  answers_reading E "GeneratePrivateKey" [v] s (GeneratePrivateKey net (source s)) snd (own_random_priv s v).
Proof. intros H. exact (own_Generate E O v net s H (Nat.le_0_l _)). Qed.
Lemma new_PublicFromHex x v net s : curve_ready (heap s) -> is_net (heap s) v net ->
  answers E "PublicFromHex" [VStr x; v] s (PublicFromHex (E secp256k1_params) x net) (own_pub s v).
Proof. intros HC H. exact (own_PublicFromHex E O x v net s HC H (Nat.le_0_l _)). Qed.
Lemma new_AddPrivateKeys v1 p1 v2 p2 net s : curve_ready (heap s) ->
  is_priv (heap s) v1 p1 -> is_priv (heap s) v2 p2 -> field_is (heap s) v1 "Network" net ->
  answers E "AddPrivateKeys" [v1; v2] s (AddPrivateKeys p1 p2) (own_priv s net).
Proof. intros HC H1 H2 Hf. exact (own_AddPrivateKeys E O v1 p1 v2 p2 net s HC H1 H2 Hf (Nat.le_0_l _)). Qed.
Lemma new_MultiplyPrivateKeys v1 p1 v2 p2 net s : curve_ready (heap s) ->
  is_priv (heap s) v1 p1 -> is_priv (heap s) v2 p2 -> field_is (heap s) v1 "Network" net ->
  answers E "MultiplyPrivateKeys" [v1; v2] s (MultiplyPrivateKeys p1 p2) (own_priv s net).
Proof. intros HC H1 H2 Hf. exact (own_MultiplyPrivateKeys E O v1 p1 v2 p2 net s HC H1 H2 Hf (Nat.le_0_l _)). Qed.
Lemma new_GetPublicKey v k net s : curve_ready (heap s) -> is_priv (heap s) v k -> field_is (heap s) v "Network" net ->
  answers E "PrivateKey.GetPublicKey" [v] s (GetPublicKey (E secp256k1_params) k) (own_pub_ok s net).
Proof. intros HC H Hf. exact (own_GetPublicKey E O v k net s HC H Hf (Nat.le_0_l _)). Qed.
Lemma new_AddPublicKeys v1 p1 v2 p2 c net s : curve_ready (heap s) ->
  is_pub (heap s) v1 p1 -> is_pub (heap s) v2 p2 -> field_is (heap s) v1 "Network" net ->
  answers E "AddPublicKeys" [v1; v2; VBool c] s (AddPublicKeys (E secp256k1_params) p1 p2 c) (own_pub s net).
Proof. intros HC H1 H2 Hf. exact (own_AddPublicKeys E O v1 p1 v2 p2 c net s HC H1 H2 Hf (Nat.le_0_l _)). Qed.
End Calls.

(** ** What a new key shares *)
Lemma big_apart h a c v o : is_big h v o -> v = VNil \/ v <> VPtr a -> is_big (hset h a c) v o.
Proof.
  destruct o as [z|]; [|auto]. intros (i & -> & Hi) [?|Hn]; [discriminate|]. exists i. split; [reflexivity|].
  rewrite hset_other; [exact Hi|]. congruence.
Qed.
Lemma net_apart h a c v o : is_net h v o -> v <> VPtr a -> is_net (hset h a c) v o.
Proof.
  destruct o as [n|]; [|auto]. intros (i & -> & Hi) Hn. exists i. split; [reflexivity|].
  rewrite hset_other; [exact Hi|]. congruence.
Qed.
Lemma fresh_apart h0 v a : v = VNil \/ fresh h0 v -> (a < length h0)%nat -> v = VNil \/ v <> VPtr a.
Proof. intros [H|(i & -> & Hi)] Ha; [auto|right]. intros [= ->]. lia. Qed.

Lemma made_priv_own h0 net h v k a c : made_priv h0 net h v k -> (a < length h0)%nat -> net <> VPtr a ->
  is_priv (hset h a c) v k.
Proof.
  intros (i & key & -> & Hi & Hc & Hb & Hf & Hn) Ha Hne. exists i, key, net. split; [reflexivity|]. split.
  - rewrite hset_other; [exact Hc|lia].
  - split; [apply big_apart; [exact Hb|eapply fresh_apart; eassumption]|now apply net_apart].
Qed.
Lemma made_pub_own h0 net h v p a c : made_pub h0 net h v p -> (a < length h0)%nat -> net <> VPtr a ->
  is_pub (hset h a c) v p.
Proof.
  intros (i & x & y & -> & Hi & Hc & Hx & Hfx & Hy & Hfy & _ & Hn) Ha Hne. exists i, x, y, net. split; [reflexivity|]. split.
  - rewrite hset_other; [exact Hc|lia].
  - split; [apply big_apart; [exact Hx|eapply fresh_apart; eassumption]|].
    split; [apply big_apart; [exact Hy|eapply fresh_apart; eassumption]|now apply net_apart].
Qed.

(** overwriting the network of a key changes the network of the keys made from it *)
Lemma made_priv_shared h0 i h v k n : made_priv h0 (VPtr i) h v k -> (i < length h0)%nat ->
  is_priv (hset h i (network_cell n)) v (PrivateKey (Key k) (Hex k) (WIF k) (Some n)).
Proof.
  intros (a & key & -> & Ha & Hc & Hb & Hf & Hn) Hi. exists a, key, (VPtr i). split; [reflexivity|]. split.
  - rewrite hset_other; [exact Hc|lia].
  - split; [apply big_apart; [exact Hb|eapply fresh_apart; eassumption]|]. exists i. split; [reflexivity|].
    apply hset_same. pose proof (low_of _ _ _ Hc). lia.
Qed.
Lemma made_pub_shared h0 i h v p n : made_pub h0 (VPtr i) h v p -> (i < length h0)%nat ->
  is_pub (hset h i (network_cell n)) v (PublicKey (PX p) (PY p) (Some n)).
Proof.
  intros (a & x & y & -> & Ha & Hc & Hx & Hfx & Hy & Hfy & _ & Hn) Hi. exists a, x, y, (VPtr i). split; [reflexivity|]. split.
  - rewrite hset_other; [exact Hc|lia].
  - split; [apply big_apart; [exact Hx|eapply fresh_apart; eassumption]|].
    split; [apply big_apart; [exact Hy|eapply fresh_apart; eassumption]|]. exists i. split; [reflexivity|].
    apply hset_same. pose proof (low_of _ _ _ Hc). lia.
Qed.
