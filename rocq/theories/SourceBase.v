(** * Stepping through the source: rules and tactics *)

From Coq Require Import String.
From Verif Require Import GoBase GoNum Sha256 Ripemd160 Base58 GoRand Model GoSyntax GoSource GoSem SpecSource.
From Verif Require Import NumFacts HexFacts Base58Facts.
Local Open Scope Z_scope.

(** from some bound on, [F] is constantly a result satisfying [Q] *)
Definition evt {A} (F : nat -> res A) (Q : res A -> Prop) : Prop :=
  exists r, Q r /\ exists N, forall n, (N <= n)%nat -> F n = r.

Lemma evt_const {A} (r : res A) (Q : res A -> Prop) : Q r -> evt (fun _ => r) Q.
Proof. intros H. exists r. split; [exact H|]. exists O. reflexivity. Qed.

Lemma evt_weaken {A} (F : nat -> res A) (Q Q' : res A -> Prop) :
  evt F Q -> (forall r, Q r -> Q' r) -> evt F Q'.
Proof. intros (r & Hr & HN) H. exists r. auto. Qed.

Lemma evt_andthen {A B} (F : nat -> res A) (k : nat -> A -> state -> res B) (Q : res B -> Prop) :
  evt F (fun r => evt (fun n => andthen r (k n)) Q) -> evt (fun n => andthen (F n) (k n)) Q.
Proof.
  intros (r & (r2 & HQ & N2 & H2) & N & HN).
  exists r2. split; [exact HQ|]. exists (max N N2). intros n Hn.
  rewrite HN by lia. apply H2. lia.
Qed.

Lemma evt_ext {A} (F G : nat -> res A) (Q : res A -> Prop) :
  (forall n, F n = G n) -> evt G Q -> evt F Q.
Proof. intros H (r & Hr & N & HN). exists r. split; [exact Hr|]. exists N. intros. rewrite H. auto. Qed.

Section WithE.
Context (E : curve_params -> ecdsa_lib) (L : limits).
Notation run := (run E L).
Notation exec_block := (exec_block E L).
Notation exec := (exec E L).

Lemma evt_run f args s Q :
  evt (fun n =>
    match find_func f with
    | None => Stuck
    | Some g =>
        match bind_params (f_params g) args [[]] s with
        | None => Stuck
        | Some (e, s) =>
            andthen (exec_block (run n) n (f_body g) e s) (fun c s =>
              match c with
              | Returned vs => Done vs s
              | Next _ => Done [] s
              | Broken _ => Stuck
              end)
        end
    end) Q -> evt (fun n => run n f args s) Q.
Proof.
  intros (r & HQ & N & HN). exists r. split; [exact HQ|]. exists (S N).
  intros [|n] Hn; [lia|]. apply HN. lia.
Qed.

Lemma evt_cons st b e s Q :
  evt (fun n => exec (run n) n st e s)
    (fun r => evt (fun n => andthen r (fun c s =>
                 match c with Next e => exec_block (run n) n b e s | _ => Done c s end)) Q) ->
  evt (fun n => exec_block (run n) n (st :: b) e s) Q.
Proof. intros H. apply evt_andthen. exact H. Qed.

Lemma evt_start f args h rd lg Q :
  evt (fun n => run n f args (State (h ++ []) rd lg)) Q ->
  evt (fun n => run n f args (State h rd lg)) Q.
Proof. now rewrite app_nil_r. Qed.

Lemma evt_ends f args s Q :
  evt (fun n => run n f args s) Q -> exists r, Q r /\ ends_above E L f args s r.
Proof. intros (r & HQ & N & HN). exists r. split; [exact HQ|]. exists N. exact HN. Qed.

End WithE.

(** ** The heap *)

Lemma get_new (h l : list value) j : nth_error (h ++ l) (length h + j) = nth_error l j.
Proof. rewrite nth_error_app2 by lia. f_equal. lia. Qed.

Lemma get_old (h l : list value) a x : nth_error h a = Some x -> nth_error (h ++ l) a = Some x.
Proof.
  intros H. rewrite nth_error_app1; [exact H|].
  apply nth_error_Some. congruence.
Qed.

Lemma set_new (h l : list value) j v : hset (h ++ l) (length h + j) v = h ++ hset l j v.
Proof.
  unfold hset. rewrite firstn_app, skipn_app, firstn_all2, skipn_all2 by lia.
  rewrite Nat.add_comm, Nat.add_sub. cbn [app]. now rewrite <- app_assoc.
Qed.

Lemma set_far (h l : list value) a v :
  (length h <= a)%nat -> hset (h ++ l) a v = h ++ hset l (a - length h) v.
Proof. intros H. rewrite <- set_new. f_equal. lia. Qed.

Lemma get_set (h : list value) a v x : nth_error h a = Some x -> nth_error (hset h a v) a = Some v.
Proof.
  intros H. assert (a < length h)%nat as L by (apply nth_error_Some; congruence).
  apply nth_error_split in H as (l1 & l2 & -> & <-).
  unfold hset. rewrite firstn_app, skipn_app, firstn_all, skipn_all, Nat.sub_diag. cbn [firstn skipn app].
  rewrite app_nil_r, nth_error_app2, Nat.sub_diag by lia. reflexivity.
Qed.

Lemma get_unset (h : list value) a b v x :
  nth_error h b = Some x -> a <> b -> nth_error (hset h a v) b = Some x.
Proof.
  revert a b. induction h as [|y h IH]; intros a b; destruct a, b; cbn; auto; try discriminate.
  - now intros.
  - intros H Hne. apply (IH a b H). lia.
Qed.

Lemma cell_new (h l : list value) rd lg j : cell (State (h ++ l) rd lg) (length h + j) = nth_error l j.
Proof. apply get_new. Qed.
Lemma cell_old (h l : list value) rd lg a x :
  nth_error h a = Some x -> cell (State (h ++ l) rd lg) a = Some x.
Proof. apply get_old. Qed.
Lemma store_new (h l : list value) rd lg j v :
  store (State (h ++ l) rd lg) (length h + j) v = State (h ++ hset l j v) rd lg.
Proof. unfold store. cbn [heap source logged]. now rewrite set_new. Qed.

Lemma write_new {A} floor (h l : list value) rd lg j v (x : A) : (floor <= length h)%nat ->
  write floor (State (h ++ l) rd lg) (length h + j) v x = Done x (State (h ++ hset l j v) rd lg).
Proof. intros H. unfold write. rewrite store_new. now replace (_ <? _)%nat with false by (symmetry; apply Nat.ltb_ge; lia). Qed.
Lemma write_far {A} floor s a v (x : A) : (floor <= a)%nat -> write floor s a v x = Done x (store s a v).
Proof. intros H. unfold write. now replace (_ <? _)%nat with false by (symmetry; apply Nat.ltb_ge; lia). Qed.

Lemma push_new (h l m : list value) : (h ++ l) ++ m = h ++ (l ++ m).
Proof. symmetry. apply app_assoc. Qed.

Lemma is_big_grow h l v n : is_big h v n -> is_big (h ++ l) v n.
Proof. destruct n; cbn; [|auto]. intros (a & -> & H). exists a. split; [reflexivity|]. now apply get_old. Qed.
Lemma is_net_grow h l v n : is_net h v n -> is_net (h ++ l) v n.
Proof. destruct n; cbn; [|auto]. intros (a & -> & H). exists a. split; [reflexivity|]. now apply get_old. Qed.
Lemma is_priv_grow h l v k : is_priv h v k -> is_priv (h ++ l) v k.
Proof.
  intros (a & key & net & -> & H & Hk & Hn). exists a, key, net.
  split; [reflexivity|]. split; [now apply get_old|]. split; [now apply is_big_grow|now apply is_net_grow].
Qed.
Lemma is_pub_grow h l v k : is_pub h v k -> is_pub (h ++ l) v k.
Proof.
  intros (a & x & y & net & -> & H & Hx & Hy & Hn). exists a, x, y, net.
  split; [reflexivity|]. split; [now apply get_old|].
  split; [now apply is_big_grow|]. split; [now apply is_big_grow|now apply is_net_grow].
Qed.

Lemma deep_equal_nets h v1 n1 v2 n2 rd lg :
  is_net h v1 n1 -> is_net h v2 n2 -> deep_equal v1 v2 (State h rd lg) = Some (net_eqb n1 n2).
Proof.
  destruct n1 as [n1|]; cbn [is_net]; [intros (a & -> & Ha)|intros ->];
    (destruct n2 as [n2|]; cbn [is_net]; [intros (b & -> & Hb)|intros ->]); try reflexivity.
  unfold deep_equal, cell. cbn [heap]. rewrite Ha, Hb. cbn -[str_eqb].
  now rewrite andb_true_r.
Qed.

(** ** Loops *)

(** [F m n] for all large [m] and [n] is a result satisfying [Q] *)
Definition evt2 {A} (F : nat -> nat -> res A) (Q : res A -> Prop) : Prop :=
  exists r, Q r /\ exists N, forall m n, (N <= m)%nat -> (N <= n)%nat -> F m n = r.

Lemma evt2_evt {A} (F : nat -> nat -> res A) Q : evt2 F Q -> evt (fun n => F n n) Q.
Proof. intros (r & Hr & N & HN). exists r. split; [exact Hr|]. exists N. intros n Hn. now apply HN. Qed.

Lemma evt2_for C P B e s (Q : res flow -> Prop) :
  evt (fun n => test (C n e s) (fun b s =>
         if b : bool then andthen (B n e s) (fun c s =>
           match c with
           | Next e => andthen (P n e s) (fun c s => match c with Next e => Done (Next e) s | _ => Stuck end)
           | Broken e => Done (Broken e) s
           | Returned vs => Done (Returned vs) s
           end)
         else Done (Broken e) s))
      (fun r => match r with
                | Done (Next e) s => evt2 (fun m n => for_loop m (C n) (P n) (B n) e s) Q
                | Done (Broken e) s => Q (Done (Next e) s)
                | r => Q r
                end) ->
  evt2 (fun m n => for_loop m (C n) (P n) (B n) e s) Q.
Proof.
  intros (r & HQ & N & HN).
  assert (forall m n, (N <= n)%nat -> for_loop (S m) (C n) (P n) (B n) e s =
            match r with
            | Done (Next e) s => for_loop m (C n) (P n) (B n) e s
            | Done (Broken e) s => Done (Next e) s
            | r => r
            end) as Hstep.
  { intros m n Hn. specialize (HN n Hn). cbn [for_loop]. unfold test, one in *.
    destruct (C n e s) as [vs s1|q s1| |]; cbn [andthen] in *; try (now subst r).
    destruct vs as [|[] []]; try (now subst r).
    destruct b; [|now subst r].
    destruct (B n e s1) as [[e2|e2|vs2] s2|q s2| |]; cbn [andthen] in *; try (now subst r).
    destruct (P n e2 s2) as [[e3|e3|vs3] s3|q s3| |]; cbn [andthen] in *; now subst r. }
  assert (forall r', Q r' -> (forall m n, (N <= n)%nat -> for_loop (S m) (C n) (P n) (B n) e s = r') ->
            evt2 (fun m n => for_loop m (C n) (P n) (B n) e s) Q) as Hdone.
  { intros r' Hr' H. exists r'. split; [exact Hr'|]. exists (S N).
    intros [|m] n Hm Hn; [lia|]. apply H. lia. }
  destruct r as [[e2|e2|vs2] s2|q s2| |].
  2-6: eapply Hdone; [exact HQ|exact Hstep].
  destruct HQ as (r' & Hr' & N2 & H2). exists r'. split; [exact Hr'|].
  exists (S (max N N2)). intros [|m] n Hm Hn; [lia|].
  rewrite Hstep by lia. apply H2; lia.
Qed.

Lemma evt2_ext {A} (F G : nat -> nat -> res A) Q :
  (forall m n, F m n = G m n) -> evt2 G Q -> evt2 F Q.
Proof. intros H (r & Hr & N & HN). exists r. split; [exact Hr|]. exists N. intros. rewrite H. auto. Qed.

(** [for len(x) < k { x = "0" + x }]; [g t] is the environment when [x] is [t] *)
Lemma evt_pad (k : nat) (g : gostring -> env) s C P B t (Q : res flow -> Prop) :
  (forall n t, C n (g t) s = Done [VBool (len t <? Z.of_nat k)] s) ->
  (forall n t, B n (g t) s = Done (Next (g (char0 :: t))) s) ->
  (forall n t, P n (g t) s = Done (Next (g t)) s) ->
  Q (Done (Next (g (pad_left k t))) s) ->
  evt (fun n => for_loop n (C n) (P n) (B n) (g t) s) Q.
Proof.
  intros HC HB HP HQ. apply (evt2_evt (fun m n => for_loop m (C n) (P n) (B n) (g t) s)).
  remember (k - length t)%nat as d eqn:Hd. revert t Hd HQ.
  induction d as [|d IH]; intros t Hd HQ.
  - apply evt2_for. apply (evt_ext _ (fun _ => Done (Broken (g t)) s)).
    + intros n. rewrite HC. cbn.
      replace (len t <? Z.of_nat k) with false by (symmetry; apply Z.ltb_ge; unfold len; lia).
      reflexivity.
    + apply evt_const. unfold pad_left in HQ. now rewrite <- Hd in HQ.
  - apply evt2_for. apply (evt_ext _ (fun _ => Done (Next (g (char0 :: t))) s)).
    + intros n. rewrite HC. cbn.
      replace (len t <? Z.of_nat k) with true by (symmetry; apply Z.ltb_lt; unfold len; lia).
      cbn. rewrite HB. cbn. rewrite HP. reflexivity.
    + apply evt_const. apply IH; [cbn; lia|].
      unfold pad_left in *. cbn [length].
      replace (k - S (length t))%nat with d by lia. rewrite <- Hd in HQ.
      replace (repeat char0 d ++ char0 :: t) with (repeat char0 (S d) ++ t); [exact HQ|].
      cbn [repeat]. rewrite repeat_cons, <- app_assoc. reflexivity.
Qed.

(** a loop counting up to [k]; the body fails in round [c], if [c < k] *)
Lemma evt_count (k c : nat) (g1 g2 : nat -> env) e s C P B (Q : res flow -> Prop) :
  e = g1 O -> (c <= k)%nat ->
  (forall n j, (j <= k)%nat -> C n (g1 j) s = Done [VBool (j <? k)%nat] s) ->
  (forall n j, (j < c)%nat -> B n (g1 j) s = Done (Next (g2 j)) s) ->
  (forall n j, (j < c)%nat -> P n (g2 j) s = Done (Next (g1 (S j))) s) ->
  ((c < k)%nat -> exists p, (forall n, B n (g1 c) s = Crash p s) /\ Q (Crash p s)) ->
  (c = k -> Q (Done (Next (g1 k)) s)) ->
  evt (fun n => for_loop n (C n) (P n) (B n) e s) Q.
Proof.
  intros -> Hck HC HB HP Hp HQ.
  apply (evt2_evt (fun m n => for_loop m (C n) (P n) (B n) (g1 O) s)).
  assert (forall d j, (d + j = c)%nat -> evt2 (fun m n => for_loop m (C n) (P n) (B n) (g1 j) s) Q) as H;
    [|apply (H c O); lia].
  induction d as [|d IH]; intros j Hj; apply evt2_for.
  - cbn in Hj. subst j. destruct (Nat.eq_dec c k) as [->|Hne].
    + apply (evt_ext _ (fun _ => Done (Broken (g1 k)) s)).
      * intros n. rewrite HC, Nat.ltb_irrefl by lia. reflexivity.
      * apply evt_const. now apply HQ.
    + destruct Hp as (p & Hc & Hq); [lia|].
      apply (evt_ext _ (fun _ => Crash p s)).
      * intros n. rewrite HC, (proj2 (Nat.ltb_lt c k)) by lia. cbn. now rewrite Hc.
      * apply evt_const. exact Hq.
  - apply (evt_ext _ (fun _ => Done (Next (g1 (S j))) s)).
    + intros n. rewrite HC, (proj2 (Nat.ltb_lt j k)) by lia. cbn. rewrite HB by lia. cbn. now rewrite HP by lia.
    + apply evt_const. apply IH. lia.
Qed.

(** ** Ints *)

(** ints up to [B] are not too large *)
Definition roomy (L : limits) (B : Z) : Prop := forall z, -16 <= z <= B -> as_int L z = z.
Lemma roomy_unbounded floor B : roomy (unbounded floor) B.
Proof. intros z _. reflexivity. Qed.
Lemma roomy_less L B B' : roomy L B -> B' <= B -> roomy L B'.
Proof. intros H Hb z Hz. apply H. lia. Qed.

Lemma slice_len {A} (x y : list A) lo hi : slice x lo hi = Ret y -> 0 <= len y <= len x.
Proof.
  unfold slice, len. destruct (_ && _); [|discriminate]. intros [= <-].
  rewrite firstn_length, skipn_length. lia.
Qed.

Lemma slice_zero {A} (x y : list A) hi : slice x 0 hi = Ret y -> 0 <= len y <= hi.
Proof.
  unfold slice, len. destruct (_ && _) eqn:H; [|discriminate]. intros [= <-].
  apply andb_prop in H as [[_ H%Z.leb_le]%andb_prop _]. rewrite firstn_length. lia.
Qed.

(** a text of base 58 stands for at most as many bytes *)
Lemma decoded_len w bs : b58decode w = Ok bs -> 0 <= len (hex_encode bs) <= 2 * len w.
Proof.
  unfold len. rewrite hex_encode_length. intros H.
  enough (length bs <= length w)%nat by lia.
  unfold b58decode in H. destruct w as [|c w]; [discriminate|].
  destruct (scan b58digit (c :: w)) as [ds|] eqn:Hs; [|discriminate]. injection H as <-.
  rewrite map_length, <- (scan_length _ _ _ Hs). apply scan_b58_ok in Hs as [Hok _].
  unfold convert. destruct (strip_lead 0 ds) as [n r] eqn:Hr. apply strip_lead_spec in Hr as [-> _].
  apply digits_ok_app in Hok as [_ Hok].
  rewrite !app_length, !repeat_length. apply Nat.add_le_mono_l.
  apply digits_length_le; [lia|].
  pose proof (valb_bound 58 r ltac:(lia) Hok).
  pose proof (Z.pow_le_mono_l 58 256 (Z.of_nat (length r)) ltac:(lia)). lia.
Qed.

(** ** Tactics *)

Declare Reduction go_red :=
  cbn [exec eval eval_all call_func call_method curve_method builtin big_method hash_method
       andthen one test leave catch_break fresh alloc heap source logged with_source log_line println printed
       assoc put find_var set_var place global global_from source_vars
       var_secp256k1 var_MainNetwork var_TestNetwork
       predeclared read_var declare set_path path_of store_path assign assign_all define define_all bind_params
       big_at big_field point_at params_at point_result bytes_of or_error or_panic opt equal binary field element substring
       zero source_types library_types type_Network type_PrivateKey type_PublicKey map fst snd
       find_func find source_funcs f_name f_params f_body
       src_init src_generateRandomBigInt src_bigIntToHex src_CheckWIF src_PrivateFromWIF src_PrivateFromHex
       src_GeneratePrivateKey src_AddPrivateKeys src_MultiplyPrivateKeys src_PublicFromHex
       src_PrivateKey_GetPublicKey src_PublicKey_Format src_PublicKey_Address src_AddPublicKeys
       src_NewSeedFromMnemonic src_NewMnemonic
       String.eqb String.append Ascii.eqb Bool.eqb
       app length nth_error hset firstn skipn tl negb].

(** reduce the program, not what is to be shown of its result *)
Ltac reduce :=
  lazymatch goal with
  | |- evt ?F ?Q => let F' := eval go_red in F in change (evt F' Q); cbv beta
  end.

(** the floor is below the heap of the call *)
Ltac above :=
  lazymatch goal with |- (_ <= length _)%nat => idtac end;
  solve [ assumption
        | repeat (rewrite ?app_length;
                  match goal with H : ?h1 = ?h ++ _ |- context [length ?h1] => rewrite H end);
          rewrite ?app_length; lia ].

Ltac heap_rule :=
  match goal with
  | |- evt ?F _ =>
      match F with
      | context [cell (State (?h ++ ?l) ?rd ?lg) (length ?h + ?j)] => rewrite (cell_new h l rd lg j)
      | context [@write ?fl ?A (State (?h ++ ?l) ?rd ?lg) (length ?h + ?j) ?v ?x] =>
          rewrite (@write_new A fl h l rd lg j v x) by above
      | context [(?h ++ ?l) ++ (?v :: ?m)] => rewrite (push_new h l (v :: m))
      | context [(length ?h + ?a + ?b)%nat] =>
          let c := eval cbv in (a + b)%nat in replace (length h + a + b)%nat with (length h + c)%nat by lia
      | context [length (?h ++ ?l)] => rewrite (app_length h l)
      | context [sprintf (str "%x") ?z] => change (sprintf (str "%x") z) with (Some (sprintf_x z))
      | context [sprintf (str "%b") ?z] => change (sprintf (str "%b") z) with (Some (sprintf_b z))
      | context [known_verb (str "%x")] => change (known_verb (str "%x")) with true
      | context [str_eqb (str " ") (str " ")] => change (str_eqb (str " ") (str " ")) with true
      | context [error_of ?m error_table] =>
          let e := eval vm_compute in (error_of m error_table) in change (error_of m error_table) with e
      | context [as_int ?L ?z] => match goal with H : roomy L _ |- _ => rewrite (H z) by (unfold len in *; lia) end
      | context [16 =? 16] => change (16 =? 16) with true
      | context [2 =? 16] => change (2 =? 16) with false
      | context [2 =? 0] => change (2 =? 0) with false
      | context [0 <? 0] => change (0 <? 0) with false
      | context [2 =? 2] => change (2 =? 2) with true
      | context [cell (State (?h ++ ?l) ?rd ?lg) ?a] =>
          match goal with H : nth_error h a = Some ?x |- _ => rewrite (cell_old h l rd lg a x H) end
      end
  end.
(** [cbn] folds these back when they wait for a heap cell *)
Ltac heap_step :=
  first [ heap_rule | progress unfold store_path, big_at, big_field, point_at, field, read_var, call_method; heap_rule ].

Ltac crunch :=
  lazymatch goal with
  | |- evt ?F ?Q => let K := fresh "K" in
      pose (K := Q); change (evt F K); reduce; repeat (heap_step; reduce); subst K
  end.

(** run as far as possible *)
Ltac advance :=
  lazymatch goal with
  | |- evt (fun _ => Done _ _) _ => apply evt_const
  | |- evt (fun _ => Crash _ _) _ => apply evt_const
  | |- evt (fun n => exec_block _ _ _ _ (_ :: _) _ _) _ => apply evt_cons
  end;
  cbv beta; try (lazymatch goal with |- evt _ _ => crunch end).
Ltac go := crunch; repeat advance.
(** enter a call *)
Ltac enter := let Hl := fresh "Hfloor" in try intros Hl; apply evt_start; apply evt_run; reduce; apply evt_andthen; go.

(** what [answers] and its relatives say of the result *)
Definition gives {A} (h : list value) (rd : list byte) (lg : list gostring)
    (o : outcome A) (rep : repr A) (r : res (list value)) : Prop :=
  exists new,
    match o with
    | Ret a => exists vs, r = Done vs (State (h ++ new) rd lg) /\ rep (h ++ new) a vs
    | Panic p => r = Crash p (State (h ++ new) rd lg)
    end.

Lemma gives_answers E L {A} f args s (o : outcome A) rep :
  evt (fun n => run E L n f args s) (gives (heap s) (source s) (logged s) o rep) ->
  answers_above E L f args s o rep.
Proof.
  intros H. apply evt_ends in H as (r & (new & H) & He). exists new.
  destruct o as [a|p].
  - destruct H as (vs & -> & Hr). exists vs. auto.
  - now subst r.
Qed.

(** split on the value the program is waiting for *)
Ltac branch :=
  cbn [bind bind_res];
  lazymatch goal with
  | |- evt ?F _ =>
      match F with
      | context [or_panic (slice ?a ?b ?c)] => destruct (slice a b c)
      | context [or_panic (index ?a ?b)] => destruct (index a b)
      | context [or_error ?a] => destruct a
      | context [if ?b then _ else _] => destruct b
      | context [match ?b with Some _ => _ | None => _ end] => destruct b
      end
  end.
(** the same, but only where the program stands *)
Ltac waits_for F k :=
  lazymatch F with
  | (fun n => andthen (@?X n) (@?K n)) => waits_for X k
  | (fun n => leave (@?X n)) => waits_for X k
  | (fun n => one (@?X n) (@?K n)) => waits_for X k
  | (fun n => test (@?X n) (@?K n)) => waits_for X k
  | (fun n => catch_break (@?X n)) => waits_for X k
  | (fun _ => or_panic ?x _ _) => k x
  | (fun _ => or_error ?x _ _) => k x
  | (fun _ => point_result ?x _) => k x
  | (fun n => match ?x with Some r => @?T n r | None => @?U n end) => k x
  | (fun n => if ?x then @?T n else @?U n) => k x
  | (fun n => let '(a, b) := ?x in @?T n a b) => k x
  end.
Ltac fork :=
  cbn [bind bind_res];
  lazymatch goal with |- evt ?F _ => waits_for F ltac:(fun x => destruct x eqn:?) end;
  cbn [bind bind_res].
Ltac close :=
  unfold gives; cbn [bind bind_res];
  first [ solve [eexists; reflexivity]
        | eexists; eexists; split; [reflexivity|]; hnf; try reflexivity ].

(** the object behind a result *)
Ltac look :=
  repeat match goal with
  | |- _ /\ _ => split
  | |- is_big _ _ None => reflexivity
  | |- is_big _ _ (Some _) => eexists; split; [reflexivity|]
  | |- is_net _ _ None => reflexivity
  | |- is_net (_ ++ _) _ (Some _) => eexists; split; [reflexivity|]
  | |- nth_error (?h ++ _) (length ?h + _) = _ => rewrite get_new; reflexivity
  | |- nth_error (_ ++ _) _ = _ => apply get_old; eassumption
  | |- VPtr _ = VPtr _ => reflexivity
  end.

(** bring a call of the package to the front and use what is known of it *)
Ltac to_call :=
  unfold leave, one, test, catch_break;
  repeat lazymatch goal with |- evt (fun n => andthen _ _) _ => apply evt_andthen end.
Tactic Notation "calls" uconstr(l) := to_call; eapply evt_weaken; [eapply l; try above|cbv beta].

(** a padding loop on the variable whose value is [t] *)
Ltac pad k t :=
  lazymatch goal with
  | |- evt (fun n => for_loop n (@?C n) (@?P n) (@?B n) ?e ?s) ?Q =>
      let g := lazymatch eval pattern t in e with ?g _ => g end in
      refine (evt_pad k g s C P B t Q _ _ _ _);
      [ intros ? ?; reflexivity | intros ? ?; reflexivity | intros ? ?; reflexivity | cbv beta ]
  end.
