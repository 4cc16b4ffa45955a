(** * Goroutines on one machine: proofs *)

From Coq Require Import String.
From Verif Require Import GoBase Model GoRand GoSem GoTree GoTreeSim SpecSource SourceBase SpecConc ConcFacts.
From Verif Require Import GoRename GoRenameRun SpecMachine.
Local Open Scope Z_scope.

(** ** The random reader *)

Lemma rand_loop_more fuel k bl max : (0 < k)%nat -> forall used z tail fuel',
  rand_loop fuel k bl max used = Some (z, []) -> (length (used ++ tail) < fuel')%nat ->
  rand_loop fuel' k bl max (used ++ tail) = Some (z, tail).
Proof.
  intros Hk. induction fuel as [|fuel IH]; intros used z tail fuel' H Hf; [discriminate|]. cbn [rand_loop] in H.
  destruct fuel' as [|fuel']; [lia|]. cbn [rand_loop].
  destruct (Nat.ltb_spec (length used) k) as [Hl|Hl]; [discriminate|].
  rewrite app_length in *. replace (length used + length tail <? k)%nat with false by (symmetry; apply Nat.ltb_ge; lia).
  rewrite firstn_app, skipn_app. replace (k - length used)%nat with 0%nat by lia. cbn [firstn skipn]. rewrite app_nil_r.
  destruct (rand_candidate bl (firstn k used) <? max).
  - injection H as -> ->. reflexivity.
  - apply IH; [exact H|]. rewrite app_length, skipn_length. lia.
Qed.
Lemma rand_int_more max used z tail : rand_int max used = Some (z, []) -> rand_int max (used ++ tail) = Some (z, tail).
Proof.
  unfold rand_int. destruct (bit_len (max - 1) =? 0) eqn:Hb; [intros [= <- ->]; reflexivity|].
  intros H. eapply rand_loop_more; [|exact H|lia].
  unfold bit_len in *. destruct (max - 1 <=? 0) eqn:Hm; [discriminate|]. apply Z.leb_gt in Hm.
  assert (0 <= Z.log2 (max - 1)) by apply Z.log2_nonneg.
  assert (1 <= (Z.log2 (max - 1) + 1 + 7) / 8) by (apply Z.div_le_lower_bound; lia). lia.
Qed.
Lemma rand_loop_split fuel k bl max : forall rd z rest, rand_loop fuel k bl max rd = Some (z, rest) ->
  exists used, rd = used ++ rest /\ rand_loop fuel k bl max used = Some (z, []).
Proof.
  induction fuel as [|fuel IH]; intros rd z rest H; [discriminate|]. cbn [rand_loop] in H |- *.
  destruct (Nat.ltb_spec (length rd) k) as [Hl|Hl]; [discriminate|].
  assert (length (firstn k rd) = k) as Hk by (rewrite firstn_length; lia).
  destruct (rand_candidate bl (firstn k rd) <? max) eqn:Hc.
  - injection H as <- <-. exists (firstn k rd). split; [symmetry; apply firstn_skipn|].
    rewrite Hk, Nat.ltb_irrefl, firstn_firstn, Nat.min_id, Hc.
    rewrite skipn_all2 by lia. reflexivity.
  - destruct (IH _ _ _ H) as (used & Hr & Hu). exists (firstn k rd ++ used). split.
    + rewrite <- app_assoc, <- Hr. symmetry. apply firstn_skipn.
    + rewrite app_length, Hk. replace (k + length used <? k)%nat with false by (symmetry; apply Nat.ltb_ge; lia).
      rewrite firstn_app, Hk, Nat.sub_diag, firstn_firstn, Nat.min_id. cbn [firstn]. rewrite app_nil_r, Hc.
      rewrite skipn_app, Hk, Nat.sub_diag, skipn_all2 by lia. exact Hu.
Qed.
(** enough fuel is enough *)
Lemma rand_loop_enough k bl max : (0 < k)%nat -> forall fuel rd z fuel', rand_loop fuel k bl max rd = Some (z, []) ->
  (length rd < fuel')%nat -> rand_loop fuel' k bl max rd = Some (z, []).
Proof. intros Hk fuel rd z fuel' H Hf. rewrite <- (app_nil_r rd). eapply rand_loop_more; eauto. now rewrite app_nil_r. Qed.
Lemma rand_int_split max rd z rest : rand_int max rd = Some (z, rest) ->
  exists used, rd = used ++ rest /\ rand_int max used = Some (z, []).
Proof.
  unfold rand_int. destruct (bit_len (max - 1) =? 0) eqn:Hb.
  - intros [= <- ->]. now exists [].
  - intros H. destruct (rand_loop_split _ _ _ _ _ _ _ H) as (used & Hr & Hu). exists used. split; [exact Hr|].
    eapply rand_loop_enough; [|exact Hu|lia].
    unfold bit_len in *. destruct (max - 1 <=? 0) eqn:Hm; [discriminate|]. apply Z.leb_gt in Hm.
    assert (0 <= Z.log2 (max - 1)) by apply Z.log2_nonneg.
    assert (1 <= (Z.log2 (max - 1) + 1 + 7) / 8) by (apply Z.div_le_lower_bound; lia). lia.
Qed.

Lemma shuffle_length {A} (l m n : list A) : shuffle l m n -> length n = (length l + length m)%nat.
Proof. induction 1; cbn; lia. Qed.
Lemma shuffle_leave_all {A} (l : list A) : shuffle [] l l.
Proof. induction l; constructor; auto. Qed.
Lemma shuffle_app {A} (l m : list A) : shuffle l m (l ++ m).
Proof. induction l as [|a l IH]; cbn [app]; [apply shuffle_leave_all|now constructor]. Qed.

(** ** Memory *)

Lemma hset_length h a v : length (hset h a v) = length h.
Proof.
  unfold hset. rewrite app_length, firstn_length. destruct (skipn a h) as [|x t] eqn:Hs.
  - cbn [length]. assert (length (skipn a h) = 0)%nat as H by now rewrite Hs. rewrite skipn_length in H. lia.
  - cbn [length]. assert (length (skipn a h) = S (length t)) as H by now rewrite Hs. rewrite skipn_length in H. lia.
Qed.
Lemma hset_same h a v : (a < length h)%nat -> nth_error (hset h a v) a = Some v.
Proof. intros H. destruct (nth_error h a) eqn:Ha; [now apply (get_set h a v v0)|]. apply nth_error_None in Ha. lia. Qed.
Lemma hset_other h a b v : a <> b -> nth_error (hset h a v) b = nth_error h b.
Proof.
  intros H. destruct (nth_error h b) as [x|] eqn:Hb; [now apply get_unset|].
  apply nth_error_None. rewrite hset_length. now apply nth_error_None.
Qed.

(** ** What a goroutine of the machine has to do with one that runs alone *)

Section Tracks.
Context {A : Type} (R : ren -> A -> A -> Prop) (sh : list value) (L : nat).

Record tracks (mem : list value) (mk : list (option nat)) (rd : list byte) (sc : list (nat * gostring))
    (i : nat) (t0 : tree A) (ro : routine A) (r : ren) (ow : list value) (c : tree A) : Prop := {
  tr_code : trel R r c (todo ro);
  tr_shared : forall a, (a < length sh)%nat -> In (a, a) r;
  tr_mine : forall a b, In (a, b) r -> (a < length sh)%nat /\ b = a \/ (length sh <= a)%nat /\ nth_error mk b = Some (Some i);
  tr_one : forall a b a' b', In (a, b) r -> In (a', b') r -> (a = a' <-> b = b');
  tr_heap : forall a v, nth_error (sh ++ ow) a = Some v -> exists b w, In (a, b) r /\ nth_error mem b = Some w /\ vrel r v w;
  tr_dom : forall a b, In (a, b) r -> (a < length (sh ++ ow))%nat;
  tr_alone : forall tail, (failed ro = true -> tail = []) ->
    handle (length sh) t0 (State sh (got ro ++ tail) []) = handle (length sh) c (State (sh ++ ow) tail (lines_of i sc));
  tr_bytes : (length (got ro) + length rd <= L)%nat
}.

Record ordered (mem : list value) (mk : list (option nat)) : Prop := {
  or_length : length mk = length mem;
  or_shared : forall a, (a < length sh)%nat -> nth_error mk a = Some None;
  or_memory : forall a, (a < length sh)%nat -> nth_error mem a = nth_error sh a
}.

Definition ends_well (t0 : tree A) : Prop := forall bs, (length bs <= L)%nat -> good (handle (length sh) t0 (State sh bs [])).

Lemma lines_app i sc p : lines_of i (sc ++ [p]) = lines_of i sc ++ if Nat.eqb (fst p) i then [snd p] else [].
Proof. unfold lines_of. rewrite filter_app, map_app. cbn [filter]. now destruct (Nat.eqb (fst p) i). Qed.

(** the cell behind an address of the goroutine *)
Lemma tr_at mem mk rd sc i t0 ro r ow c a b : tracks mem mk rd sc i t0 ro r ow c -> In (a, b) r ->
  exists v w, nth_error (sh ++ ow) a = Some v /\ nth_error mem b = Some w /\ vrel r v w.
Proof.
  intros T Hab. pose proof (tr_dom _ _ _ _ _ _ _ _ _ _ T _ _ Hab) as Hd.
  destruct (nth_error (sh ++ ow) a) as [v|] eqn:Hv; [|apply nth_error_None in Hv; lia].
  destruct (tr_heap _ _ _ _ _ _ _ _ _ _ T _ _ Hv) as (b' & w & Hab' & Hw & Hr).
  assert (b = b') as <- by (now apply (tr_one _ _ _ _ _ _ _ _ _ _ T a b a b')). eauto.
Qed.

Lemma tr_good mem mk rd sc i t0 ro r ow c : tracks mem mk rd sc i t0 ro r ow c -> ends_well t0 ->
  good (handle (length sh) c (State (sh ++ ow) [] (lines_of i sc))).
Proof.
  intros T F. rewrite <- (tr_alone _ _ _ _ _ _ _ _ _ _ T []) by auto. apply F. rewrite app_nil_r.
  pose proof (tr_bytes _ _ _ _ _ _ _ _ _ _ T). lia.
Qed.

Lemma sh_le ow : (length sh <= length (sh ++ ow))%nat.
Proof. rewrite app_length. lia. Qed.

(** the goroutine that moves *)
Lemma tracks_move mem mk rd sc i t0 ro r ow c ro' mem' mk' rd' sc' :
  tracks mem mk rd sc i t0 ro r ow c -> ordered mem mk -> ends_well t0 ->
  moves i ro mem mk rd sc ro' mem' mk' rd' sc' ->
  ordered mem' mk' /\ exists r' ow' c', tracks mem' mk' rd' sc' i t0 ro' r' ow' c'.
Proof.
  intros T O F M. pose proof (tr_good _ _ _ _ _ _ _ _ _ _ T F) as G. pose proof (tr_code _ _ _ _ _ _ _ _ _ _ T) as C.
  destruct M as [b k' g d mem mk rd sc|b w k' g d mem mk rd sc|w k' g d mem mk rd sc
                |max k' g d mem mk rd sc used rest z Hsh Hd Hr|max k' g d mem mk rd sc used rest Hsh Hd Hr
                |l k' g d mem mk rd sc]; cbn [todo got failed] in C.
  - inversion C as [| | | |r1 a b1 k k1 Hab Hk| | | |]; subst. split; [exact O|].
    destruct (tr_at _ _ _ _ _ _ _ _ _ _ _ _ T Hab) as (v & w & Hv & Hw & Hvw). exists r, ow, (k (Some v)). destruct T.
    constructor; auto.
    + cbn [todo]. rewrite Hw. now apply Hk.
    + intros tail Ht. rewrite tr_alone0 by exact Ht. cbn [handle]. unfold cell. cbn [heap]. now rewrite Hv.
  - inversion C as [| | | | |r1 a b1 v w1 t t' Hab Hvw Ht| | |]; subst.
    cbn [handle] in G. destruct (Nat.ltb_spec a (length sh)) as [|Ha]; [contradiction|].
    destruct (tr_mine _ _ _ _ _ _ _ _ _ _ T _ _ Hab) as [[? _]|[_ Hb]]; [lia|].
    destruct (tr_at _ _ _ _ _ _ _ _ _ _ _ _ T Hab) as (v0 & w0 & Hv0 & Hw0 & _).
    assert (length sh <= b)%nat as Hbs.
    { destruct (Nat.lt_ge_cases b (length sh)) as [Hlt|]; [|assumption]. rewrite (or_shared _ _ O _ Hlt) in Hb. discriminate. }
    assert (b < length mem)%nat as Hbm by (apply nth_error_Some; congruence).
    split.
    { destruct O. constructor; auto; [now rewrite hset_length|]. intros x Hx. rewrite hset_other by lia. auto. }
    pose proof (tr_dom _ _ _ _ _ _ _ _ _ _ T _ _ Hab) as Hdom.
    assert (sh ++ hset ow (a - length sh) v = hset (sh ++ ow) a v) as Hset by (symmetry; now apply set_far).
    exists r, (hset ow (a - length sh) v), t. destruct T. constructor; auto.
    + intros x y Hx. rewrite Hset in Hx. destruct (Nat.eq_dec x a) as [->|Hne].
      * rewrite hset_same in Hx by lia. injection Hx as <-. exists b, w. split; [exact Hab|]. split; [now apply hset_same|exact Hvw].
      * rewrite hset_other in Hx by congruence. destruct (tr_heap0 _ _ Hx) as (b' & w' & Hxb & Hw' & Hr). exists b', w'.
        split; [exact Hxb|]. split; [|exact Hr]. rewrite hset_other; [exact Hw'|].
        intros <-. apply Hne. now apply (tr_one0 _ _ _ _ Hxb Hab).
    + intros x y Hx. rewrite Hset, hset_length. eauto.
    + intros tail Htl. rewrite tr_alone0 by exact Htl. cbn [handle].
      replace (a <? length sh)%nat with false by (symmetry; apply Nat.ltb_ge; lia).
      unfold store. cbn [heap source logged]. now rewrite Hset.
  - inversion C as [| | | | | |r1 v w1 k k1 Hvw Hk| |]; subst. split.
    { destruct O. constructor.
      - rewrite !app_length. cbn. lia.
      - intros x Hx. rewrite nth_error_app1; [auto|]. apply nth_error_Some. rewrite or_shared0 by exact Hx. discriminate.
      - intros x Hx. rewrite nth_error_app1; [auto|]. apply nth_error_Some. rewrite or_memory0 by exact Hx.
        now apply nth_error_Some. }
    set (a := length (sh ++ ow)). set (b := length mem).
    assert (forall x y, In (x, y) r -> (x < a)%nat /\ (y < b)%nat) as Hlt.
    { intros x y Hxy. split; [exact (tr_dom _ _ _ _ _ _ _ _ _ _ T _ _ Hxy)|].
      destruct (tr_at _ _ _ _ _ _ _ _ _ _ _ _ T Hxy) as (? & ? & _ & Hw & _). apply nth_error_Some. unfold b. congruence. }
    exists ((a, b) :: r), (ow ++ [v]), (k a). pose proof (or_length _ _ O) as Hlen.
    assert (incl r ((a, b) :: r)) as Hi by apply incl_cons_r. destruct T. constructor; auto.
    + cbn [todo]. apply Hk.
    + intros x y [[= <- <-]|Hxy].
      * right. split; [apply sh_le|]. unfold b. rewrite <- Hlen, nth_error_app2, Nat.sub_diag by lia. reflexivity.
      * destruct (tr_mine0 _ _ Hxy) as [?|[? Hm]]; [now left|]. right. split; [assumption|].
        rewrite nth_error_app1; [exact Hm|]. apply nth_error_Some. congruence.
    + intros x y x' y' [[= <- <-]|Hxy] [[= <- <-]|Hxy'].
      * tauto.
      * destruct (Hlt _ _ Hxy'). split; lia.
      * destruct (Hlt _ _ Hxy). split; lia.
      * now apply tr_one0.
    + intros x u Hx. rewrite app_assoc in Hx. destruct (Nat.lt_ge_cases x a) as [Hxa|Hxa].
      * rewrite nth_error_app1 in Hx by exact Hxa. destruct (tr_heap0 _ _ Hx) as (b' & w' & Hxb & Hw' & Hr). exists b', w'.
        split; [now right|]. split; [|now apply (vrel_mono r)]. rewrite nth_error_app1; [exact Hw'|]. now apply (Hlt x).
      * rewrite nth_error_app2 in Hx by exact Hxa. fold a in Hx. destruct (x - a)%nat as [|j] eqn:Hj.
        -- injection Hx as <-. assert (x = a) as -> by lia. exists b, w. split; [now left|].
           split; [unfold b; rewrite nth_error_app2, Nat.sub_diag by lia; reflexivity|now apply (vrel_mono r)].
        -- destruct j; discriminate.
    + intros x y [[= <- <-]|Hxy]; rewrite app_assoc, app_length; cbn [length]; fold a; [lia|].
      destruct (Hlt _ _ Hxy). lia.
    + intros tail Htl. rewrite tr_alone0 by exact Htl. cbn [handle heap source logged]. now rewrite app_assoc.
  - inversion C as [| | | | | | |r1 m k k1 Hk|]; subst. split; [exact O|]. pose proof (shuffle_length _ _ _ Hsh) as Hlen.
    exists r, ow, (k (Some z)). destruct T. constructor; auto.
    + apply Hk.
    + cbn [got failed] in *. intros tail Htl. rewrite <- app_assoc. rewrite tr_alone0.
      * cbn [handle source]. now rewrite (rand_int_more _ _ _ _ Hr).
      * intros Hf. rewrite (Hd Hf), (Htl Hf). reflexivity.
    + cbn [got] in *. rewrite app_length. lia.
  - inversion C as [| | | | | | |r1 m k k1 Hk|]; subst. split; [exact O|]. pose proof (shuffle_length _ _ _ Hsh) as Hlen.
    exists r, ow, (k None). destruct T. constructor; auto.
    + apply Hk.
    + cbn [got failed] in *. intros tail Htl. rewrite (Htl eq_refl), app_nil_r, tr_alone0.
      * cbn [handle source]. now rewrite Hr.
      * exact Hd.
    + cbn [got] in *. rewrite app_length. lia.
  - inversion C as [| | | | | | | |r1 l1 t t' Ht]; subst. split; [exact O|].
    exists r, ow, t. destruct T. constructor; auto.
    intros tail Htl. rewrite tr_alone0 by exact Htl. cbn [handle]. unfold log_line. cbn [heap source logged].
    rewrite lines_app. cbn [fst snd]. now rewrite Nat.eqb_refl.
Qed.

(** the others, when goroutine [j] moves *)
Lemma tracks_other mem mk rd sc i t0 ro r ow c j roj tj rj owj cj ro' mem' mk' rd' sc' : i <> j ->
  tracks mem mk rd sc i t0 ro r ow c -> tracks mem mk rd sc j tj roj rj owj cj -> ordered mem mk -> ends_well tj ->
  moves j roj mem mk rd sc ro' mem' mk' rd' sc' ->
  tracks mem' mk' rd' sc' i t0 ro r ow c.
Proof.
  intros Hij T Tj O F M. pose proof (tr_good _ _ _ _ _ _ _ _ _ _ Tj F) as G. pose proof (tr_code _ _ _ _ _ _ _ _ _ _ Tj) as C.
  destruct M as [b k' g d mem mk rd sc|b w k' g d mem mk rd sc|w k' g d mem mk rd sc
                |max k' g d mem mk rd sc used rest z Hsh Hd Hr|max k' g d mem mk rd sc used rest Hsh Hd Hr
                |l k' g d mem mk rd sc]; cbn [todo got failed] in C.
  - exact T.
  - inversion C as [| | | | |r1 a b1 v w1 t t' Hab Hvw Ht| | |]; subst.
    cbn [handle] in G. destruct (Nat.ltb_spec a (length sh)) as [|Ha]; [contradiction|].
    destruct (tr_mine _ _ _ _ _ _ _ _ _ _ Tj _ _ Hab) as [[? _]|[_ Hb]]; [lia|].
    destruct T. constructor; auto. intros x u Hx. destruct (tr_heap0 _ _ Hx) as (b' & w' & Hxb & Hw' & Hr). exists b', w'.
    split; [exact Hxb|]. split; [|exact Hr]. rewrite hset_other; [exact Hw'|]. intros <-.
    destruct (tr_mine0 _ _ Hxb) as [[Hlt ->]|[_ Hm]].
    + rewrite (or_shared _ _ O _ Hlt) in Hb. discriminate.
    + congruence.
  - destruct T. constructor; auto.
    + intros x y Hxy. destruct (tr_mine0 _ _ Hxy) as [?|[? Hm]]; [now left|]. right. split; [assumption|].
      rewrite nth_error_app1; [exact Hm|]. apply nth_error_Some. congruence.
    + intros x u Hx. destruct (tr_heap0 _ _ Hx) as (b' & w' & Hxb & Hw' & Hr). exists b', w'.
      split; [exact Hxb|]. split; [|exact Hr]. rewrite nth_error_app1; [exact Hw'|]. apply nth_error_Some. congruence.
  - pose proof (shuffle_length _ _ _ Hsh) as Hlen. destruct T. constructor; auto. lia.
  - pose proof (shuffle_length _ _ _ Hsh) as Hlen. destruct T. constructor; auto. lia.
  - destruct T. constructor; auto. intros tail Htl. rewrite tr_alone0 by exact Htl. rewrite lines_app. cbn [fst snd].
    replace (Nat.eqb j i) with false by (symmetry; apply Nat.eqb_neq; congruence). now rewrite app_nil_r.
Qed.

Definition tracked (m : machine A) (i : nat) (t0 : tree A) (ro : routine A) : Prop :=
  exists r ow c, tracks (memory m) (makers m) (reader m) (screen m) i t0 ro r ow c.
Definition all_tracked (ts : list (tree A)) (m : machine A) : Prop :=
  ordered (memory m) (makers m) /\ length (routines m) = length ts /\
  forall i t0 ro, nth_error ts i = Some t0 -> nth_error (routines m) i = Some ro -> tracked m i t0 ro.

Lemma tick_tracked ts m m' : Forall ends_well ts -> all_tracked ts m -> tick m m' -> all_tracked ts m'.
Proof.
  intros F (O & Hl & T) H. destruct H as [before ro after mem mk rd sc ro' mem' mk' rd' sc' M].
  cbn [memory makers routines] in *. set (j := length before) in *.
  rewrite app_length in Hl. cbn [length] in Hl.
  destruct (nth_error ts j) as [tj|] eqn:Hj; [|apply nth_error_None in Hj; unfold j in Hj; lia].
  assert (nth_error (before ++ ro :: after) j = Some ro) as Hro.
  { unfold j. rewrite nth_error_app2, Nat.sub_diag by lia. reflexivity. }
  destruct (T j tj ro Hj Hro) as (rj & owj & cj & Tj). cbn [memory makers reader screen] in Tj.
  assert (ends_well tj) as Fj by (eapply Forall_forall; [exact F|eapply nth_error_In, Hj]).
  destruct (tracks_move _ _ _ _ _ _ _ _ _ _ _ _ _ _ _ Tj O Fj M) as [O' T']. split; [exact O'|].
  cbn [routines]. split; [rewrite app_length; cbn [length]; lia|].
  intros i t0 ro0 Hi Hro0. destruct (Nat.eq_dec i j) as [->|Hij].
  - unfold j in Hro0. rewrite nth_error_app2, Nat.sub_diag in Hro0 by lia. injection Hro0 as <-. rewrite Hj in Hi.
    injection Hi as <-. exact T'.
  - assert (nth_error (before ++ ro :: after) i = Some ro0) as Hro1.
    { destruct (Nat.lt_ge_cases i j) as [Hlt|Hge].
      - rewrite nth_error_app1 in Hro0 |- * by exact Hlt. exact Hro0.
      - rewrite nth_error_app2 in Hro0 |- * by exact Hge. fold j in Hro0 |- *.
        destruct (i - j)%nat as [|d] eqn:Hd; [lia|]. exact Hro0. }
    destruct (T i t0 ro0 Hi Hro1) as (r & ow & c & Ti). exists r, ow, c. cbn [memory makers reader screen] in *.
    eapply tracks_other; [exact Hij|exact Ti|exact Tj|exact O|exact Fj|exact M].
Qed.

Lemma comes_tracked ts m m' : Forall ends_well ts -> all_tracked ts m -> comes_to m m' -> all_tracked ts m'.
Proof. intros F T H. induction H; [exact T|]. eapply tick_tracked; [exact F|now apply IHcomes_to|eassumption]. Qed.

(** ** The start *)

Definition same (n : nat) : ren := map (fun a => (a, a)) (seq 0 n).
Lemma in_same n a b : In (a, b) (same n) <-> (a < n)%nat /\ b = a.
Proof.
  unfold same. rewrite in_map_iff. split.
  - intros (x & [= <- <-] & Hx). apply in_seq in Hx. split; [lia|reflexivity].
  - intros [H ->]. exists a. split; [reflexivity|]. apply in_seq. lia.
Qed.
End Tracks.

Lemma points_rel n v : points_below n v -> vrel (same n) v v.
Proof.
  induction v as [t fs IH|v Hv] using value_all; intros H.
  - apply vrel_struct. split; [reflexivity|]. cbn [points_below] in H.
    induction IH as [|[x v] fs Hv _ IHf]; [exact I|]. cbn [frel snd] in *. destruct H as [H1 H2]. auto.
  - destruct v; try reflexivity; cbn in *; [|exfalso; eapply Hv; reflexivity]. now apply in_same.
Qed.

Lemma start_tracked {A} (R : ren -> A -> A -> Prop) sh rd ts : whole_heap sh ->
  (forall t, In t ts -> trel R (same (length sh)) t t) ->
  all_tracked R sh (length rd) ts (machine_start sh rd ts).
Proof.
  intros [Hp Hg] Ht. unfold machine_start. split; [|split].
  - cbn [memory makers]. constructor; [apply map_length| |reflexivity].
    intros a Ha. destruct (nth_error sh a) eqn:Hv; [now apply (map_nth_error (fun _ => @None nat)) in Hv|].
    apply nth_error_None in Hv. lia.
  - cbn [routines]. apply map_length.
  - cbn [routines]. intros i t0 ro Hi Hro. rewrite (map_nth_error _ _ _ Hi) in Hro. injection Hro as <-.
    exists (same (length sh)), [], t0. cbn [memory makers reader screen].
    constructor; cbn [todo got failed].
    + apply Ht. eapply nth_error_In, Hi.
    + intros a Ha. apply in_same. auto.
    + intros a b Hab. apply in_same in Hab as [H1 H2]. auto.
    + intros a b a' b' H1 H2. apply in_same in H1 as [_ ->]. apply in_same in H2 as [_ ->]. tauto.
    + intros a v Hv. rewrite app_nil_r in Hv. exists a, v.
      assert (a < length sh)%nat as Ha by (apply nth_error_Some; congruence). split; [now apply in_same|]. split; [exact Hv|].
      apply points_rel. eapply Forall_forall; [exact Hp|eapply nth_error_In, Hv].
    + intros a b Hab. apply in_same in Hab as [H1 _]. now rewrite app_nil_r.
    + intros tail _. rewrite app_nil_r. reflexivity.
    + cbn. lia.
Qed.

Lemma based_same sh : whole_heap sh -> based (same (length sh)).
Proof. intros [_ H] x a Hx. apply in_same. split; [eapply H, Hx|reflexivity]. Qed.
