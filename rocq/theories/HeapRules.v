(** * Rules for reasoning about the heap programs *)

From Verif Require Import GoBase GoNum Base58 GoRand Model Heap HeapSem HeapWp.
Local Open Scope Z_scope.

(** ** Object maps *)

Lemma look_oset_same F own a o : look F (oset own a o) a = Some o.
Proof. unfold look, oset. rewrite Nat.eqb_refl. reflexivity. Qed.
Lemma look_oset_other F own a b o : b <> a -> look F (oset own a o) b = look F own b.
Proof. intros H. unfold look, oset. destruct (Nat.eqb_spec b a); [contradiction|reflexivity]. Qed.
Lemma look_oset_none F own a b o : look F (oset own a o) b = None -> look F own b = None /\ b <> a.
Proof.
  intros H. destruct (Nat.eq_dec b a) as [E|E].
  - rewrite E, look_oset_same in H. discriminate.
  - rewrite look_oset_other in H by exact E. auto.
Qed.
Lemma oset_own own a o : oset own a o a <> None.
Proof. unfold oset. rewrite Nat.eqb_refl. discriminate. Qed.
Lemma oset_own_other own a b o : own b <> None -> oset own a o b <> None.
Proof. unfold oset. destruct (Nat.eqb b a); [discriminate|auto]. Qed.

Definition incl_map (m n : omap) : Prop := forall a o, m a = Some o -> n a = Some o.
(** Nothing visible changes and nothing is given up. *)
Definition keep (F own own' : omap) : Prop :=
  incl_map (look F own) (look F own') /\ (forall a, own a <> None -> own' a <> None).

Lemma keep_refl F own : keep F own own.
Proof. split; unfold incl_map; auto. Qed.
Lemma keep_trans F a b c : keep F a b -> keep F b c -> keep F a c.
Proof. intros [H1 H2] [H3 H4]. split; unfold incl_map in *; auto. Qed.
Lemma keep_none F own own' a : keep F own own' -> look F own' a = None -> look F own a = None.
Proof. intros [H _] N. destruct (look F own a) eqn:E; [apply H in E; congruence|reflexivity]. Qed.
(** Writing an object that did not exist at the start. *)
Lemma keep_oset F own own' a o : keep F own own' -> look F own a = None -> keep F own (oset own' a o).
Proof.
  intros [H1 H2] N. split.
  - intros b x Hb. rewrite look_oset_other; [auto|]. intros ->. congruence.
  - intros b Hb. apply oset_own_other. auto.
Qed.
Lemma keep_new F own a o : look F own a = None -> keep F own (oset own a o).
Proof. apply keep_oset, keep_refl. Qed.

(** ** Views only look at what is visible *)

Section Mono.
Context (m n : omap) (I : incl_map m n).
Lemma int_mono p v : int_at m p v -> int_at n p v.
Proof. destruct p; cbn; [intros (z & H & E); exists z; split; auto|auto]. Qed.
Lemma net_mono p v : net_at m p v -> net_at n p v.
Proof. destruct p; cbn; [intros (z & H & E); exists z; split; auto|auto]. Qed.
Lemma words_mono p v : words_at m p v -> words_at n p v.
Proof. destruct p; cbn; [intros (z & H & E); exists z; split; auto|auto]. Qed.
Lemma priv_mono p v : priv_at m p v -> priv_at n p v.
Proof.
  intros (k & nt & H & H1 & H2). exists k, nt.
  split; [apply I, H|]. split; [apply int_mono, H1|apply net_mono, H2].
Qed.
Lemma pub_mono p v : pub_at m p v -> pub_at n p v.
Proof.
  intros (x & y & nt & H & H1 & H2 & H3). exists x, y, nt.
  split; [apply I, H|]. split; [apply int_mono, H1|]. split; [apply int_mono, H2|apply net_mono, H3].
Qed.
Lemma slot_mono p v : slot_at m p v -> slot_at n p v.
Proof. destruct p, v; cbn; auto using net_mono, priv_mono, pub_mono, words_mono. Qed.
Lemma globals_mono g : globals_at m g -> globals_at n g.
Proof. intros (H1 & H2 & H3 & H4 & H5 & H6 & H7 & H8 & H9). repeat split; apply I; assumption. Qed.
End Mono.

(** ** Calls *)

(** No random bytes, no log. *)
Definition quiet {A} (F own : omap) (p : prog A) (R : omap -> outcome A -> Prop) : Prop :=
  forall tr lg, behaves F own tr lg p (fun own' tr' lg' o => keep F own own' /\ tr' = tr /\ lg' = lg /\ R own' o).

(** With random bytes [d] and lines [l]. *)
Definition noisy {A} (F own : omap) (p : prog A) (R : omap -> list byte -> list gostring -> outcome A -> Prop) : Prop :=
  forall tr lg, behaves F own tr lg p (fun own' tr' lg' o =>
    keep F own own' /\ exists d l, tr' = tr ++ d /\ lg' = lg ++ l /\ R own' d l o).

Lemma quiet_noisy {A} F own (p : prog A) R : quiet F own p R ->
  noisy F own p (fun own' d l o => d = [] /\ l = [] /\ R own' o).
Proof.
  intros H tr lg. eapply behaves_mono; [|apply H]. intros own' tr' lg' o (K & -> & -> & HR).
  split; [exact K|]. exists [], []. rewrite !app_nil_r. auto.
Qed.

Lemma quiet_mono {A} F own (p : prog A) (R R' : _ -> _ -> Prop) : (forall own' o, keep F own own' -> R own' o -> R' own' o) ->
  quiet F own p R -> quiet F own p R'.
Proof.
  intros H HR tr lg. eapply behaves_mono; [|apply HR]. cbn. intros own' tr' lg' o (K & -> & -> & HR'). auto.
Qed.

Section Rules.
Context {B : Type} (F : omap).
Implicit Types (Q : omap -> list byte -> list gostring -> outcome B -> Prop).

Lemma b_quiet {A} own tr lg (p : prog A) R (f : A -> prog B) Q : quiet F own p R ->
  (forall own' o, keep F own own' -> R own' o ->
     match o with Ret a => behaves F own' tr lg (f a) Q | Panic e => Q own' tr lg (Panic e) end) ->
  behaves F own tr lg (pbind p f) Q.
Proof.
  intros H HQ. apply behaves_bind. eapply behaves_mono; [|apply H]. cbn.
  intros own' tr' lg' o (K & -> & -> & HR). exact (HQ own' o K HR).
Qed.

Lemma b_noisy {A} own tr lg (p : prog A) R (f : A -> prog B) Q : noisy F own p R ->
  (forall own' d l o, keep F own own' -> R own' d l o ->
     match o with
     | Ret a => behaves F own' (tr ++ d) (lg ++ l) (f a) Q
     | Panic e => Q own' (tr ++ d) (lg ++ l) (Panic e)
     end) ->
  behaves F own tr lg (pbind p f) Q.
Proof.
  intros H HQ. apply behaves_bind. eapply behaves_mono; [|apply H]. cbn.
  intros own' tr' lg' o (K & d & l & -> & -> & HR). exact (HQ own' d l o K HR).
Qed.

Lemma b_routine {A} own tr lg (p : prog A) R (f : A -> prog B) Q : routine F own p R ->
  (forall own' a, keep F own own' -> R (look F own') a -> behaves F own' tr lg (f a) Q) ->
  behaves F own tr lg (pbind p f) Q.
Proof.
  intros H HQ. apply behaves_bind. eapply behaves_mono; [|apply H]. cbn.
  intros own' tr' lg' o (K1 & K2 & -> & -> & v & -> & HR). apply HQ; [split; assumption|exact HR].
Qed.

Lemma b_pure {A} own tr lg (o : outcome A) (f : A -> prog B) Q :
  match o with Ret a => behaves F own tr lg (f a) Q | Panic e => Q own tr lg (Panic e) end ->
  behaves F own tr lg (pbind (pure o) f) Q.
Proof. destruct o; auto. Qed.

Lemma b_alloc own tr lg o (f : addr -> prog B) Q :
  (forall a, look F own a = None -> behaves F (oset own a o) tr lg (f a) Q) ->
  behaves F own tr lg (pbind (alloc o) f) Q.
Proof. auto. Qed.

Lemma b_write own tr lg a o (f : unit -> prog B) Q : own a <> None ->
  behaves F (oset own a o) tr lg (f tt) Q -> behaves F own tr lg (pbind (write a o) f) Q.
Proof. cbn. auto. Qed.

Lemma b_read_int own tr lg p v (f : Z -> prog B) Q : int_at (look F own) p v ->
  match v with Some z => behaves F own tr lg (f z) Q | None => Q own tr lg (Panic PNil) end ->
  behaves F own tr lg (pbind (read_int p) f) Q.
Proof.
  destruct p as [a|]; cbn; [|intros ->; auto]. intros (z & Hz & ->) H. exists (OInt z). split; [exact Hz|exact H].
Qed.

Lemma b_read_net own tr lg p v (f : network -> prog B) Q : net_at (look F own) p v ->
  match v with Some n => behaves F own tr lg (f n) Q | None => Q own tr lg (Panic PNil) end ->
  behaves F own tr lg (pbind (read_net p) f) Q.
Proof.
  destruct p as [a|]; cbn; [|intros ->; auto]. intros (z & Hz & ->) H. exists (ONet z). split; [exact Hz|exact H].
Qed.

Lemma b_read_words own tr lg p v (f : list gostring -> prog B) Q : words_at (look F own) p v ->
  behaves F own tr lg (f (words_of v)) Q -> behaves F own tr lg (pbind (read_words p) f) Q.
Proof.
  destruct p as [a|]; cbn; [|intros ->; auto]. intros (z & Hz & ->) H. exists (OWords z). split; [exact Hz|exact H].
Qed.

Lemma b_read_priv own tr lg a k h w n f Q : look F own a = Some (OPriv k h w n) ->
  behaves F own tr lg (f (k, h, w, n)) Q -> behaves F own tr lg (pbind (read_priv a) f) Q.
Proof. intros H Hf. cbn. exists (OPriv k h w n). split; [exact H|exact Hf]. Qed.

Lemma b_read_pub own tr lg a x y n f Q : look F own a = Some (OPub x y n) ->
  behaves F own tr lg (f (x, y, n)) Q -> behaves F own tr lg (pbind (read_pub a) f) Q.
Proof. intros H Hf. cbn. exists (OPub x y n). split; [exact H|exact Hf]. Qed.

(** new(big.Int).SetString(s, base): a fresh object holds the number. *)
Lemma b_new_SetString own tr lg parse s (f : addr -> ptr -> prog B) Q :
  (forall z p own', look F own z = None -> keep F own own' -> own' = oset own z (OInt 0) \/ (exists v, own' = oset (oset own z (OInt 0)) z (OInt v)) ->
     int_at (look F own') p (parse s) -> behaves F own' tr lg (f z p) Q) ->
  behaves F own tr lg (do z <- new_int; do p <- int_SetString parse z s; f z p) Q.
Proof.
  intros H. cbn. intros z Hz. unfold int_SetString. destruct (parse s) as [v|] eqn:E; cbn.
  - split; [apply oset_own|]. apply H; [exact Hz| |right; eauto|].
    + apply keep_oset; [apply keep_new, Hz|exact Hz].
    + cbn. exists v. split; [apply look_oset_same|reflexivity].
  - apply H; [exact Hz|apply keep_new, Hz|auto|]. reflexivity.
Qed.

Lemma b_SetZ own tr lg z v (f : addr -> prog B) Q : own z <> None ->
  behaves F (oset own z (OInt v)) tr lg (f z) Q -> behaves F own tr lg (pbind (int_SetZ z v) f) Q.
Proof. intros H Hf. cbn. auto. Qed.

Lemma b_Set own tr lg z x v (f : addr -> prog B) Q : own z <> None -> int_at (look F own) x (Some v) ->
  behaves F (oset own z (OInt v)) tr lg (f z) Q -> behaves F own tr lg (pbind (int_Set z x) f) Q.
Proof.
  intros Hz Hx Hf. unfold int_Set.
  destruct x as [a|]; [|discriminate]. destruct Hx as (w & Hw & [= <-]). cbn.
  exists (OInt v). split; [exact Hw|]. cbn. auto.
Qed.

Lemma b_op own tr lg op z x y vx vy (f : addr -> prog B) Q : own z <> None ->
  int_at (look F own) x vx -> int_at (look F own) y vy ->
  match vx, vy with
  | Some a, Some b => behaves F (oset own z (OInt (op a b))) tr lg (f z) Q
  | _, _ => Q own tr lg (Panic PNil)
  end -> behaves F own tr lg (pbind (int_op op z x y) f) Q.
Proof.
  intros Hz Hx Hy Hf. destruct x as [a|]; cbn in Hx; [destruct Hx as (v & Hv & ->)|subst vx].
  - cbn. exists (OInt v). split; [exact Hv|]. destruct y as [b|]; cbn in Hy; [destruct Hy as (w & Hw & ->)|subst vy].
    + cbn. exists (OInt w). split; [exact Hw|]. cbn. auto.
    + cbn. exact Hf.
  - cbn. destruct vy; exact Hf.
Qed.

Lemma b_bigIntToHex own tr lg p v (f : gostring -> prog B) Q : int_at (look F own) p v ->
  behaves F own tr lg (f (bigIntToHex v)) Q -> behaves F own tr lg (pbind (h_bigIntToHex p) f) Q.
Proof.
  destruct p as [a|]; cbn; [|intros ->; auto]. intros (z & Hz & ->) H. exists (OInt z). split; [exact Hz|exact H].
Qed.

Lemma b_net_eqb own tr lg p q v w (f : bool -> prog B) Q : net_at (look F own) p v -> net_at (look F own) q w ->
  behaves F own tr lg (f (net_eqb v w)) Q -> behaves F own tr lg (pbind (h_net_eqb p q) f) Q.
Proof.
  destruct p as [a|], q as [b|]; cbn.
  - intros (m & Hm & ->) (n & Hn & ->) H. exists (ONet m). split; [exact Hm|]. cbn.
    exists (ONet n). split; [exact Hn|]. exact H.
  - intros (m & Hm & ->) -> H. exact H.
  - intros -> (n & Hn & ->) H. exact H.
  - intros -> -> H. exact H.
Qed.

End Rules.

(** ** Relating outcomes *)

Definition rel_out {A C} (P : A -> C -> Prop) (o : outcome A) (v : outcome C) : Prop :=
  match o, v with Ret a, Ret c => P a c | Panic e, Panic e' => e = e' | _, _ => False end.
Definition rel_res {A C} (P : A -> C -> Prop) (o : result A) (v : result C) : Prop :=
  match o, v with Ok a, Ok c => P a c | Err e, Err e' => e = e' | _, _ => False end.
Definition rel_opt {A C} (P : A -> C -> Prop) (o : option A) (v : option C) : Prop :=
  match o, v with Some a, Some c => P a c | None, None => True | _, _ => False end.
