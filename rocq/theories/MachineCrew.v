(** * Programs of calls on one machine: proofs *)

From Coq Require Import String.
From Verif Require Import GoBase Model GoRand GoSem GoTree GoTreeSim SpecSource SourceBase.
From Verif Require Import Spec CurveSpec EcdsaContract SpecSession Session SpecRun RunFacts.
From Verif Require Import SpecConc ConcFacts SpecCrew CrewFacts GoRename GoRenameRun SpecMachine MachineFacts MachineEnds.
Local Open Scope Z_scope.

(** ** A program does not depend on addresses *)

Definition hrel (r : ren) (x y : held) : Prop :=
  match x, y with
  | HPrivate v, HPrivate w | HPublic v, HPublic w => vrel r v w
  | HPrivate _, _ | HPublic _, _ => False
  | _, _ => x = y
  end.
Definition hsrel (r : ren) (k k' : list held) : Prop := Forall2 (hrel r) k k'.
Lemma hrel_mono r r' x y : incl r r' -> hrel r x y -> hrel r' x y.
Proof. intros Hi. destruct x, y; cbn; auto; now apply vrel_mono. Qed.
Lemma hsrel_mono r r' k k' : incl r r' -> hsrel r k k' -> hsrel r' k k'.
Proof. intros Hi H. eapply GoRename.Forall2_impl; [|exact H]. intros. now apply (hrel_mono r). Qed.

Definition respectful (take : list value -> option held) : Prop :=
  forall r vs ws, lrel r vs ws ->
    match take vs, take ws with Some x, Some y => hrel r x y | None, None => True | _, _ => False end.
Definition orel (r : ren) (o o' : option entry) : Prop :=
  match o, o' with
  | Some (f, args, take), Some (f', args', take') => f = f' /\ lrel r args args' /\ take = take' /\ respectful take
  | None, None => True
  | _, _ => False
  end.

Lemma a_key_rel : respectful a_key.
Proof. intros r vs ws H. destruct H as [|v w vs ws H1 [|]]; try exact I. exact H1. Qed.
Lemma two_rel (f : value -> value -> option held) : (forall r v v' w w', vrel r v v' -> vrel r w w' ->
    match f v w, f v' w' with Some x, Some y => hrel r x y | None, None => True | _, _ => False end) ->
  respectful (fun vs => match vs with [v; w] => f v w | _ => None end).
Proof.
  intros Hf r vs ws H. destruct H as [|v1 w1 vs ws H1 H]; [exact I|]. destruct H as [|v2 w2 vs ws H2 H]; [exact I|].
  destruct H; [|exact I]. now apply Hf.
Qed.
Lemma respectful_ext f g : (forall vs, f vs = g vs) -> respectful f -> respectful g.
Proof. intros He Hf r vs ws H. rewrite <- !He. now apply Hf. Qed.
Ltac two F :=
  apply (respectful_ext (fun vs => match vs with [v; w] => F v w | _ => None end));
  [let v := fresh "v" in let w := fresh "w" in
   intros [|v [|w [|]]]; try reflexivity; destruct v; try reflexivity; destruct w; try reflexivity;
   match goal with b : bool |- _ => destruct b; reflexivity end
  |apply two_rel; intros r v v' w w' Hv Hw].
Lemma a_private_rel : respectful a_private.
Proof.
  two (fun v w => match w with VNil => Some (HPrivate v) | VErr e => Some (HError e) | _ => None end).
  vinv Hw; try exact I; [exact Hv|reflexivity].
Qed.
Lemma a_public_rel : respectful a_public.
Proof.
  two (fun v w => match w with VNil => Some (HPublic v) | VErr e => Some (HError e) | _ => None end).
  vinv Hw; try exact I; [exact Hv|reflexivity].
Qed.
Lemma a_published_rel : respectful a_published.
Proof.
  two (fun v w => match w with VBool true => Some (HPublic v) | VBool false => Some HNoKey | _ => None end).
  vinv Hw; try exact I. destruct b0; [exact Hv|reflexivity].
Qed.
Lemma a_text_rel : respectful a_text.
Proof.
  intros r vs ws H. destruct H as [|v w vs ws H1 H]; [exact I|]. vinv H1; try (destruct H; exact I). destruct H; [reflexivity|exact I].
Qed.
Lemma an_address_rel : respectful an_address.
Proof.
  two (fun v w => match w with VNil => match v with VStr t => Some (HAddress t) | _ => None end | VErr e => Some (HError e) | _ => None end).
  vinv Hw; try exact I; [vinv Hv; try exact I; reflexivity|reflexivity].
Qed.

Lemma find_frel r x fs : forall gs, frel r fs gs ->
  match find (fun p => String.eqb x (fst p)) fs, find (fun p => String.eqb x (fst p)) gs with
  | Some (_, v), Some (_, w) => vrel r v w | None, None => True | _, _ => False end.
Proof.
  induction fs as [|[y v] fs IH]; intros [|[z w] gs] H; try contradiction; [exact I|].
  cbn [frel] in H. destruct H as (-> & H1 & H2). cbn [find fst]. destruct (String.eqb x z); [exact H1|now apply IH].
Qed.
Lemma text_field_rel r v w x k k' : vrel r v w -> (forall t, trel orel r (k t) (k' t)) ->
  trel orel r (t_field v x k) (t_field w x k').
Proof.
  intros Hv Hk. unfold t_field. vinv Hv; try (apply r_ret; exact I).
  apply r_read; [exact Hv|]. intros c d Hc. vinv Hc; try (apply r_ret; exact I). destruct Hc as [_ Hc].
  change (frel r fields fields0) in Hc. pose proof (find_frel r x _ _ Hc) as Hf.
  destruct (find _ fields) as [[y u]|], (find _ fields0) as [[z u']|]; try contradiction; [|apply r_ret; exact I].
  vinv Hf; try (apply r_ret; exact I). apply Hk.
Qed.
Lemma net_rel r n k k' : (forall r' v w, incl r r' -> vrel r' v w -> trel orel r' (k v) (k' w)) ->
  trel orel r (t_net n k) (t_net n k').
Proof.
  intros H. unfold t_net. apply r_alloc; [repeat split|]. intros a b. apply H; [apply incl_cons_r|now left].
Qed.

Lemma held_rel r k k' i : hsrel r k k' ->
  match nth_error k i, nth_error k' i with Some x, Some y => hrel r x y | None, None => True | _, _ => False end.
Proof. intros H. revert i. induction H as [|x y k k' Hx _ IH]; intros [|i]; cbn [nth_error]; try exact I; [exact Hx|apply IH]. Qed.

Lemma call_for_rel r k k' q : hsrel r k k' -> trel orel r (t_call_for k q) (t_call_for k' q).
Proof.
  intros Hk. pose proof (fun i => held_rel r k k' i Hk) as HA.
  pose proof a_key_rel. pose proof a_private_rel. pose proof a_public_rel. pose proof a_published_rel.
  pose proof a_text_rel. pose proof an_address_rel.
  destruct q as [n|t n|t n|t n|i n|i n|i j|i j|i|i j b|i b|i n|i b]; cbn [t_call_for];
    try (pose proof (HA i) as Hi; destruct (nth_error k i) as [[]|], (nth_error k' i) as [[]|]; try contradiction;
         cbn [hrel] in Hi; try discriminate Hi; try (injection Hi as ->));
    try (pose proof (HA j) as Hj; destruct (nth_error k j) as [[]|], (nth_error k' j) as [[]|]; try contradiction;
         cbn [hrel] in Hj; try discriminate Hj; try (injection Hj as ->));
    try (apply r_ret; exact I);
    try (apply text_field_rel; [assumption|]; intros t');
    try (apply net_rel; intros r' v' w' Hinc Hv');
    apply r_ret; (split; [reflexivity|split; [|split; [reflexivity|assumption]]]);
    repeat (apply Forall2_cons; [first [assumption|reflexivity]|]); apply Forall2_nil.
Qed.

Lemma program_rel E wrap n qs : forall r k k', based r -> hsrel r k k' -> trel hsrel r (t_program_on E wrap n k qs) (t_program_on E wrap n k' qs).
Proof.
  induction qs as [|q qs IH]; intros r k k' Hb Hk; [now apply r_ret|]. cbn [t_program_on].
  eapply bind_rel; [now apply call_for_rel|]. intros r1 o o' Hi Ho.
  assert (based r1) as Hb1 by now apply (based_mono r). assert (hsrel r1 k k') as Hk1 by now apply (hsrel_mono r).
  destruct o as [[[f args] take]|], o' as [[[f' args'] take']|]; try contradiction.
  - destruct Ho as (<- & Ha & <- & Ht). eapply bind_rel; [now apply run_rel|]. intros r2 vs ws Hi2 Hv.
    specialize (Ht r2 vs ws Hv). destruct (take vs) as [x|], (take ws) as [y|]; try contradiction; [|apply r_stuck].
    apply IH; [now apply (based_mono r1)|]. apply Forall2_app; [now apply (hsrel_mono r1)|]. constructor; [exact Ht|constructor].
  - apply IH; [exact Hb1|]. apply Forall2_app; [exact Hk1|]. repeat constructor.
Qed.

(** ** What is held means the same with other addresses *)

Section Copied.
Context (n : nat) (g : nat -> nat) (h mem : list value) (HC : copied n g h mem).
Lemma copied_at a v : nth_error h a = Some v -> nth_error mem (g a) = Some (rename g v).
Proof. apply HC. Qed.
Lemma big_copied v z : is_big h v z -> is_big mem (rename g v) z.
Proof.
  destruct z; cbn [is_big]; [|now intros ->]. intros (a & -> & H). exists (g a). split; [reflexivity|].
  now rewrite (copied_at _ _ H).
Qed.
Lemma net_copied v z : is_net h v z -> is_net mem (rename g v) z.
Proof.
  destruct z; cbn [is_net]; [|now intros ->]. intros (a & -> & H). exists (g a). split; [reflexivity|].
  now rewrite (copied_at _ _ H).
Qed.
Lemma priv_copied v k : is_priv h v k -> is_priv mem (rename g v) k.
Proof.
  intros (a & key & net & -> & H & H1 & H2). exists (g a), (rename g key), (rename g net). split; [reflexivity|].
  rewrite (copied_at _ _ H). split; [reflexivity|]. split; [now apply big_copied|now apply net_copied].
Qed.
Lemma pub_copied v p : is_pub h v p -> is_pub mem (rename g v) p.
Proof.
  intros (a & x & y & net & -> & H & H1 & H2 & H3). exists (g a), (rename g x), (rename g y), (rename g net).
  split; [reflexivity|]. rewrite (copied_at _ _ H). split; [reflexivity|].
  split; [now apply big_copied|]. split; [now apply big_copied|now apply net_copied].
Qed.
End Copied.

Lemma carries_copied n r h mem : (forall a b a' b', In (a, b) r -> In (a', b') r -> (a = a' <-> b = b')) ->
  copied n (mapping r) h mem -> forall x y m, hrel r x y -> carries h x m -> carries mem y m.
Proof.
  intros H1 HC x y m Hxy (a & Hs & Hx). exists a. split; [exact Hs|].
  destruct x, y; cbn [hrel] in Hxy; try contradiction; try discriminate Hxy; try (injection Hxy as <-); destruct a;
    cbn [shows] in Hx |- *; try contradiction; try exact Hx; try exact I;
    rewrite <- (rename_rel r H1 _ _ Hxy); [eapply priv_copied|eapply pub_copied]; eassumption.
Qed.
Lemma all_carries_copied n r h mem : (forall a b a' b', In (a, b) r -> In (a', b') r -> (a = a' <-> b = b')) ->
  copied n (mapping r) h mem -> forall k k' l, hsrel r k k' -> Forall2 (carries h) k l -> Forall2 (carries mem) k' l.
Proof.
  intros H1 HC k k' l Hk. revert l. induction Hk as [|x y k k' Hx _ IH]; intros l Hl; inversion Hl; subst; constructor; auto.
  eapply carries_copied; eassumption.
Qed.

Lemma carries_same h x m : carries h x m -> hrel (same (length h)) x x.
Proof.
  intros (a & _ & H). destruct x, a; cbn [shows] in H; try contradiction; try reflexivity.
  - destruct H as (a & ? & ? & -> & H & _). cbn. apply in_same. split; [|reflexivity]. apply nth_error_Some. congruence.
  - destruct H as (a & ? & ? & ? & -> & H & _). cbn. apply in_same. split; [|reflexivity]. apply nth_error_Some. congruence.
Qed.

(** ** Programs whose calls end when they are alone, with any ints *)
Section Apart.
Context (E : curve_params -> ecdsa_lib) (wrap : Z -> Z) (ok : list value -> string -> list value -> Prop).
Notation E0 := (E secp256k1_params).
Context (Hends : forall s f args, curve_ready (heap s) -> ok (heap s) f args ->
  exists r, good r /\ ends_above E (Limits (length (heap s)) wrap) f args s r).
Context (Inv : list answer -> list request -> Prop).
Context (HInv : forall q r rs, Inv q (r :: rs) ->
  (forall w, reads_wif q r w -> wif_works E (Limits O wrap) w) /\
  (forall k s c, Forall2 (shows (heap s)) k q -> call_for k (heap s) r = Some c -> ok (heap s ++ made c) (name c) (arguments c)) /\
  (forall rd a rest, perform E0 q r rd = Ret (a, rest) -> Inv (q ++ [a]) rs)).
Definition able_worker (w : worker) : Prop := forall q, Forall2 stands_for (in_mind w) q -> Inv q (to_do w).

Definition as_member (w : worker) (bs : list byte) : member := Member (in_hand w) (in_mind w) (to_do w) bs.
Definition program_trees (n : nat) (ws : list worker) : list (tree (list held)) :=
  map (fun w => t_program_on E wrap n (in_hand w) (to_do w)) ws.
Definition well (sh : list value) (L : nat) (w : worker) (n : nat) : Prop := forall bs, (length bs <= L)%nat ->
  lone_end (as_member w bs) (handle (length sh) (t_program_on E wrap n (in_hand w) (to_do w)) (State sh bs [])).

Lemma worker_well sh L w : ecdsa_contract E0 -> curve_ready sh -> fit sh w -> able_worker w ->
  exists N, forall n, (N <= n)%nat -> well sh L w n.
Proof.
  intros HE HC Hf Hw. destruct (bytes_bound L (fun bs n =>
    lone_end (as_member w bs) (handle (length sh) (t_program_on E wrap n (in_hand w) (to_do w)) (State sh bs [])))) as (N & HN).
  - intros bs. exact (member_alone E wrap ok Hends Inv HInv sh (as_member w bs) HE HC Hf Hw).
  - exists N. intros n Hn bs. now apply HN.
Qed.

Lemma workers_ready sh rd ws : ecdsa_contract E0 -> curve_ready sh -> whole_heap sh -> Forall (fit sh) ws -> Forall able_worker ws ->
  exists N, forall n, (N <= n)%nat ->
    Forall (fun w => well sh (length rd) w n) ws /\
    all_tracked hsrel sh (length rd) (program_trees n ws) (machine_start sh rd (program_trees n ws)).
Proof.
  intros HE HC HW HF HA. destruct (list_bound (well sh (length rd)) ws) as (N & HN).
  { intros w Hw. eapply Forall_forall in HF; [|exact Hw]. eapply Forall_forall in HA; [|exact Hw]. now apply worker_well. }
  exists N. intros n Hn. split; [apply HN, Hn|]. apply start_tracked; [exact HW|].
  intros t Ht. apply in_map_iff in Ht as (w & <- & Hw). apply program_rel; [now apply based_same|].
  eapply Forall_forall in HF; [|exact Hw]. destruct HF as (HF & _).
  induction HF; constructor; [eapply carries_same; eassumption|assumption].
Qed.

Lemma one_crew_on sh rd ws : ecdsa_contract E0 -> curve_ready sh -> whole_heap sh -> Forall (fit sh) ws -> Forall able_worker ws ->
  exists N, forall n m, (N <= n)%nat ->
    comes_to (machine_start sh rd (map (fun w => t_program_on E wrap n (in_hand w) (to_do w)) ws)) m ->
    firstn (length sh) (memory m) = sh /\ ~ race m /\ (Forall ended (routines m) \/ exists m', tick m m') /\
    length (routines m) = length ws /\
    forall i w ro, nth_error ws i = Some w -> nth_error (routines m) i = Some ro ->
      keeps_apart m i (todo ro) /\ todo ro <> TStuck /\ todo ro <> TFuel /\
      (forall k, todo ro = TRet k -> exists l,
         meant_all (in_mind w) (to_do w) (got ro) l [] /\ Forall2 (carries (memory m)) k l /\ lines_of i (screen m) = []) /\
      (forall p, todo ro = TCrash p -> p = PRand /\ forall l rest, ~ meant_all (in_mind w) (to_do w) (got ro) l rest).
Proof.
  intros HE HC HW HF HA. destruct (workers_ready sh rd ws HE HC HW HF HA) as (N & HN). exists N. intros n m Hn Hm.
  destruct (HN n Hn) as [S T0]. fold (program_trees n ws) in Hm.
  assert (Forall (ends_well sh (length rd)) (program_trees n ws)) as F.
  { apply Forall_map. eapply Forall_impl; [|exact S]. intros w Hw bs Hb. eapply lone_good, Hw, Hb. }
  pose proof (comes_tracked _ _ _ _ _ _ F T0 Hm) as T.
  split; [eapply shared_kept, T|]. split; [eapply no_race; eassumption|]. split; [eapply machine_moves; eassumption|].
  pose proof T as (_ & Hl & _). split; [rewrite Hl; apply map_length|].
  intros i w ro Hi Hro.
  assert (nth_error (program_trees n ws) i = Some (t_program_on E wrap n (in_hand w) (to_do w))) as Ht by exact (map_nth_error _ _ _ Hi).
  assert (ends_well sh (length rd) (t_program_on E wrap n (in_hand w) (to_do w))) as Ff by (eapply Forall_forall; [exact F|eapply nth_error_In, Ht]).
  assert (length (got ro) <= length rd)%nat as Hgot.
  { destruct T as (_ & _ & T). destruct (T _ _ _ Ht Hro) as (r & ow & c & Ti).
    pose proof (tr_bytes _ _ _ _ _ _ _ _ _ _ _ _ _ Ti). lia. }
  pose proof (proj1 (Forall_forall _ _) S _ (nth_error_In _ _ Hi) (got ro) Hgot) as HL.
  destruct (tracked_now _ _ _ _ _ _ _ _ T Ff Ht Hro) as (H1 & H2 & H3 & H4 & H5).
  split; [exact H1|]. split; [exact H2|]. split; [exact H3|]. split.
  - intros k Hk. destruct (H4 k Hk) as (r & x & ow & Hh & Hr & Hone & Hc). rewrite Hh in HL. cbn [lone_end] in HL.
    destruct HL as (l & Hm1 & Hm2 & Hm3). exists l. split; [exact Hm1|]. split; [|exact Hm3].
    eapply all_carries_copied; eassumption.
  - intros p Hp. destruct (H5 p Hp) as (ow & Hh). rewrite Hh in HL. exact HL.
Qed.
End Apart.

Section Unlimited.
Context (E : curve_params -> ecdsa_lib).
Notation E0 := (E secp256k1_params).
Lemma one_crew sh rd ws : ecdsa_contract E0 -> curve_ready sh -> whole_heap sh -> Forall (fit sh) ws ->
  exists N, forall n m, (N <= n)%nat ->
    comes_to (machine_start sh rd (map (fun w => t_program E n (in_hand w) (to_do w)) ws)) m ->
    firstn (length sh) (memory m) = sh /\ ~ race m /\ (Forall ended (routines m) \/ exists m', tick m m') /\
    length (routines m) = length ws /\
    forall i w ro, nth_error ws i = Some w -> nth_error (routines m) i = Some ro ->
      keeps_apart m i (todo ro) /\ todo ro <> TStuck /\ todo ro <> TFuel /\
      (forall k, todo ro = TRet k -> exists l,
         meant_all (in_mind w) (to_do w) (got ro) l [] /\ Forall2 (carries (memory m)) k l /\ lines_of i (screen m) = []) /\
      (forall p, todo ro = TCrash p -> p = PRand /\ forall l rest, ~ meant_all (in_mind w) (to_do w) (got ro) l rest).
Proof.
  intros HE HC HW HF.
  assert (HA : Forall (able_worker (fun _ _ => True)) ws) by (apply Forall_forall; intros w _ q _; exact I).
  exact (one_crew_on E (fun z => z) api_call (ends_above_api E) _ (every_call E) sh rd ws HE HC HW HF HA).
Qed.
End Unlimited.
