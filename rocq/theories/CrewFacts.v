(** * Programs run at the same time compute what the arithmetic says (C98): proofs *)

From Coq Require Import String.
From Verif Require Import GoBase GoRand Model ModelPtr GoSem GoTree GoTreeSim SpecSource SourceBase SourceAll.
From Verif Require Import Spec CurveSpec EcdsaContract SpecSession Session SpecRun RunFacts SpecConc ConcFacts SpecCrew.
Local Open Scope Z_scope.

Lemma field_handle floor v x k s :
  handle floor (t_field v x k) s =
  match text_field (heap s) v x with Some t => handle floor (k t) s | None => Done None s end.
Proof.
  unfold t_field, text_field. destruct v; try reflexivity. cbn [handle]. unfold cell.
  destruct (nth_error (heap s) a) as [[]|]; try reflexivity.
  match goal with |- context [find ?g ?l] => destruct (find g l) as [[y []]|] end; reflexivity.
Qed.

Lemma call_for_handle floor k r s :
  handle floor (t_call_for k r) s =
  match call_for k (heap s) r with
  | Some c => Done (Some (name c, arguments c, taken c)) (State (heap s ++ made c) (source s) (logged s))
  | None => Done None s
  end.
Proof.
  assert (s = State (heap s ++ []) (source s) (logged s)) as Hs by (destruct s; cbn; now rewrite app_nil_r).
  destruct r; cbn [t_call_for call_for];
    repeat match goal with
           | |- context [nth_error ?k ?i] => destruct (nth_error k i) as [[]|]; try reflexivity
           end;
    rewrite ?field_handle;
    try match goal with |- context [text_field ?h ?v ?x] => destruct (text_field h v x) end;
    try reflexivity; cbn [made name arguments taken handle]; f_equal; exact Hs.
Qed.

(** the calls of a program are calls of the API *)
Lemma call_for_api k q s r c : Forall2 (shows (heap s)) k q -> call_for k (heap s) r = Some c ->
  api_call (heap s ++ made c) (name c) (arguments c).
Proof.
  intros HK. pose proof (fun i => held_at _ _ _ i HK) as HA.
  destruct r as [n|t n|t n|t n|i n|i n|i j|i j|i|i j b|i b|i n|i b]; cbn [call_for];
    try (pose proof (HA i) as Hi; destruct (nth_error k i) as [[]|]; try discriminate;
         destruct (nth_error q i) as [[]|]; try contradiction; cbn [shows] in Hi);
    try (pose proof (HA j) as Hj; destruct (nth_error k j) as [[]|]; try discriminate;
         destruct (nth_error q j) as [[]|]; try contradiction; cbn [shows] in Hj);
    rewrite ?(text_hex _ _ _ Hi), ?(text_wif _ _ _ Hi);
    intros H; injection H as <-; cbn [made name arguments]; rewrite ?app_nil_r.
  - econstructor. apply made_net.
  - econstructor. apply made_net.
  - econstructor. apply made_net.
  - econstructor. apply made_net.
  - econstructor. apply made_net.
  - econstructor. apply made_net.
  - eapply (call_AddPrivateKeys _ _ (Some _) _ (Some _)); eassumption.
  - eapply (call_MultiplyPrivateKeys _ _ (Some _) _ (Some _)); eassumption.
  - eapply (call_GetPublicKey _ _ (Some _)); eassumption.
  - eapply (call_AddPublicKeys _ _ (Some _) _ (Some _)); eassumption.
  - eapply (call_Format _ _ (Some _)); eassumption.
  - econstructor. apply made_net.
  - eapply (call_Address _ _ (Some _)); eassumption.
Qed.

(** ** Programs whose calls end when they are alone, with any ints *)
Section Apart.
Context (E : curve_params -> ecdsa_lib) (wrap : Z -> Z) (ok : list value -> string -> list value -> Prop).
Notation E0 := (E secp256k1_params).
Context (Hends : forall s f args, curve_ready (heap s) -> ok (heap s) f args ->
  exists r, good r /\ ends_above E (Limits (length (heap s)) wrap) f args s r).
(** what is kept from call to call of a program *)
Context (Inv : list answer -> list request -> Prop).
Context (HInv : forall q r rs, Inv q (r :: rs) ->
  (forall w, reads_wif q r w -> wif_works E (Limits O wrap) w) /\
  (forall k s c, Forall2 (shows (heap s)) k q -> call_for k (heap s) r = Some c -> ok (heap s ++ made c) (name c) (arguments c)) /\
  (forall rd a rest, perform E0 q r rd = Ret (a, rest) -> Inv (q ++ [a]) rs)).

Lemma call_above k q s r rs c res floor : Inv q (r :: rs) -> curve_ready (heap s) -> Forall2 (shows (heap s)) k q ->
  (floor <= length (heap s))%nat -> call_for k (heap s) r = Some c ->
  ends_above E (Limits O wrap) (name c) (arguments c) (State (heap s ++ made c) (source s) (logged s)) res ->
  ends_above E (Limits floor wrap) (name c) (arguments c) (State (heap s ++ made c) (source s) (logged s)) res.
Proof.
  intros HI HC HK Hl Hc He.
  set (s1 := State (heap s ++ made c) (source s) (logged s)) in *.
  assert (curve_ready (heap s1)) as HC1 by now apply curve_ready_grow.
  assert (ok (heap s1) (name c) (arguments c)) as Ha by (eapply HInv; eassumption).
  destruct (Hends s1 _ _ HC1 Ha) as (r' & Hg & He').
  rewrite (RunFacts.ends_fun E _ _ _ _ _ _ He (ends_floor _ _ _ _ _ _ _ Hg He')).
  destruct He' as (N & He'). exists N. intros n Hn. rewrite <- (He' n Hn).
  apply run_floor; [|rewrite (He' n Hn); exact Hg].
  cbn [s1 heap]. rewrite app_length. lia.
Qed.

Lemma program_handle rs : forall k q s floor, Inv q rs -> curve_ready (heap s) -> Forall2 (shows (heap s)) k q ->
  (floor <= length (heap s))%nat ->
  match session E0 q rs (source s) with
  | Ret (q', rest) => exists k' s',
      (exists N, forall n, (N <= n)%nat -> handle floor (t_program_on E wrap n k rs) s = Done k' s') /\
      source s' = rest /\ logged s' = logged s /\ Forall2 (shows (heap s')) k' q'
  | Panic p => exists s', exists N, forall n, (N <= n)%nat -> handle floor (t_program_on E wrap n k rs) s = Crash p s'
  end.
Proof.
  induction rs as [|r rs IH]; intros k q s floor HI HC HK Hl; cbn [session].
  - exists k, s. split; [exists 0%nat; reflexivity|auto].
  - pose proof (HInv q r rs HI) as (HW & _ & HN0).
    pose proof (perform_follows_on E (Limits O wrap) eq_refl k q s r HC HK HW) as H. specialize (HN0 (source s)).
    destruct (perform E0 q r (source s)) as [[a rest]|p]; cbn [follows] in H.
    + destruct H as (x & s1 & new & H1 & Hh & <- & Hlg & Hs).
      assert (exists N, forall n, (N <= n)%nat ->
                handle floor (t_program_on E wrap n k (r :: rs)) s = handle floor (t_program_on E wrap n (k ++ [x]) rs) s1) as (N & HN).
      { unfold steps_on in H1. destruct (call_for k (heap s) r) as [c|] eqn:Hc.
        - destruct H1 as (vs & He & Ht).
          destruct (call_above k q s r rs c _ floor HI HC HK Hl Hc He) as (N & HN). exists N. intros n Hn.
          cbn [t_program_on]. rewrite handle_bind, call_for_handle, Hc. cbn [andthen].
          rewrite handle_bind, h_run, (HN n Hn). cbn [andthen]. now rewrite Ht.
        - destruct H1 as [-> ->]. exists 0%nat. intros n _. cbn [t_program_on].
          rewrite handle_bind, call_for_handle, Hc. reflexivity. }
      specialize (IH (k ++ [x]) (q ++ [a]) s1 floor).
      assert (curve_ready (heap s1)) as HC1 by (rewrite Hh; now apply curve_ready_grow).
      assert (Forall2 (shows (heap s1)) (k ++ [x]) (q ++ [a])) as HK1.
      { apply Forall2_app; [rewrite Hh; now apply all_grow|]. constructor; [exact Hs|constructor]. }
      assert (floor <= length (heap s1))%nat as Hl1 by (rewrite Hh, app_length; lia).
      specialize (IH (HN0 _ _ eq_refl) HC1 HK1 Hl1).
      destruct (session E0 (q ++ [a]) rs (source s1)) as [[q' rest]|p].
      * destruct IH as (k' & s' & (M & HM) & Hso & Hlo & Hk'). exists k', s'.
        split; [exists (max N M); intros n Hn; rewrite HN by lia; apply HM; lia|].
        split; [exact Hso|]. split; [congruence|exact Hk'].
      * destruct IH as (s' & M & HM). exists s', (max N M). intros n Hn. rewrite HN by lia. apply HM. lia.
    + destruct H as (c & s' & Hc & He).
      destruct (call_above k q s r rs c _ floor HI HC HK Hl Hc He) as (N & HN).
      exists s', N. intros n Hn. cbn [t_program_on]. rewrite handle_bind, call_for_handle, Hc. cbn [andthen].
      rewrite handle_bind, h_run, (HN n Hn). reflexivity.
Qed.

Lemma answers_of sh k l : Forall2 (carries sh) k l -> exists q, Forall2 stands_for l q /\ Forall2 (shows sh) k q.
Proof.
  induction 1 as [|x m k l (a & H1 & H2) _ (q & IH1 & IH2)]; [exists []; split; constructor|].
  exists (a :: q). split; constructor; assumption.
Qed.

(** the end of one goroutine alone *)
Definition lone_end (m : member) (r : res (list held)) : Prop :=
  match r with
  | Done k s => exists l, meant_all (knows m) (plan m) (gets m) l (source s) /\ Forall2 (carries (heap s)) k l /\ logged s = []
  | Crash p s => p = PRand /\ forall l rest, ~ meant_all (knows m) (plan m) (gets m) l rest
  | _ => False
  end.

Definition able (m : member) : Prop := forall q, Forall2 stands_for (knows m) q -> Inv q (plan m).
Lemma member_alone sh m : ecdsa_contract E0 -> curve_ready sh -> ready sh m -> able m ->
  exists N, forall n, (N <= n)%nat ->
    lone_end m (handle (length sh) (t_program_on E wrap n (holds m) (plan m)) (State sh (gets m) [])).
Proof.
  intros HE HC (HM & HP & HS) HA. destruct (answers_of _ _ _ HM) as (q & Hq & HK).
  pose proof (program_handle (plan m) (holds m) q (State sh (gets m) []) (length sh) (HA q Hq) HC HK (le_n _)) as H.
  cbn [source logged heap] in H.
  destruct (session_total E0 HE (plan m) (knows m) q (gets m) Hq HP HS) as [(l & rest & Hl)|(Hp & Hno)].
  - destruct (session_forward E0 HE _ _ _ _ _ Hl q Hq HP HS) as (q' & Hs & Hq'). rewrite Hs in H.
    destruct H as (k' & s' & (N & HN) & Hso & Hlo & Hk'). exists N. intros n Hn. rewrite (HN n Hn).
    exists l. rewrite Hso. split; [exact Hl|]. split; [|exact Hlo]. eapply shows_carries; eassumption.
  - rewrite Hp in H. destruct H as (s' & N & HN). exists N. intros n Hn. rewrite (HN n Hn). now split.
Qed.

Lemma lone_good m r : lone_end m r -> good r.
Proof. destruct r; auto. intros _. exact I. intros _. exact I. Qed.

Lemma crew_alone sh ms : ecdsa_contract E0 -> curve_ready sh -> Forall (ready sh) ms -> Forall able ms ->
  exists N, forall n, (N <= n)%nat -> Forall (fun m =>
    lone_end m (handle (length sh) (t_program_on E wrap n (holds m) (plan m)) (State sh (gets m) []))) ms.
Proof.
  intros HE HC HR HA. revert HA. induction HR as [|m ms Hm _ IH]; intros HA; [exists 0%nat; constructor|].
  apply Forall_cons_iff in HA as [HA1 HA2]. destruct (IH HA2) as (N & IHN). clear IH. rename IHN into IH.
  destruct (member_alone sh m HE HC Hm HA1) as (M & HM). exists (max N M). intros n Hn.
  constructor; [apply HM; lia|apply IH; lia].
Qed.

Lemma crew_any_schedule_on sh ms : ecdsa_contract E0 -> curve_ready sh -> Forall (ready sh) ms -> Forall able ms ->
  exists N, forall n w, (N <= n)%nat -> reaches (crew_start_on E wrap n sh ms) w ->
    shared w = sh /\ length (threads w) = length ms /\
    forall i m t, nth_error ms i = Some m -> nth_error (threads w) i = Some t ->
      (forall a v k, code t = TWrite a v k -> (length sh <= a)%nat) /\ code t <> TStuck /\ code t <> TFuel /\
      (forall k, code t = TRet k -> exists l, meant_all (knows m) (plan m) (gets m) l (bytes t) /\
         Forall2 (carries (sh ++ own t)) k l /\ said t = []) /\
      (forall p, code t = TCrash p -> p = PRand /\ forall l rest, ~ meant_all (knows m) (plan m) (gets m) l rest).
Proof.
  intros HE HC Hm HA. destruct (crew_alone sh ms HE HC Hm HA) as (N & HN). exists N. intros n w Hn Hw.
  specialize (HN n Hn). unfold crew_start_on in Hw.
  assert (Forall (safe sh) (map (fun m => Thread (t_program_on E wrap n (holds m) (plan m)) [] (gets m) []) ms)) as Hs.
  { apply Forall_map. eapply Forall_impl; [|exact HN]. cbv beta. intros m Hl. unfold safe. cbn [code own bytes said].
    rewrite app_nil_r. eapply lone_good, Hl. }
  destruct (steps_alone _ _ _ Hs Hw) as [Hsh H2]. split; [exact Hsh|]. split.
  { rewrite <- (Forall2_len _ _ _ H2). apply map_length. }
  intros i m t Hi Ht.
  pose proof (Forall2_nth _ _ _ H2 i _ t (map_nth_error _ _ _ Hi) Ht) as Ha. cbn [code own bytes said] in Ha.
  rewrite app_nil_r in Ha.
  pose proof (proj1 (Forall_forall _ _) HN m (nth_error_In _ _ Hi)) as Hl. cbv beta in Hl. rewrite <- Ha in Hl.
  destruct (alone_here sh t (lone_good _ _ Hl)) as (H3 & H4 & H5). split; [exact H3|]. split; [exact H4|]. split; [exact H5|].
  split; intros x Hc; rewrite Hc in Hl; exact Hl.
Qed.

Lemma crew_no_deadlock_on sh ms : ecdsa_contract E0 -> curve_ready sh -> Forall (ready sh) ms -> Forall able ms ->
  exists N, forall n w, (N <= n)%nat -> reaches (crew_start_on E wrap n sh ms) w ->
    Forall finished (threads w) \/ exists w', step w w'.
Proof.
  intros HE HC Hm HA. destruct (crew_any_schedule_on sh ms HE HC Hm HA) as (N & HN). exists N. intros n w Hn Hw.
  destruct (HN n w Hn Hw) as (_ & Hl & Ht). clear HN Hw. destruct w as [sh' ts]. cbn [threads shared] in *.
  apply some_move. intros t Hin. apply In_nth_error in Hin as (i & Hi). destruct (nth_error ms i) as [m|] eqn:Hmi.
  - destruct (Ht i m t Hmi Hi) as (_ & H1 & H2 & _). now split.
  - apply nth_error_None in Hmi. assert (i < length ts)%nat by (apply nth_error_Some; congruence). lia.
Qed.
End Apart.

(** ** With ints without limits *)
Section Unlimited.
Context (E : curve_params -> ecdsa_lib).
Notation E0 := (E secp256k1_params).

Lemma every_call q r (rs : list request) : True ->
  (forall w, reads_wif q r w -> wif_works E (Limits O (fun z => z)) w) /\
  (forall k s c, Forall2 (shows (heap s)) k q -> call_for k (heap s) r = Some c -> api_call (heap s ++ made c) (name c) (arguments c)) /\
  (forall rd a rest, perform E0 q r rd = Ret (a, rest) -> True).
Proof.
  intros _. split; [|split; [|auto]].
  - intros w _ v net s0 Hn. exact (answers_PrivateFromWIF E w v net s0 Hn).
  - intros k s c. apply call_for_api.
Qed.
Lemma all_able ms : Forall (able (fun _ _ => True)) ms.
Proof. apply Forall_forall. intros m _ q _. exact I. Qed.

Lemma crew_any_schedule sh ms : ecdsa_contract E0 -> curve_ready sh -> Forall (ready sh) ms ->
  exists N, forall n w, (N <= n)%nat -> reaches (crew_start E n sh ms) w ->
    shared w = sh /\ length (threads w) = length ms /\
    forall i m t, nth_error ms i = Some m -> nth_error (threads w) i = Some t ->
      (forall a v k, code t = TWrite a v k -> (length sh <= a)%nat) /\ code t <> TStuck /\ code t <> TFuel /\
      (forall k, code t = TRet k -> exists l, meant_all (knows m) (plan m) (gets m) l (bytes t) /\
         Forall2 (carries (sh ++ own t)) k l /\ said t = []) /\
      (forall p, code t = TCrash p -> p = PRand /\ forall l rest, ~ meant_all (knows m) (plan m) (gets m) l rest).
Proof.
  intros HE HC Hm.
  exact (crew_any_schedule_on E (fun z => z) api_call (ends_above_api E) _ every_call sh ms HE HC Hm (all_able ms)).
Qed.

Lemma crew_no_deadlock sh ms : ecdsa_contract E0 -> curve_ready sh -> Forall (ready sh) ms ->
  exists N, forall n w, (N <= n)%nat -> reaches (crew_start E n sh ms) w ->
    Forall finished (threads w) \/ exists w', step w w'.
Proof.
  intros HE HC Hm.
  exact (crew_no_deadlock_on E (fun z => z) api_call (ends_above_api E) _ every_call sh ms HE HC Hm (all_able ms)).
Qed.
End Unlimited.
