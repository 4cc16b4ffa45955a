(** * Calls and sequences of calls: pointers and values agree *)

From Verif Require Import GoBase GoNum Base58 GoRand Model GenFacts Heap HeapSem HeapWp HeapRules HeapFacts HeapRand.
Local Open Scope Z_scope.
Local Opaque h_PrivateFromWIF h_PrivateFromHex h_GeneratePrivateKey h_AddPrivateKeys h_MultiplyPrivateKeys
  h_PublicFromHex h_GetPublicKey h_Format h_Address h_AddPublicKeys h_NewSeedFromMnemonic h_NewMnemonic
  PrivateFromWIF PrivateFromHex GeneratePrivateKey AddPrivateKeys MultiplyPrivateKeys PublicFromHex GetPublicKey
  Format Address AddPublicKeys NewSeedFromMnemonic NewMnemonic CheckWIF.

Definition envs_at (at_ : addr -> option obj) (env : list pslot) (venv : list vslot) : Prop :=
  Forall2 (slot_at at_) env venv.

Lemma nth_error_Forall2 {A B} (P : A -> B -> Prop) l m i : Forall2 P l m ->
  match nth_error l i, nth_error m i with
  | Some a, Some b => P a b
  | None, None => True
  | _, _ => False
  end.
Proof. intros H. revert i. induction H; intros [|i]; cbn; auto. apply IHForall2. Qed.

Section Get.
Context (at_ : addr -> option obj) (env : list (slot ptr addr addr ptr))
  (venv : list (slot (option network) private_key public_key wordlist)) (H : Forall2 (slot_at at_) env venv).
Lemma get_net_at i : rel_opt (net_at at_) (get_net env i) (get_net venv i).
Proof.
  pose proof (nth_error_Forall2 _ _ _ i H) as Hi. unfold pslot, vslot in Hi. unfold get_net.
  destruct (nth_error env i) as [[]|], (nth_error venv i) as [[]|]; cbn in *; try contradiction; auto.
Qed.
Lemma get_priv_at i : rel_opt (priv_at at_) (get_priv env i) (get_priv venv i).
Proof.
  pose proof (nth_error_Forall2 _ _ _ i H) as Hi. unfold pslot, vslot in Hi. unfold get_priv.
  destruct (nth_error env i) as [[]|], (nth_error venv i) as [[]|]; cbn in *; try contradiction; auto.
Qed.
Lemma get_pub_at i : rel_opt (pub_at at_) (get_pub env i) (get_pub venv i).
Proof.
  pose proof (nth_error_Forall2 _ _ _ i H) as Hi. unfold pslot, vslot in Hi. unfold get_pub.
  destruct (nth_error env i) as [[]|], (nth_error venv i) as [[]|]; cbn in *; try contradiction; auto.
Qed.
Lemma get_words_at i : rel_opt (words_at at_) (get_words env i) (get_words venv i).
Proof.
  pose proof (nth_error_Forall2 _ _ _ i H) as Hi. unfold pslot, vslot in Hi. unfold get_words.
  destruct (nth_error env i) as [[]|], (nth_error venv i) as [[]|]; cbn in *; try contradiction; auto.
Qed.
Lemma get_str_at s : get_str env s = get_str venv s.
Proof.
  destruct s as [s|i]; [reflexivity|]. pose proof (nth_error_Forall2 _ _ _ i H) as Hi. unfold pslot, vslot in Hi. cbn.
  destruct (nth_error env i) as [[]|], (nth_error venv i) as [[]|]; cbn in *; try contradiction; congruence.
Qed.
End Get.

Definition call_result (F : omap) (fuel : nat) (v : list byte -> option (list gostring * vslot)) (own' : omap) (d : list byte)
  (l : list gostring) (o : outcome pslot) : Prop :=
  exists r, o = Ret r /\
    ((exists w, v d = Some (l, w) /\ slot_at (look F own') r w) \/ (r = SPanic PFuel /\ (fuel <= length d)%nat)).

(** The value of a call that reads no random bytes. *)
Definition no_random (l : list gostring) (v : vslot) (d : list byte) : option (list gostring * vslot) :=
  match d with [] => Some (l, v) | _ :: _ => None end.

(** A quiet call. *)
Lemma b_call_quiet {A} F own fuel (p : prog A) (f : A -> pslot) R (v : vslot) :
  quiet F own p R ->
  (forall own' o, R own' o -> slot_at (look F own') (slot_of f o) v) ->
  noisy F own (do o <- try p; PRet (slot_of f o)) (call_result F fuel (no_random [] v)).
Proof.
  intros H HR tr lg. apply behaves_bind, behaves_try. eapply behaves_mono; [|apply H].
  cbn. intros own' tr' lg' o (K & -> & -> & Ho). split; [exact K|]. exists [], []. rewrite !app_nil_r.
  do 2 (split; [reflexivity|]). exists (slot_of f o). split; [reflexivity|]. left. exists v. split; [reflexivity|]. apply HR, Ho.
Qed.
Lemma b_call_noisy {A} F own fuel (p : prog A) (f : A -> pslot) R (v : list byte -> option (list gostring * vslot)) :
  noisy F own p R ->
  (forall own' d l o, R own' d l o ->
     (exists w, v d = Some (l, w) /\ slot_at (look F own') (slot_of f o) w) \/
     (o = Panic PFuel /\ (fuel <= length d)%nat)) ->
  noisy F own (do o <- try p; PRet (slot_of f o)) (call_result F fuel v).
Proof.
  intros H HR tr lg. apply behaves_bind, behaves_try. eapply behaves_mono; [|apply H].
  cbn. intros own' tr' lg' o (K & d & l & -> & -> & Ho). split; [exact K|]. exists d, l.
  do 2 (split; [reflexivity|]). exists (slot_of f o). split; [reflexivity|].
  destruct (HR _ _ _ _ Ho) as [Hs|(-> & Hs)]; [left; exact Hs|right; auto].
Qed.
Lemma b_bad F own fuel : noisy F own (PRet SBad) (call_result F fuel (no_random [] SBad)).
Proof.
  intros tr lg. cbn. split; [apply keep_refl|]. exists [], []. rewrite !app_nil_r. do 2 (split; [reflexivity|]).
  exists SBad. split; [reflexivity|]. left. exists SBad. split; [reflexivity|exact I].
Qed.

Lemma quiet_pure {A} F own (o : outcome A) : quiet F own (pure o) (fun _ o' => o' = o).
Proof. intros tr lg. destruct o; cbn; (split; [apply keep_refl|auto]). Qed.

Ltac arg H := match goal with
  | |- context [with_arg _ (get_str ?e ?s) _] =>
      rewrite (get_str_at _ _ _ H s); destruct (get_str _ s) as [?|]; cbn [with_arg]; [|apply b_bad]
  | |- context [with_arg _ (get_net ?e ?s) _] =>
      pose proof (get_net_at _ _ _ H s); destruct (get_net e s) as [?|], (get_net _ s) as [?|];
      try contradiction; cbn [with_arg rel_opt] in *; [|apply b_bad]
  | |- context [with_arg _ (get_priv ?e ?s) _] =>
      pose proof (get_priv_at _ _ _ H s); destruct (get_priv e s) as [?|], (get_priv _ s) as [?|];
      try contradiction; cbn [with_arg rel_opt] in *; [|apply b_bad]
  | |- context [with_arg _ (get_pub ?e ?s) _] =>
      pose proof (get_pub_at _ _ _ H s); destruct (get_pub e s) as [?|], (get_pub _ s) as [?|];
      try contradiction; cbn [with_arg rel_opt] in *; [|apply b_bad]
  | |- context [with_arg _ (get_words ?e ?s) _] =>
      pose proof (get_words_at _ _ _ H s); destruct (get_words e s) as [?|], (get_words _ s) as [?|];
      try contradiction; cbn [with_arg rel_opt] in *; [|apply b_bad]
  end.

Lemma priv_slot F own net v own' o : priv_result F own net v own' o ->
  slot_at (look F own') (slot_of (slot_res SPriv) o) (slot_of (slot_res SPriv) v).
Proof.
  unfold priv_result. destruct o as [[a|e]|e], v as [[k|e']|e']; cbn; try contradiction; auto. apply new_priv_at.
Qed.
Lemma pub_slot F own net v own' o : pub_result F own net v own' o ->
  slot_at (look F own') (slot_of (slot_res SPub) o) (slot_of (slot_res SPub) v).
Proof.
  unfold pub_result. destruct o as [[a|e]|e], v as [[k|e']|e']; cbn; try contradiction; auto. apply new_pub_at.
Qed.

Section Calls.
Context (L : hlib) (g : globals) (E : ecdsa_lib) (M : hlib_meets L g E) (fuel : nat).

Lemma p_call_heap F own env venv c : globals_at (look F own) g -> envs_at (look F own) env venv ->
  noisy F own (p_call L g fuel env c) (call_result F fuel (v_call E venv c)).
Proof.
  intros Hg He. destruct c; unfold v_call; cbn [p_call].
  - arg He. eapply b_call_quiet; [apply quiet_pure|]. intros own' oo ->. destruct (CheckWIF _); reflexivity.
  - arg He. arg He. eapply b_call_quiet; [eapply PrivateFromWIF_heap; eassumption|]. intros own' oo. apply priv_slot.
  - arg He. arg He. eapply b_call_quiet; [eapply PrivateFromHex_heap; eassumption|]. intros own' oo. apply priv_slot.
  - arg He. eapply b_call_noisy; [eapply GeneratePrivateKey_heap; eassumption|].
    intros own' d ll oo (-> & R). destruct oo as [a|e].
    + destruct R as (k & -> & Hk). left. eexists. split; [reflexivity|]. cbn. eapply new_priv_at, Hk.
    + destruct R as [->|(-> & R)]; [left; eexists; split; reflexivity|right; auto].
  - arg He. arg He. rewrite combine_add. eapply b_call_quiet; [eapply combine_heap; eassumption|].
    intros own' oo. apply priv_slot.
  - arg He. arg He. rewrite combine_mul. eapply b_call_quiet; [eapply combine_heap; eassumption|].
    intros own' oo. apply priv_slot.
  - arg He. arg He. eapply b_call_quiet; [eapply PublicFromHex_heap; eassumption|]. intros own' oo. apply pub_slot.
  - arg He. eapply b_call_quiet; [eapply GetPublicKey_heap; eassumption|]. intros own' oo.
    destruct oo as [[q|]|e], (GetPublicKey E _) as [[v|]|e']; cbn; try contradiction; auto. apply new_pub_at.
  - arg He. eapply b_call_quiet; [eapply Format_heap; eassumption|]. intros own' oo (-> & ->).
    destruct (Format _ _); reflexivity.
  - arg He. eapply b_call_quiet; [eapply Address_heap; eassumption|]. intros own' oo (-> & ->).
    destruct (Address _ _) as [[|]|]; reflexivity.
  - arg He. arg He. eapply b_call_quiet; [eapply AddPublicKeys_heap; eassumption|]. intros own' oo. apply pub_slot.
  - arg He. arg He. arg He. eapply b_call_noisy; [eapply NewSeedFromMnemonic_heap; eassumption|].
    intros own' d ll oo (-> & Ho). rewrite <- Ho. left. eexists. split; [reflexivity|].
    destruct oo as [[|]|]; reflexivity.
  - arg He. eapply b_call_noisy; [eapply NewMnemonic_heap; eassumption|].
    intros own' d ll oo (-> & Ho).
    destruct Ho as [(-> & ->)|Ho]; [left|right; exact Ho]. eexists. split; [reflexivity|].
    destruct (NewMnemonic _ _ _) as [[|]|]; reflexivity.
Qed.

Lemma envs_mono m n env venv : incl_map m n -> envs_at m env venv -> envs_at n env venv.
Proof. intros I H. induction H; constructor; [eapply slot_mono; eauto|assumption]. Qed.

Definition script_result (F : omap) (venv : list vslot) (cs : list call) (own' : omap) (d : list byte)
  (l : list gostring) (o : outcome (list pslot)) : Prop :=
  exists env', o = Ret env' /\
    ((fuel <= length d)%nat \/
     exists ds venv', d = concat ds /\ v_script E venv cs ds = Some (l, venv') /\
       envs_at (look F own') env' venv').

Lemma p_script_heap F cs : forall own env venv, globals_at (look F own) g -> envs_at (look F own) env venv ->
  noisy F own (p_script L g fuel env cs) (script_result F venv cs).
Proof.
  induction cs as [|c cs IH]; intros own env venv Hg He tr lg; cbn [p_script].
  - cbn. split; [apply keep_refl|]. exists [], []. rewrite !app_nil_r. do 2 (split; [reflexivity|]).
    exists env. split; [reflexivity|]. right. exists [], venv. auto.
  - eapply b_noisy; [apply p_call_heap; eassumption|]. intros own1 d l o K1 (r & -> & Hr).
    destruct Hr as [(w & Ew & Hr)|(-> & Hf)].
    + eapply behaves_mono; [|apply (IH own1 (env ++ [r]) (venv ++ [w]))].
      * cbn beta. intros own' tr' lg' o (K2 & d2 & l2 & -> & -> & env' & -> & Hs).
        split; [eapply keep_trans; eassumption|]. exists (d ++ d2), (l ++ l2). rewrite !app_assoc.
        do 2 (split; [reflexivity|]). exists env'. split; [reflexivity|].
        destruct Hs as [Hs|(ds & venv' & -> & Hv & Hs)]; [left; rewrite app_length; lia|right].
        exists (d :: ds), venv'. split; [reflexivity|]. split; [|exact Hs].
        cbn [v_script]. rewrite Ew, Hv. reflexivity.
      * eapply keep_globals; eassumption.
      * apply Forall2_app; [|constructor; [exact Hr|constructor]]. eapply envs_mono; [apply K1|exact He].
    + eapply behaves_mono; [|apply (IH own1 (env ++ [SPanic PFuel]) (venv ++ [SPanic PFuel]))].
      * cbn beta. intros own' tr' lg' o (K2 & d2 & l2 & -> & -> & env' & -> & Hs).
        split; [eapply keep_trans; eassumption|]. exists (d ++ d2), (l ++ l2). rewrite !app_assoc.
        do 2 (split; [reflexivity|]). exists env'. split; [reflexivity|]. left. rewrite app_length; lia.
      * eapply keep_globals; eassumption.
      * apply Forall2_app; [|constructor; [reflexivity|constructor]]. eapply envs_mono; [apply K1|exact He].
Qed.

End Calls.
