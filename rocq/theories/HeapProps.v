(** * Heap, history and scheduling lemmas behind PropertiesHeap.v *)

From Verif Require Import GoBase GoNum Base58 GoRand Model GenFacts Heap HeapSem HeapWp HeapRules HeapFacts HeapRand HeapCalls.
Local Open Scope Z_scope.

Lemma Forall2_len {X Y} (P : X -> Y -> Prop) l m : Forall2 P l m -> length l = length m.
Proof. induction 1; cbn; lia. Qed.

(** ** Sequential runs *)

Lemma holds_start h : holds h (lookup h) nothing.
Proof. split; [auto|]. split; [discriminate|]. intros a H. exfalso. apply H. reflexivity. Qed.

Lemma look_nothing F a : look F nothing a = F a.
Proof. reflexivity. Qed.

(** A program that satisfies a specification from the heap [h], run alone. *)
Lemma run_noisy {A} (p : prog A) h src R : noisy (lookup h) nothing p R ->
  exists h' src' l o own' d, run p h src = (h', src', l, o) /\ src = d ++ src' /\ R own' d l o /\
    preserves h h' /\ incl_map (look (lookup h) own') (lookup h').
Proof.
  intros H. destruct (run_sound p h (lookup h) nothing [] [] _ src (holds_start h) (H [] []))
    as (own' & d & h' & src' & l & o & Er & Hh & Es & K & d' & l' & Ed & El & HR).
  cbn in Ed, El. subst d' l'. exists h', src', l, o, own', d.
  split; [exact Er|]. split; [exact Es|]. split; [exact HR|].
  assert (I : incl_map (look (lookup h) own') (lookup h')) by (intros a x; apply holds_look, Hh).
  split; [|exact I]. intros a x Ha. apply I. apply K. exact Ha.
Qed.

Lemma run_quiet {A} (p : prog A) h src R : quiet (lookup h) nothing p R ->
  exists h' o own', run p h src = (h', src, [], o) /\ R own' o /\
    preserves h h' /\ incl_map (look (lookup h) own') (lookup h').
Proof.
  intros H. destruct (run_noisy p h src _ (quiet_noisy _ _ _ _ H))
    as (h' & src' & l & o & own' & d & Er & Es & (-> & -> & HR) & Pr & I).
  cbn in Es. subst src'. exists h', o, own'. auto.
Qed.

Section Lib.
Context (L : hlib) (g : globals) (E : ecdsa_lib) (M : hlib_meets L g E).

Lemma script_run fuel h src env venv cs : globals_at (lookup h) g -> envs_at (lookup h) env venv ->
  exists h' src' l env', run (p_script L g fuel env cs) h src = (h', src', l, Ret env') /\ preserves h h' /\
    ((length src < fuel)%nat -> exists ds venv', src = concat ds ++ src' /\
       v_script E venv cs ds = Some (l, venv') /\ envs_at (lookup h') env' venv').
Proof.
  intros Hg He.
  destruct (run_noisy _ h src _ (p_script_heap L g E M fuel (lookup h) cs nothing env venv Hg He))
    as (h' & src' & l & o & own' & d & Er & Es & (env' & -> & Hs) & Pr & I).
  exists h', src', l, env'. split; [exact Er|]. split; [exact Pr|]. intros Hf.
  destruct Hs as [Hs|(ds & venv' & -> & Hv & Hs)].
  - subst src. rewrite app_length in Hf. lia.
  - exists ds, venv'. do 2 (split; [assumption|]). eapply envs_mono; [exact I|exact Hs].
Qed.

Lemma script_preserves fuel h src env venv cs : globals_at (lookup h) g -> envs_at (lookup h) env venv ->
  exists h' src' l env', run (p_script L g fuel env cs) h src = (h', src', l, Ret env') /\ preserves h h'.
Proof.
  intros Hg He. destruct (script_run fuel h src env venv cs Hg He) as (h' & s' & l & env' & Hr & Hp & _). eauto 9.
Qed.
Lemma script_values fuel h src env venv cs : globals_at (lookup h) g -> envs_at (lookup h) env venv ->
  (length src < fuel)%nat ->
  exists h' src' l env' ds venv', run (p_script L g fuel env cs) h src = (h', src', l, Ret env') /\
    src = concat ds ++ src' /\ v_script E venv cs ds = Some (l, venv') /\ envs_at (lookup h') env' venv'.
Proof.
  intros Hg He Hf. destruct (script_run fuel h src env venv cs Hg He) as (h' & s' & l & env' & Hr & Hp & H).
  destruct (H Hf) as (ds & venv' & H'). exists h', s', l, env', ds, venv'. tauto.
Qed.

(** ** Histories *)

Lemma v_call_app venv more c d : in_scope (length venv) c -> v_call E (venv ++ more) c d = v_call E venv c d.
Proof.
  assert (Hn : forall i, (i < length venv)%nat -> nth_error (venv ++ more) i = nth_error venv i).
  { intros i Hi. apply nth_error_app1, Hi. }
  assert (Hs : forall s, in_scope_s (length venv) s -> get_str (venv ++ more) s = get_str venv s).
  { intros [s|i] Hi; [reflexivity|]. cbn in Hi |- *. rewrite Hn by exact Hi. reflexivity. }
  assert (H1 : forall i, (i < length venv)%nat -> get_net (venv ++ more) i = get_net venv i).
  { intros i Hi. unfold get_net. rewrite Hn by exact Hi. reflexivity. }
  assert (H2 : forall i, (i < length venv)%nat -> get_priv (venv ++ more) i = get_priv venv i).
  { intros i Hi. unfold get_priv. rewrite Hn by exact Hi. reflexivity. }
  assert (H3 : forall i, (i < length venv)%nat -> get_pub (venv ++ more) i = get_pub venv i).
  { intros i Hi. unfold get_pub. rewrite Hn by exact Hi. reflexivity. }
  assert (H4 : forall i, (i < length venv)%nat -> get_words (venv ++ more) i = get_words venv i).
  { intros i Hi. unfold get_words. rewrite Hn by exact Hi. reflexivity. }
  intros Hc. destruct c; cbn [in_scope] in Hc; unfold v_call;
    repeat match goal with H : _ /\ _ |- _ => destruct H end;
    rewrite ?Hs, ?H1, ?H2, ?H3, ?H4 by assumption; reflexivity.
Qed.

Lemma v_script_env venv cs ds l venv' : v_script E venv cs ds = Some (l, venv') ->
  exists more, venv' = venv ++ more /\ length more = length cs /\ length ds = length cs.
Proof.
  revert venv ds l venv'. induction cs as [|c cs IH]; intros venv [|d ds] l venv' H; try discriminate.
  - injection H as <- <-. exists []. rewrite app_nil_r. auto.
  - cbn in H. destruct (v_call E venv c d) as [[l1 r]|] eqn:Ec; [|discriminate].
    destruct (v_script E (venv ++ [r]) cs ds) as [[l2 v2]|] eqn:Es; [|discriminate]. injection H as <- <-.
    destruct (IH _ _ _ _ Es) as (more & -> & Hm & Hl).
    exists (r :: more). rewrite <- app_assoc. cbn. split; [reflexivity|lia].
Qed.

Lemma v_script_snoc venv cs c ds l venv' : v_script E venv (cs ++ [c]) ds = Some (l, venv') ->
  exists ds0 d l0 venv0 lc r, ds = ds0 ++ [d] /\ v_script E venv cs ds0 = Some (l0, venv0) /\
    v_call E venv0 c d = Some (lc, r) /\ l = l0 ++ lc /\ venv' = venv0 ++ [r].
Proof.
  revert venv ds l. induction cs as [|c' cs IH]; intros venv [|d' ds] l H; try discriminate; cbn in H.
  - destruct (v_call E venv c d') as [[l1 r1]|] eqn:Ec; [|discriminate]. destruct ds; [|discriminate].
    injection H as <- <-. exists [], d', [], venv, l1, r1. rewrite app_nil_r. cbn. auto.
  - destruct (v_call E venv c' d') as [[l1 r1]|] eqn:Ec; [|discriminate].
    destruct (v_script E (venv ++ [r1]) (cs ++ [c]) ds) as [[l2 v2]|] eqn:Es; [|discriminate]. injection H as <- <-.
    destruct (IH _ _ _ Es) as (ds0 & d & l0 & v0 & lc & r & -> & H0 & H1 & -> & ->).
    exists (d' :: ds0), d, (l1 ++ l0), v0, lc, r. cbn. rewrite Ec, H0, app_assoc. auto.
Qed.

(** Whatever was called before, a call on the initial objects gives what it
    gives at once. *)
Lemma last_call fuel h src env venv cs c h' src' l env' : globals_at (lookup h) g -> envs_at (lookup h) env venv ->
  in_scope (length env) c -> (length src < fuel)%nat ->
  run (p_script L g fuel env (cs ++ [c])) h src = (h', src', l, Ret env') ->
  exists earlier d before r lc v l0, src = earlier ++ d ++ src' /\ env' = before ++ [r] /\ l = l0 ++ lc /\
    v_call E venv c d = Some (lc, v) /\ slot_at (lookup h') r v.
Proof.
  intros Hg He Hc Hf Hr.
  destruct (script_run fuel h src env venv (cs ++ [c]) Hg He) as (h1 & s1 & l1 & e1 & Hr1 & Pr & H).
  rewrite Hr in Hr1. injection Hr1 as <- <- <- <-.
  destruct (H Hf) as (ds & venv' & Es & Hv & He').
  destruct (v_script_snoc _ _ _ _ _ _ Hv) as (ds0 & d & l0 & v0 & lc & rv & -> & H0 & H1 & -> & ->).
  destruct (v_script_env _ _ _ _ _ H0) as (more & -> & _).
  rewrite v_call_app in H1 by (rewrite <- (Forall2_len _ _ _ He); exact Hc).
  apply Forall2_app_inv_r in He' as (b1 & b2 & Hb1 & Hb2 & ->).
  inversion Hb2 as [|r y b3 b4 Hr1 Hb3]; subst. inversion Hb3; subst.
  exists (concat ds0), d, b1, r, lc, rv, l0. split; [rewrite concat_app; cbn; rewrite app_nil_r, <- app_assoc; reflexivity|].
  auto.
Qed.

(** Calls that read no random bytes. *)
Lemma v_call_plain venv c d x : reads_random c = false -> v_call E venv c d = Some x -> d = [].
Proof.
  intros Hc H. destruct d as [|b d]; [reflexivity|exfalso]. destruct c; try discriminate Hc; unfold v_call in H;
    repeat match type of H with
    | with_arg _ ?o _ = _ => destruct o; cbn [with_arg] in H; [|discriminate]
    end; try discriminate.
  destruct (NewSeedFromMnemonic _ _ _); discriminate.
Qed.
Lemma v_script_plain venv cs ds x : Forall (fun c => reads_random c = false) cs -> v_script E venv cs ds = Some x ->
  ds = map (fun _ => []) cs.
Proof.
  intros Hc. revert venv ds x. induction Hc as [|c cs Hc Hcs IH]; intros venv [|d ds] x H; try discriminate; [reflexivity|].
  cbn in H. destruct (v_call E venv c d) as [[l r]|] eqn:Ec; [|discriminate].
  destruct (v_script E (venv ++ [r]) cs ds) as [[l' v']|] eqn:Es; [|discriminate].
  cbn. rewrite (v_call_plain _ _ _ _ Hc Ec), (IH _ _ _ Es). reflexivity.
Qed.

(** Such a call gives the same value and logs the same lines after any calls. *)
Lemma last_call_same fuel h src1 src2 env venv cs c h1 h2 s1 s2 l1 l2 env1 env2 :
  globals_at (lookup h) g -> envs_at (lookup h) env venv ->
  in_scope (length env) c -> reads_random c = false -> (length src1 < fuel)%nat -> (length src2 < fuel)%nat ->
  run (p_script L g fuel env [c]) h src1 = (h1, s1, l1, Ret env1) ->
  run (p_script L g fuel env (cs ++ [c])) h src2 = (h2, s2, l2, Ret env2) ->
  exists r1 before r2 l0 v, env1 = env ++ [r1] /\ env2 = before ++ [r2] /\ l2 = l0 ++ l1 /\
    slot_at (lookup h1) r1 v /\ slot_at (lookup h2) r2 v.
Proof.
  intros Hg He Hc Hd Hf1 Hf2 Hr1 Hr2.
  destruct (last_call _ _ _ _ _ [] c _ _ _ _ Hg He Hc Hf1 Hr1) as (e1 & d1 & b1 & r1 & lc1 & v1 & l01 & _ & E1 & El1 & V1 & S1).
  destruct (last_call _ _ _ _ _ cs c _ _ _ _ Hg He Hc Hf2 Hr2) as (e2 & d2 & b2 & r2 & lc2 & v2 & l02 & _ & E2 & El2 & V2 & S2).
  pose proof (v_call_plain _ _ _ _ Hd V1). pose proof (v_call_plain _ _ _ _ Hd V2). subst d1 d2.
  rewrite V1 in V2. injection V2 as <- <-.
  destruct (script_run fuel h src1 env venv [c] Hg He) as (h3 & s3 & l3 & e3 & Hr3 & Pr & H).
  rewrite Hr1 in Hr3. injection Hr3 as <- <- <- <-. destruct (H Hf1) as (ds & venv' & _ & Hv & _).
  destruct ds as [|d ds]; [discriminate|]. cbn in Hv.
  destruct (v_call E venv c d) as [[la va]|] eqn:Va; [|discriminate]. pose proof (v_call_plain _ _ _ _ Hd Va). subst d.
  rewrite Va in V1. injection V1 as -> ->. destruct ds; [|discriminate]. injection Hv as <- _.
  exists r1, b2, r2, l02, v1. rewrite app_nil_r.
  assert (b1 = env); [|subst b1; auto].
  cbn [p_script] in Hr1. clear - Hr1 E1.
  apply (f_equal (fun x => snd x)) in Hr1. cbn [snd] in Hr1.
  assert (K : forall (p : prog pslot) h s, snd (run (do r <- p; PRet (env ++ [r])) h s) = Ret env1 ->
     exists r, env1 = env ++ [r]).
  { clear. induction p as [a|e|o k IH|a k IH|a o k IH|n k IH|s0 k IH]; intros h s H; cbn in H.
    - injection H as <-. eauto.
    - discriminate.
    - eapply IH, H.
    - destruct (lookup h a); [eapply IH, H|discriminate].
    - destruct (lookup h a); [eapply IH, H|discriminate].
    - destruct (n <=? length s)%nat; eapply IH, H.
    - specialize (IH h s). destruct (run (pbind k _) h s) as [[[h1 s1] l1] r1]. apply IH, H. }
  destruct (K _ _ _ Hr1) as (r & Er). rewrite Er in E1. apply app_inj_tail in E1. symmetry. apply E1.
Qed.

(** ** Schedules *)

Definition job_post (fuel : nat) (h : heap) (j : job) (venv : list vslot) : post (A := list pslot) :=
  fun own' tr' lg' o => keep (lookup h) nothing own' /\
    exists d l, tr' = [] ++ d /\ lg' = [] ++ l /\ script_result E fuel (lookup h) venv (snd j) own' d l o.

Lemma jobs_inv fuel h src jobs venvs : globals_at (lookup h) g -> jobs_ok h jobs venvs ->
  inv (lookup h) (jobs_start L g fuel h src jobs) (map (fun _ => nothing) (map (fun j => p_script L g fuel (fst j) (snd j)) jobs))
    (map (fun jv => job_post fuel h (fst jv) (snd jv)) (combine jobs venvs)).
Proof.
  intros Hg Hj. apply start_inv; [auto|].
  induction Hj as [|j venv jobs venvs Hv Hj IH]; cbn; [constructor|]. constructor; [|exact IH].
  apply (p_script_heap L g E M fuel (lookup h) (snd j) nothing (fst j) venv Hg Hv).
Qed.

Lemma jobs_steps fuel h src jobs venvs w : globals_at (lookup h) g -> jobs_ok h jobs venvs ->
  steps (jobs_start L g fuel h src jobs) w ->
  exists owns, inv (lookup h) w owns (map (fun jv => job_post fuel h (fst jv) (snd jv)) (combine jobs venvs)).
Proof. intros Hg Hj St. eapply steps_inv; [apply jobs_inv; eassumption|exact St]. Qed.

Lemma threads_length {A} (w w' : world A) : steps w w' -> length (wthreads w') = length (wthreads w).
Proof.
  induction 1 as [|w w' w'' St IH St1]; [reflexivity|]. rewrite <- IH. destruct St1. cbn.
  rewrite !app_length. reflexivity.
Qed.

Lemma drawn_le {A} h src (ps : list (prog A)) w i t : steps (start h src ps) w -> nth_error (wthreads w) i = Some t ->
  (length (drawn t) <= length src)%nat.
Proof.
  intros St Ht. apply drawn_bound in St. unfold start in St. cbn [wthreads wsource] in St.
  assert (Z0 : list_sum (map (fun t : thread A => length (drawn t)) (map (fun p => Thread p [] []) ps)) = 0%nat).
  { clear. induction ps; [reflexivity|]. cbn. assumption. }
  rewrite Z0 in St. apply nth_error_split in Ht as (l1 & l2 & Et & _). rewrite Et in St.
  rewrite map_app, list_sum_app in St. cbn [map list_sum fold_right] in St. lia.
Qed.

Lemma concurrent_results fuel h src jobs venvs w : globals_at (lookup h) g -> jobs_ok h jobs venvs ->
  (length src < fuel)%nat -> steps (jobs_start L g fuel h src jobs) w ->
  preserves h (wheap w) /\
  forall i t env cs venv, nth_error (wthreads w) i = Some t -> nth_error jobs i = Some (env, cs) ->
    nth_error venvs i = Some venv ->
    (forall e, code t <> PPanic e) /\
    (forall env', code t = PRet env' ->
       exists ds venv', drawn t = concat ds /\
         v_script E venv cs ds = Some (lines t, venv') /\ envs_at (lookup (wheap w)) env' venv').
Proof.
  intros Hg Hj Hf St. destruct (jobs_steps _ _ _ _ _ _ Hg Hj St) as (owns & Hi).
  split; [intros a o Ha; apply Hi, Ha|].
  intros i t env cs venv Ht Hjb Hve.
  assert (HQ : nth_error (map (fun jv => job_post fuel h (fst jv) (snd jv)) (combine jobs venvs)) i
               = Some (job_post fuel h (env, cs) venv)).
  { clear - Hjb Hve. revert i venvs Hjb Hve. induction jobs as [|j jobs IH]; intros [|i] [|v venvs] H1 H2; try discriminate.
    - cbn in *. congruence.
    - cbn in *. apply IH; assumption. }
  split.
  - intros e Ec. destruct (finished _ _ _ _ _ _ _ (Panic e) Hi Ht HQ Ec) as (own & _ & _ & d & l & _ & _ & env' & Eo & _).
    discriminate.
  - intros env' Ec. destruct (finished _ _ _ _ _ _ _ (Ret env') Hi Ht HQ Ec)
      as (own & Hh & _ & d & l & Ed & El & env'' & Eo & Hs).
    injection Eo as <-. cbn in Ed, El. subst d l.
    destruct Hs as [Hs|(ds & venv' & Hd & Hv & Hs)].
    + exfalso. pose proof (drawn_le _ _ _ _ _ _ St Ht). lia.
    + exists ds, venv'. do 2 (split; [assumption|]). eapply envs_mono; [|exact Hs].
      intros a x. apply holds_look, Hh.
Qed.

(** A goroutine that reads no random bytes ends with what it gives alone. *)
Lemma concurrent_alone fuel h src jobs venvs w : globals_at (lookup h) g -> jobs_ok h jobs venvs ->
  (length src < fuel)%nat -> steps (jobs_start L g fuel h src jobs) w ->
  forall i t env cs env', nth_error (wthreads w) i = Some t -> nth_error jobs i = Some (env, cs) ->
    Forall (fun c => reads_random c = false) cs -> code t = PRet env' ->
    exists h1 l1 env1 venv', run (p_script L g fuel env cs) h src = (h1, src, l1, Ret env1) /\
      lines t = l1 /\ envs_at (lookup h1) env1 venv' /\ envs_at (lookup (wheap w)) env' venv'.
Proof.
  intros Hg Hj Hf St i t env cs env' Ht Hjb Hc Ec.
  assert (exists venv, nth_error venvs i = Some venv /\ envs_at (lookup h) env venv) as (venv & Hve & He).
  { clear - Hj Hjb. revert i Hjb. induction Hj as [|j v jobs venvs Hv Hj IH]; intros [|i] H; try discriminate.
    - injection H as ->. exists v. split; [reflexivity|exact Hv].
    - apply IH, H. }
  destruct (concurrent_results _ _ _ _ _ _ Hg Hj Hf St) as (_ & H).
  destruct (H i t env cs venv Ht Hjb Hve) as (_ & H1). destruct (H1 env' Ec) as (ds & venv' & _ & Hv & Hs).
  destruct (script_run fuel h src env venv cs Hg He) as (h1 & s1 & l1 & env1 & Hr & _ & H2).
  destruct (H2 Hf) as (ds2 & venv2 & Es & Hv2 & Hs2).
  pose proof (v_script_plain _ _ _ _ Hc Hv). pose proof (v_script_plain _ _ _ _ Hc Hv2). subst ds ds2.
  rewrite Hv in Hv2. injection Hv2 as <- <-.
  assert (Ez : concat (map (fun _ : call => @nil byte) cs) = []) by (clear; induction cs; auto).
  rewrite Ez in Es. cbn in Es. subst s1. exists h1, (lines t), env1, venv'. auto.
Qed.

Lemma globals_stay fuel h src jobs venvs w : globals_at (lookup h) g -> jobs_ok h jobs venvs ->
  (length src < fuel)%nat -> steps (jobs_start L g fuel h src jobs) w -> globals_at (lookup (wheap w)) g.
Proof.
  intros Hg Hj Hf St. destruct (concurrent_results _ _ _ _ _ _ Hg Hj Hf St) as (P & _).
  unfold globals_at in *. repeat match goal with H : _ /\ _ |- _ => destruct H end. repeat split; apply P; assumption.
Qed.

Lemma concurrent_no_race fuel h src jobs venvs w : globals_at (lookup h) g -> jobs_ok h jobs venvs ->
  steps (jobs_start L g fuel h src jobs) w ->
  forall i j t u a b c, i <> j -> nth_error (wthreads w) i = Some t -> nth_error (wthreads w) j = Some u ->
  next_access (code t) = Some (a, b) -> next_access (code u) = Some (a, c) -> b = false /\ c = false.
Proof.
  intros Hg Hj St. destruct (jobs_steps _ _ _ _ _ _ Hg Hj St) as (owns & Hi).
  intros i j t u a b c. eapply no_race, Hi.
Qed.

(** Nobody writes what existed at the start. *)
Lemma concurrent_writes fuel h src jobs venvs w : globals_at (lookup h) g -> jobs_ok h jobs venvs ->
  steps (jobs_start L g fuel h src jobs) w ->
  forall i t a, nth_error (wthreads w) i = Some t -> next_access (code t) = Some (a, true) -> lookup h a = None.
Proof.
  intros Hg Hj St. destruct (jobs_steps _ _ _ _ _ _ Hg Hj St) as (owns & Hi).
  intros i t a Ht Na. destruct Hi as (HF & H3 & P).
  destruct (all3_nth _ _ _ _ _ _ _ H3 Ht) as (own & Q & Ho & _ & (_ & _ & D) & Gt).
  unfold good in Gt. destruct (code t); try discriminate. injection Na as ->. apply D, Gt.
Qed.

Lemma concurrent_progress fuel h src jobs venvs w : globals_at (lookup h) g -> jobs_ok h jobs venvs ->
  steps (jobs_start L g fuel h src jobs) w ->
  forall ts1 t ts2, wthreads w = ts1 ++ t :: ts2 ->
  (exists env, code t = PRet env) \/
  exists h' src' lg' t', tstep (wheap w) (wsource w) (wlog w) t h' src' lg' t'.
Proof.
  intros Hg Hj St ts1 t ts2 Et. destruct (jobs_steps _ _ _ _ _ _ Hg Hj St) as (owns & Hi).
  destruct (progress _ _ _ _ _ _ _ Hi Et) as [[He|(e & He)]|He]; [left; exact He| |right; exact He].
  exfalso. assert (Ht : nth_error (wthreads w) (length ts1) = Some t).
  { rewrite Et, nth_error_app2, Nat.sub_diag by lia. reflexivity. }
  destruct Hi as (HF & H3 & P). destruct (all3_nth _ _ _ _ _ _ _ H3 Ht) as (own & Q & _ & HQ & _ & Gt).
  unfold good in Gt. rewrite He in Gt. cbn in Gt. apply nth_error_In, in_map_iff in HQ as (jv & <- & _).
  destruct Gt as (_ & d & l & _ & _ & env' & Eo & _). discriminate.
Qed.

End Lib.

(** ** Every schedule ends *)

Section Ends.
Context {A : Type}.
Inductive next : prog A -> prog A -> Prop :=
| n_alloc o k a : next (k a) (PAlloc o k)
| n_read a k o : next (k o) (PRead a k)
| n_write a o k : next k (PWrite a o k)
| n_random n k r : next (k r) (PRandom n k)
| n_log s k : next k (PLogLine s k).
Lemma next_wf p : Acc next p.
Proof. induction p; constructor; intros q Hq; inversion Hq; subst; auto. Qed.

Inductive next_list : list (prog A) -> list (prog A) -> Prop :=
| nl ps1 p p' ps2 : next p' p -> next_list (ps1 ++ p' :: ps2) (ps1 ++ p :: ps2).

Lemma next_list_cons_wf p : Acc next p -> forall ps, Acc next_list ps -> Acc next_list (p :: ps).
Proof.
  intros Hp. induction Hp as [p _ IHp]. intros ps Hps. pose proof Hps as Hps0. induction Hps as [ps Hps IHps].
  constructor. intros qs Hq. inversion Hq as [ps1 x x' ps2 Hx E1 E2]. destruct ps1 as [|y ps1]; cbn in *.
  - injection E2 as -> ->. apply IHp; assumption.
  - injection E2 as -> <-. assert (next_list (ps1 ++ x' :: ps2) (ps1 ++ x :: ps2)) by (constructor; exact Hx).
    apply IHps; [assumption|]. apply Hps. assumption.
Qed.
Lemma next_list_wf ps : Acc next_list ps.
Proof.
  induction ps as [|p ps IH]; [|apply next_list_cons_wf; [apply next_wf|exact IH]].
  constructor. intros qs Hq. inversion Hq as [ps1 x x' ps2 Hx E1 E2]. destruct ps1; discriminate.
Qed.

Lemma step_next (w w' : world A) : step w w' -> next_list (map code (wthreads w')) (map code (wthreads w)).
Proof.
  intros St. destruct St as [h src lg ts1 t ts2 h' src' lg' t' Ts]. cbn. rewrite !map_app. cbn. constructor.
  destruct Ts; constructor.
Qed.

Lemma step_wf (w : world A) : Acc (fun w' w => step w w') w.
Proof.
  remember (map code (wthreads w)) as ps eqn:Ep. revert w Ep.
  induction (next_list_wf ps) as [ps _ IH]. intros w ->. constructor. intros w' St.
  eapply IH; [apply step_next, St|reflexivity].
Qed.

Lemma no_infinite_schedule (f : nat -> world A) : ~ (forall n, step (f n) (f (S n))).
Proof.
  intros H. assert (K : forall w, Acc (fun w' w => step w w') w -> forall n, f n = w -> False).
  { induction 1 as [w _ IH]. intros n <-. eapply IH; [apply H|reflexivity]. }
  exact (K _ (step_wf (f O)) O eq_refl).
Qed.
End Ends.

Lemma schedule_ends L g fuel h src jobs (f : nat -> world (list pslot)) :
  f O = jobs_start L g fuel h src jobs -> ~ (forall n, step (f n) (f (S n))).
Proof. intros _. apply no_infinite_schedule. Qed.

(** ** Random bytes and log lines are handed out one to one *)

Lemma merge_chunk {B} xs1 (x : list B) xs2 c l : merge (xs1 ++ x :: xs2) l -> merge (xs1 ++ (x ++ c) :: xs2) (l ++ c).
Proof.
  revert x l. induction c as [|b c IH]; intros x l H; [rewrite !app_nil_r; exact H|].
  replace (x ++ b :: c) with ((x ++ [b]) ++ c) by (rewrite <- app_assoc; reflexivity).
  replace (l ++ b :: c) with ((l ++ [b]) ++ c) by (rewrite <- app_assoc; reflexivity).
  apply IH. constructor. exact H.
Qed.

Lemma steps_merge {A} h src (ps : list (prog A)) w : steps (start h src ps) w ->
  (exists given, src = given ++ wsource w /\ merge (map drawn (wthreads w)) given) /\
  merge (map lines (wthreads w)) (wlog w).
Proof.
  intros St. remember (start h src ps) as w0 eqn:E0. induction St as [w|w w' w'' St IH St1].
  - subst w. cbn. split.
    + exists []. split; [reflexivity|]. constructor. apply Forall_forall. intros x Hx.
      apply in_map_iff in Hx as (t & <- & Ht). apply in_map_iff in Ht as (p & <- & _). reflexivity.
    + constructor. apply Forall_forall. intros x Hx.
      apply in_map_iff in Hx as (t & <- & Ht). apply in_map_iff in Ht as (p & <- & _). reflexivity.
  - destruct (IH E0) as ((given & Es & Hm) & Hl). clear IH.
    destruct St1 as [h1 src1 lg1 ts1 t ts2 h' src' lg' t' Ts]. cbn in *. rewrite !map_app in *. cbn in *.
    destruct Ts; cbn in *.
    + split; [exists given; auto|auto].
    + split; [exists given; auto|auto].
    + split; [exists given; auto|auto].
    + split; [|auto]. exists (given ++ bs). rewrite <- app_assoc. split; [exact Es|]. apply merge_chunk, Hm.
    + split; [|auto]. exists (given ++ src0). rewrite app_nil_r. split; [exact Es|]. apply merge_chunk, Hm.
    + split; [exists given; auto|]. apply merge_chunk, Hl.
Qed.

(** ** init *)

Lemma init_run h src : exists h' g, run init h src = (h', src, [], Ret g) /\ preserves h h' /\ globals_at (lookup h') g.
Proof.
  eexists _, _. split; [reflexivity|]. split.
  - intros a o Ha. repeat apply lookup_app. exact Ha.
  - unfold globals_at. cbn [gA gB gGx gGy gP gN gH gMain gTest].
    repeat split; repeat first [apply lookup_new | apply lookup_app].
Qed.
