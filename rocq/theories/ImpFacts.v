(** * Every run of the statements of [ImpModel.v] ends, as [Model.v] says *)

From Coq Require Import ZifyNat.
From Verif Require Import GoBase GoNum Sha256 GoRand Model Imp ImpModel Spec NumFacts MnemFacts MnemProps SeedFacts.
Local Open Scope Z_scope.
Local Open Scope cmd_scope.
Local Opaque sha256.

(** ** Rules *)

Lemma exec_then {S R} (a b : cmd S R) s s' e n m k : exec a s (Next s') n -> exec b s' e m -> k = (n + m)%nat ->
  exec (a ;; b) s e k.
Proof. intros Ha Hb ->. eapply exec_seq; eassumption. Qed.

(** Assignments and calls that go well. *)
Lemma exec_set_then {S R} (f : S -> S) (b : cmd S R) s e n : exec b (f s) e n -> exec (Set_ f ;; b) s e n.
Proof. intros H. apply (exec_then _ _ _ (f s) _ 0 n); [apply exec_set|exact H|reflexivity]. Qed.
Lemma exec_do_then {S R} f (b : cmd S R) s s' e n : f s = Ret s' -> exec b s' e n -> exec (Do f ;; b) s e n.
Proof. intros Hf H. apply (exec_then _ _ _ s' _ 0 n); [apply exec_do, Hf|exact H|reflexivity]. Qed.
Lemma exec_do_stop {S R} f (b : cmd S R) s p : f s = Panic p -> exec (Do f ;; b) s (Crashed s p) 0.
Proof. intros Hf. apply exec_seq_end; [apply exec_do_panic, Hf|discriminate]. Qed.
(** if c { return } *)
Lemma exec_guard_pass {S R} c (f : S -> R) (b : cmd S R) s e n : c s = false -> exec b s e n -> exec (If c (Return f) Skip ;; b) s e n.
Proof.
  intros Hc H. apply (exec_then _ _ _ s _ 0 n); [|exact H|reflexivity]. apply exec_if_false; [exact Hc|apply exec_skip].
Qed.
Lemma exec_guard_stop {S R} c (f : S -> R) (b : cmd S R) s : c s = true -> exec (If c (Return f) Skip ;; b) s (Returned s (f s)) 0.
Proof.
  intros Hc. apply exec_seq_end; [|discriminate]. apply exec_if_true; [exact Hc|apply exec_return].
Qed.

(** for len(x) < L { x = "0" + x } *)
Lemma pad_loop {S R} (get : S -> gostring) (set : gostring -> S -> S) (L : nat) :
  (forall v s, get (set v s) = v) -> (forall v w s, set v (set w s) = set v s) -> (forall s, set (get s) s = s) ->
  forall s, exec (For (fun s => len (get s) <? Z.of_nat L) (fun s => s) (Set_ (fun s => set (str "0" ++ get s) s)) : cmd S R)
                 s (Next (set (pad_left L (get s)) s)) (L - length (get s)).
Proof.
  intros G1 G2 G3 s. remember (L - length (get s))%nat as k eqn:Ek. revert s Ek.
  induction k as [|k IH]; intros s Ek.
  - unfold pad_left. rewrite <- Ek. cbn [repeat app]. rewrite G3. apply exec_for_done.
    apply Z.ltb_ge. unfold len. lia.
  - assert (pad_left L (get (set (str "0" ++ get s) s)) = pad_left L (get s)) as E.
    { unfold pad_left. rewrite G1, <- Ek. change (length (str "0" ++ get s)) with (Datatypes.S (length (get s))).
      replace (L - Datatypes.S (length (get s)))%nat with k by lia.
      change (repeat char0 (Datatypes.S k)) with (char0 :: repeat char0 k). rewrite repeat_cons, <- app_assoc. reflexivity. }
    apply (exec_for_more _ _ _ _ (set (str "0" ++ get s) s) _ 0 k).
    + apply Z.ltb_lt. unfold len. lia.
    + apply exec_do. reflexivity.
    + rewrite <- E, <- (G2 (pad_left L _) (str "0" ++ get s) s). apply IH. rewrite G1. cbn. lia.
Qed.

Local Ltac pad get set n := apply (pad_loop get set n); [intros; reflexivity|intros; reflexivity|intros []; reflexivity].

Lemma pad_left_length L s : length (pad_left L s) = Nat.max L (length s).
Proof. unfold pad_left. rewrite app_length, repeat_length. lia. Qed.

(** ** Format *)

Lemma Format_runs p c : exists e n, exec (Format_body p c) format_start e n /\
  observed (fun _ => []) e = Some ([], Format p c) /\ (n <= 128)%nat.
Proof.
  set (x := bigIntToHex (PX p)). set (y := bigIntToHex (PY p)).
  set (n := ((64 - length x) + (64 - length y))%nat).
  assert (forall e, exec (If (fun _ => negb c)
      (Set_ (fun s => f_set_key (f_key s ++ str "04") s) ;; Set_ (fun s => f_set_key (f_key s ++ f_pXHex s) s) ;;
       Set_ (fun s => f_set_key (f_key s ++ f_pYHex s) s))
      (Do (fun s => match PY p with Some y => Ret (f_set_odd (big_bit y 0) s) | None => Panic PNil end) ;;
       If (fun s => f_odd s =? 0) (Set_ (fun s => f_set_key (f_key s ++ str "02") s))
         (Set_ (fun s => f_set_key (f_key s ++ str "03") s)) ;;
       Set_ (fun s => f_set_key (f_key s ++ f_pXHex s) s)) ;; Return f_key) (FV [] (pad_left 64 x) (pad_left 64 y) 0) e 0 ->
    exec (Format_body p c) format_start e n) as K.
  { intros e H. unfold Format_body. do 3 apply exec_set_then.
    eapply exec_then; [pad f_pXHex f_set_pXHex 64%nat| |reflexivity].
    eapply exec_then; [pad f_pYHex f_set_pYHex 64%nat|exact H|]. unfold n, x, y. rewrite Nat.add_0_r. reflexivity. }
  assert (n <= 128)%nat as Hn by lia.
  destruct c; cbn [negb] in K.
  - destruct (PY p) as [py|] eqn:Ey.
    + eexists _, n. split; [|split; [|exact Hn]].
      * apply K. eapply exec_then with (n := 0%nat) (m := 0%nat); [|apply exec_return|reflexivity].
        apply exec_if_false; [reflexivity|]. eapply exec_do_then; [reflexivity|].
        eapply exec_then with (n := 0%nat) (m := 0%nat); [|apply exec_set|reflexivity].
        instantiate (1 := f_set_key (if big_bit py 0 =? 0 then str "02" else str "03") (FV [] (pad_left 64 x) (pad_left 64 y) (big_bit py 0))).
        destruct (big_bit py 0 =? 0) eqn:Eb; [apply exec_if_true|apply exec_if_false]; try exact Eb; apply exec_do; reflexivity.
      * cbn [observed f_key f_set_key f_pXHex]. unfold Format. cbv zeta. rewrite Ey. fold x. cbn [negb]. reflexivity.
    + eexists _, n. split; [|split; [|exact Hn]].
      * apply K. apply exec_seq_end; [apply exec_if_false; [reflexivity|]; apply exec_do_stop; reflexivity|discriminate].
      * cbn [observed]. unfold Format. cbv zeta. rewrite Ey. reflexivity.
  - eexists _, n. split; [|split; [|exact Hn]].
    + apply K. eapply exec_then with (n := 0%nat) (m := 0%nat); [|apply exec_return|reflexivity].
      apply exec_if_true; [reflexivity|]. do 2 apply exec_set_then. apply exec_set.
    + cbn [observed f_key f_set_key f_pXHex f_pYHex app]. unfold Format. cbv zeta. fold x y. cbn [negb]. reflexivity.
Qed.

(** ** NewSeedFromMnemonic *)

Lemma skipn_cons_nth {A} d (l : list A) x r : skipn d l = x :: r -> nth_error l d = Some x /\ skipn (Datatypes.S d) l = r /\ (d < length l)%nat.
Proof.
  revert l. induction d as [|d IH]; intros l H.
  - cbn in H. subst l. cbn. split; [reflexivity|split; [reflexivity|lia]].
  - destruct l as [|y l]; [discriminate|]. cbn [skipn] in H. destruct (IH l H) as (A1 & A2 & A3).
    cbn [nth_error length]. split; [exact A1|split; [exact A2|lia]].
Qed.
Lemma skipn_nil_ge {A} d (l : list A) : skipn d l = [] -> (length l <= d)%nat.
Proof. intros H. apply (f_equal (@length A)) in H. rewrite skipn_length in H. cbn in H. lia. Qed.

(** The search of lines 20-25. *)
Definition find_loop (words l : list gostring) : cmd seed_vars (result (option (list byte))) :=
  For (fun s => s_w s <? Z.of_nat (length l)) (fun s => s_set_w (s_w s + 1) s)
    (If (fun s => str_eqb (nth (Z.to_nat (s_k s)) words []) (nth (Z.to_nat (s_w s)) l []))
       (Set_ (fun s => s_set_index (s_w s) s) ;; Break)
       Skip).

Lemma find_loop_runs words l word : forall r d s, skipn d l = r -> s_w s = Z.of_nat d ->
  nth (Z.to_nat (s_k s)) words [] = word -> (d <= length l)%nat ->
  exists n, (n <= length r)%nat /\ exec (find_loop words l) s
    (Next match find_word word r (Z.of_nat d) with
          | Some i => s_set_index i (s_set_w i s)
          | None => s_set_w (Z.of_nat (length l)) s
          end) n.
Proof.
  induction r as [|v r IH]; intros d s Hr Hw Hk Hd.
  - apply skipn_nil_ge in Hr. exists 0%nat. split; [cbn; lia|]. cbn [find_word].
    assert (s_set_w (Z.of_nat (length l)) s = s) as E.
    { replace (Z.of_nat (length l)) with (s_w s) by lia. destruct s; reflexivity. }
    rewrite E. apply exec_for_done. apply Z.ltb_ge. lia.
  - destruct (skipn_cons_nth _ _ _ _ Hr) as (Hn & Hr' & Hlt). cbn [find_word].
    assert (nth (Z.to_nat (s_w s)) l [] = v) as Hv.
    { rewrite Hw, Nat2Z.id. apply nth_error_nth. exact Hn. }
    destruct (str_eqb word v) eqn:Ev.
    + exists 1%nat. split; [cbn; lia|].
      change (Next (s_set_index (Z.of_nat d) (s_set_w (Z.of_nat d) s)))
        with (@Next seed_vars (result (option (list byte))) (s_set_index (Z.of_nat d) (s_set_w (Z.of_nat d) s))).
      assert (s_set_index (Z.of_nat d) (s_set_w (Z.of_nat d) s) = s_set_index (s_w s) s) as ->.
      { rewrite <- Hw. destruct s; reflexivity. }
      apply (exec_for_break _ _ _ _ _ 0); [apply Z.ltb_lt; lia|].
      apply exec_if_true; [exact (eq_trans (f_equal2 str_eqb Hk Hv) Ev)|]. apply exec_set_then. apply exec_break.
    + destruct (IH (Datatypes.S d) (s_set_w (s_w s + 1) s)) as (n & Hle & Hx).
      * exact Hr'.
      * cbn. lia.
      * exact Hk.
      * lia.
      * exists (1 + 0 + n)%nat. split; [cbn; lia|].
        eapply exec_for_more; [apply Z.ltb_lt; lia| |].
        -- apply exec_if_false; [exact (eq_trans (f_equal2 str_eqb Hk Hv) Ev)|apply exec_skip].
        -- replace (Z.of_nat d + 1) with (Z.of_nat (Datatypes.S d)) by lia.
           destruct (find_word word r (Z.of_nat (Datatypes.S d))) as [i|]; exact Hx.
Qed.

Lemma find_word_nonneg word l k i : 0 <= k -> find_word word l k = Some i -> k <= i < k + Z.of_nat (length l).
Proof.
  revert k. induction l as [|v l IH]; intros k Hk H; cbn [find_word] in H; [discriminate|].
  destruct (str_eqb word v); [injection H as <-; cbn [length]; lia|]. apply IH in H; [cbn [length]; lia|lia].
Qed.

Lemma word_body_runs words l s word : nth (Z.to_nat (s_k s)) words [] = word ->
  exists n, (n <= length l + 11)%nat /\
  match find_word word l 0 with
  | None => exists s', exec (word_body words l) s (Returned s' (Err EInvalidMnemonic)) n /\ s_log s' = s_log s
  | Some i => exists s', exec (word_body words l) s (Next s') n /\
      s_binary s' = s_binary s ++ pad_left 11 (sprintf_b i) /\ s_k s' = s_k s /\ s_log s' = s_log s
  end.
Proof.
  intros Hk.
  destruct (find_loop_runs words l word l 0 (s_set_w 0 (s_set_index (-1) s)) eq_refl eq_refl Hk ltac:(lia)) as (n & Hn & Hx).
  change (Z.of_nat 0) with 0 in Hx. destruct (find_word word l 0) as [i|] eqn:E.
  - pose proof (find_word_nonneg _ _ _ _ (Z.le_refl 0) E) as Hi.
    exists (n + (11 - length (sprintf_b i)))%nat. split; [lia|].
    eexists. split; [|split; [|split]].
    + unfold word_body. do 2 apply exec_set_then. fold (find_loop words l).
      eapply exec_then; [exact Hx| |reflexivity].
      apply exec_guard_pass; [cbn; apply Z.ltb_ge; lia|]. apply exec_set_then.
      eapply exec_then; [pad s_indexBinary s_set_indexBinary 11%nat|apply exec_set|rewrite Nat.add_0_r; reflexivity].
    + reflexivity.
    + reflexivity.
    + reflexivity.
  - exists n. split; [lia|]. eexists. split.
    + unfold word_body. do 2 apply exec_set_then. fold (find_loop words l).
      eapply exec_then; [exact Hx| |symmetry; apply Nat.add_0_r].
      apply (exec_guard_stop (fun s => s_index s <? 0) (fun _ => Err EInvalidMnemonic)). reflexivity.
    + reflexivity.
Qed.

Definition words_loop (words l : list gostring) : cmd seed_vars (result (option (list byte))) :=
  For (fun s => s_k s <? Z.of_nat (length words)) (fun s => s_set_k (s_k s + 1) s) (word_body words l).

Lemma words_loop_runs words l : forall r d s, skipn d words = r -> s_k s = Z.of_nat d -> (d <= length words)%nat ->
  exists n, (n <= length r * (length l + 12))%nat /\
  match words_binary r l with
  | None => exists s', exec (words_loop words l) s (Returned s' (Err EInvalidMnemonic)) n /\ s_log s' = s_log s
  | Some b => exists s', exec (words_loop words l) s (Next s') n /\ s_binary s' = s_binary s ++ b /\ s_log s' = s_log s
  end.
Proof.
  induction r as [|w r IH]; intros d s Hr Hs Hd.
  - apply skipn_nil_ge in Hr. exists 0%nat. split; [lia|]. cbn [words_binary]. exists s.
    split; [apply exec_for_done, Z.ltb_ge; lia|]. rewrite app_nil_r. auto.
  - destruct (skipn_cons_nth _ _ _ _ Hr) as (Hn & Hr' & Hlt). cbn [words_binary length].
    assert (nth (Z.to_nat (s_k s)) words [] = w) as Hw.
    { rewrite Hs, Nat2Z.id. apply nth_error_nth. exact Hn. }
    destruct (word_body_runs words l s w Hw) as (n & Hle & Hb). destruct (find_word w l 0) as [i|] eqn:E.
    + destruct Hb as (s' & Hx & B1 & B2 & B3).
      destruct (IH (Datatypes.S d) (s_set_k (s_k s' + 1) s') Hr') as (m & Hm & Hl); [cbn; lia|lia|].
      exists (1 + n + m)%nat. split; [lia|]. destruct (words_binary r l) as [rest|].
      * destruct Hl as (s2 & Hx2 & C1 & C2). exists s2. split; [|split].
        -- eapply exec_for_more; [apply Z.ltb_lt; lia|exact Hx|exact Hx2].
        -- rewrite C1. cbn. rewrite B1, app_assoc. reflexivity.
        -- rewrite C2. exact B3.
      * destruct Hl as (s2 & Hx2 & C2). exists s2. split.
        -- eapply exec_for_more; [apply Z.ltb_lt; lia|exact Hx|exact Hx2].
        -- rewrite C2. exact B3.
    + destruct Hb as (s' & Hx & B). exists (1 + n)%nat. split; [lia|]. exists s'. split; [|exact B].
      eapply exec_for_return; [apply Z.ltb_lt; lia|exact Hx].
Qed.

(** Lines 41-43: up to four characters from position i. *)
Definition four_loop : cmd seed_vars (result (option (list byte))) :=
  For (fun s => s_j s - s_i s <? 4) (fun s => s_set_j (s_j s + 1) s)
    (Do (fun s => let* c := index (s_binary s) (s_j s) in Ret (s_set_n (s_n s ++ [c]) s))).

Lemma four_loop_end s : 4 <= s_j s - s_i s -> exec four_loop s (Next s) 0.
Proof. intros H. apply exec_for_done, Z.ltb_ge, H. Qed.
Lemma four_loop_step s c e n : s_j s - s_i s < 4 -> index (s_binary s) (s_j s) = Ret c ->
  exec four_loop (s_set_j (s_j s + 1) (s_set_n (s_n s ++ [c]) s)) e n -> exec four_loop s e (1 + 0 + n).
Proof.
  intros H Hc Hx. eapply exec_for_more; [apply Z.ltb_lt, H| |exact Hx].
  apply exec_do. rewrite Hc. reflexivity.
Qed.
Lemma four_loop_crash s : s_j s - s_i s < 4 -> index (s_binary s) (s_j s) = Panic PIndex ->
  exec four_loop s (Crashed s PIndex) (1 + 0).
Proof.
  intros H Hc. eapply exec_for_crash; [apply Z.ltb_lt, H|].
  apply exec_do_panic. rewrite Hc. reflexivity.
Qed.

Lemma nth_error_skipn_add {A} d (l : list A) k : nth_error (skipn d l) k = nth_error l (d + k).
Proof. revert l. induction d as [|d IH]; intros l; [reflexivity|]. destruct l as [|x l]; [destruct k; reflexivity|]. apply IH. Qed.
Lemma index_skipn {A} d (l : list A) x r k : skipn d l = r -> nth_error r k = Some x -> index l (Z.of_nat d + Z.of_nat k) = Ret x.
Proof.
  intros <- H. unfold index. destruct (Z.leb_spec 0 (Z.of_nat d + Z.of_nat k)); [|lia].
  replace (Z.to_nat (Z.of_nat d + Z.of_nat k)) with (d + k)%nat by lia.
  rewrite nth_error_skipn_add in H. rewrite H. reflexivity.
Qed.

Lemma index_past {A} d (l : list A) r k : skipn d l = r -> (length r <= k)%nat -> index l (Z.of_nat d + Z.of_nat k) = Panic PIndex.
Proof.
  intros <- H. unfold index. destruct (Z.leb_spec 0 (Z.of_nat d + Z.of_nat k)); [|lia].
  replace (Z.to_nat (Z.of_nat d + Z.of_nat k)) with (d + k)%nat by lia.
  rewrite skipn_length in H. rewrite (proj2 (nth_error_None l (d + k))); [reflexivity|lia].
Qed.

Definition group_loop : cmd seed_vars (result (option (list byte))) :=
  For (fun s => s_i s <? len (s_binary s)) (fun s => s_set_i (s_i s + 4) s) group_body.

(** The state inside lines 40-43 after [t] has been read. *)
Definition reading (t : gostring) (s : seed_vars) : seed_vars := s_set_n t (s_set_j (s_i s + Z.of_nat (length t)) s).

Lemma reading_step s t c e n : (length t < 4)%nat -> index (s_binary s) (s_i s + Z.of_nat (length t)) = Ret c ->
  exec four_loop (reading (t ++ [c]) s) e n -> exec four_loop (reading t s) e (1 + 0 + n).
Proof.
  intros L Hc Hx. apply four_loop_step with (c := c).
  - cbn. lia.
  - exact Hc.
  - assert (s_set_j (s_j (reading t s) + 1) (s_set_n (s_n (reading t s) ++ [c]) (reading t s)) = reading (t ++ [c]) s) as ->.
    { unfold reading. rewrite app_length. replace (s_i s + Z.of_nat (length t + length [c])) with (s_i s + Z.of_nat (length t) + 1)
        by (cbn [length]; lia). reflexivity. }
    exact Hx.
Qed.
Lemma reading_crash s t : (length t < 4)%nat -> index (s_binary s) (s_i s + Z.of_nat (length t)) = Panic PIndex ->
  exec four_loop (reading t s) (Crashed (reading t s) PIndex) (1 + 0).
Proof. intros L Hc. apply four_loop_crash; [cbn; lia|exact Hc]. Qed.
Lemma reading_end s t : length t = 4%nat -> exec four_loop (reading t s) (Next (reading t s)) 0.
Proof. intros L. apply four_loop_end. cbn. lia. Qed.

Lemma group_crash s e n : exec four_loop (reading [] s) e n -> (forall s', e <> Next s') -> exec group_body s e n.
Proof.
  intros H He. unfold group_body. do 2 apply exec_set_then. apply exec_seq_end; [|exact He].
  replace (s_set_j (s_i (s_set_n [] s)) (s_set_n [] s)) with (reading [] s); [exact H|].
  unfold reading. cbn [length]. change (Z.of_nat 0) with 0. rewrite Z.add_0_r. reflexivity.
Qed.
Lemma group_next s t n : exec four_loop (reading [] s) (Next (reading t s)) n ->
  exec group_body s (Next (s_set_hash (s_hash s ++ bigIntToHex (set_string2 t)) (s_set_log (s_log s ++ [t]) (reading t s)))) n.
Proof.
  intros H. unfold group_body. do 2 apply exec_set_then.
  apply (exec_then _ _ _ (reading t s) _ n 0); [|apply exec_set_then; apply exec_do; reflexivity|lia].
  replace (s_set_j (s_i (s_set_n [] s)) (s_set_n [] s)) with (reading [] s); [exact H|].
  unfold reading. cbn [length]. change (Z.of_nat 0) with 0. rewrite Z.add_0_r. reflexivity.
Qed.

Lemma group_loop_runs B : forall d s, skipn d (s_binary s) = B -> s_i s = Z.of_nat d ->
  exists n, (n <= 5 * ((length B + 3) / 4))%nat /\
  match snd (nibbles B) with
  | Ret h => exists s', exec group_loop s (Next s') n /\ s_hash s' = s_hash s ++ h /\ s_log s' = s_log s ++ fst (nibbles B)
  | Panic p => exists s', exec group_loop s (Crashed s' p) n /\ s_log s' = s_log s ++ fst (nibbles B)
  end.
Proof.
  induction B as [B HL|a b c e B IH] using list_quad_ind; intros d s HB Hi.
  - destruct B as [|a [|b [|c [|? ?]]]]; [| | | |exfalso; cbn in HL; lia]; clear HL.
    + exists 0%nat. split; [cbn; lia|]. cbn [nibbles snd fst]. apply skipn_nil_ge in HB. exists s. rewrite !app_nil_r.
      split; [|auto]. apply exec_for_done, Z.ltb_ge. unfold len. lia.
    + exists 3%nat. split; [cbn; lia|]. cbn [nibbles snd fst]. exists (reading [a] s). rewrite app_nil_r. split; [|reflexivity].
      eapply (exec_for_crash _ _ _ _ _ _ 2).
      * destruct (skipn_cons_nth _ _ _ _ HB) as (_ & _ & L). apply Z.ltb_lt. unfold len. lia.
      * apply group_crash; [|discriminate].
        apply (reading_step s [] a _ 1); [cbn; lia|rewrite Hi; exact (index_skipn d _ a _ 0 HB eq_refl)|].
        apply (reading_crash s [a]); [cbn; lia|rewrite Hi; exact (index_past d _ _ 1 HB (le_n _))].
    + exists 4%nat. split; [cbn; lia|]. cbn [nibbles snd fst]. exists (reading [a; b] s). rewrite app_nil_r. split; [|reflexivity].
      eapply (exec_for_crash _ _ _ _ _ _ 3).
      * destruct (skipn_cons_nth _ _ _ _ HB) as (_ & _ & L). apply Z.ltb_lt. unfold len. lia.
      * apply group_crash; [|discriminate].
        apply (reading_step s [] a _ 2); [cbn; lia|rewrite Hi; exact (index_skipn d _ a _ 0 HB eq_refl)|].
        apply (reading_step s [a] b _ 1); [cbn; lia|rewrite Hi; exact (index_skipn d _ b _ 1 HB eq_refl)|].
        apply (reading_crash s [a; b]); [cbn; lia|rewrite Hi; exact (index_past d _ _ 2 HB (le_n _))].
    + exists 5%nat. split; [cbn; lia|]. cbn [nibbles snd fst]. exists (reading [a; b; c] s). rewrite app_nil_r. split; [|reflexivity].
      eapply (exec_for_crash _ _ _ _ _ _ 4).
      * destruct (skipn_cons_nth _ _ _ _ HB) as (_ & _ & L). apply Z.ltb_lt. unfold len. lia.
      * apply group_crash; [|discriminate].
        apply (reading_step s [] a _ 3); [cbn; lia|rewrite Hi; exact (index_skipn d _ a _ 0 HB eq_refl)|].
        apply (reading_step s [a] b _ 2); [cbn; lia|rewrite Hi; exact (index_skipn d _ b _ 1 HB eq_refl)|].
        apply (reading_step s [a; b] c _ 1); [cbn; lia|rewrite Hi; exact (index_skipn d _ c _ 2 HB eq_refl)|].
        apply (reading_crash s [a; b; c]); [cbn; lia|rewrite Hi; exact (index_past d _ _ 3 HB (le_n _))].
  - set (t := [a; b; c; e]). set (s1 := s_set_hash (s_hash s ++ bigIntToHex (set_string2 t)) (s_set_log (s_log s ++ [t]) (reading t s))).
    assert (exec group_body s (Next s1) 4) as Hb.
    { apply group_next.
      apply (reading_step s [] a _ 3); [cbn; lia|rewrite Hi; exact (index_skipn d _ a _ 0 HB eq_refl)|].
      apply (reading_step s [a] b _ 2); [cbn; lia|rewrite Hi; exact (index_skipn d _ b _ 1 HB eq_refl)|].
      apply (reading_step s [a; b] c _ 1); [cbn; lia|rewrite Hi; exact (index_skipn d _ c _ 2 HB eq_refl)|].
      apply (reading_step s [a; b; c] e _ 0); [cbn; lia|rewrite Hi; exact (index_skipn d _ e _ 3 HB eq_refl)|].
      apply reading_end. reflexivity. }
    destruct (IH (4 + d)%nat (s_set_i (s_i s1 + 4) s1)) as (n & Hn & Hx).
    { change (s_binary (s_set_i (s_i s1 + 4) s1)) with (s_binary s).
      apply skipn_cons_nth in HB as (_ & HB & _). apply skipn_cons_nth in HB as (_ & HB & _).
      apply skipn_cons_nth in HB as (_ & HB & _). apply skipn_cons_nth in HB as (_ & HB & _). exact HB. }
    { change (s_i (s_set_i (s_i s1 + 4) s1)) with (s_i s + 4). lia. }
    exists (1 + 4 + n)%nat. split.
    { cbn [length]. replace (Datatypes.S (Datatypes.S (Datatypes.S (Datatypes.S (length B)))) + 3)%nat with (1 * 4 + (length B + 3))%nat by lia.
      rewrite Nat.div_add_l by lia. lia. }
    assert (s_i s < len (s_binary s)) as Hlt.
    { destruct (skipn_cons_nth _ _ _ _ HB) as (_ & _ & L). unfold len. lia. }
    cbn [nibbles]. destruct (nibbles B) as [lg r]. cbn [snd fst] in *. destruct r as [h|p]; cbn [bind].
    + destruct Hx as (s' & Hx & H1 & H2). exists s'. split; [|split].
      * eapply exec_for_more; [apply Z.ltb_lt; exact Hlt|exact Hb|exact Hx].
      * rewrite H1. change (s_hash (s_set_i (s_i s1 + 4) s1)) with (s_hash s ++ bigIntToHex (set_string2 t)). symmetry. apply app_assoc.
      * rewrite H2. change (s_log (s_set_i (s_i s1 + 4) s1)) with (s_log s ++ [t]). rewrite <- app_assoc. reflexivity.
    + destruct Hx as (s' & Hx & H2). exists s'. split.
      * eapply exec_for_more; [apply Z.ltb_lt; exact Hlt|exact Hb|exact Hx].
      * rewrite H2. change (s_log (s_set_i (s_i s1 + 4) s1)) with (s_log s ++ [t]). rewrite <- app_assoc. reflexivity.
Qed.

(** Lines 50-73, as a function of the hash text. *)
Definition finish (hash : gostring) : list gostring * outcome (result (option (list byte))) :=
  match slice hash (len hash - 2) (len hash) with
  | Panic p => ([], Panic p)
  | Ret checksum =>
      match slice hash 0 (len hash - 2) with
      | Panic p => ([], Panic p)
      | Ret body =>
          match hex_decode body with
          | Err e => ([], Ret (Err e))
          | Ok decoded =>
              let shaHashHex := pad_left 64 (bigIntToHex (Some (set_bytes (sha256 decoded)))) in
              match slice shaHashHex 0 2 with
              | Panic p => ([], Panic p)
              | Ret h2 =>
                  if negb (str_eqb h2 checksum) then ([], Ret (Err EInvalidChecksum))
                  else ([shaHashHex ++ space :: sprintf_d (len shaHashHex); hash ++ space :: checksum], Ret (Ok None))
              end
          end
      end
  end.

Lemma check_runs s : exists e n, exec check_body s e n /\ (n <= 64)%nat /\
  observed s_log e = Some (s_log s ++ fst (finish (s_hash s)), snd (finish (s_hash s))).
Proof.
  unfold finish, check_body.
  destruct (slice (s_hash s) (len (s_hash s) - 2) (len (s_hash s))) as [checksum|p] eqn:E1.
  2: { eexists _, 0%nat. split; [apply exec_do_stop; rewrite E1; reflexivity|]. split; [lia|]. cbn. rewrite app_nil_r. reflexivity. }
  destruct (slice (s_hash s) 0 (len (s_hash s) - 2)) as [body|p] eqn:E2.
  2: { eexists _, 0%nat. split; [|split; [lia|]].
       - eapply exec_do_then; [rewrite E1; reflexivity|]. apply exec_do_stop.
         change (s_hash (s_set_checksum checksum s)) with (s_hash s). rewrite E2. reflexivity.
       - cbn. rewrite app_nil_r. reflexivity. }
  set (s2 := s_set_decoded (hex_decode body) (s_set_checksum checksum s)).
  assert (forall b e n, exec b s2 e n -> exec
     (Do (fun s => let* c := slice (s_hash s) (len (s_hash s) - 2) (len (s_hash s)) in Ret (s_set_checksum c s)) ;;
      Do (fun s => let* h := slice (s_hash s) 0 (len (s_hash s) - 2) in Ret (s_set_decoded (hex_decode h) s)) ;; b : cmd _ (result (option (list byte)))) s e n) as K.
  { intros b e n H. eapply exec_do_then; [rewrite E1; reflexivity|]. eapply exec_do_then; [|exact H].
    change (s_hash (s_set_checksum checksum s)) with (s_hash s). rewrite E2. reflexivity. }
  destruct (hex_decode body) as [decoded|e] eqn:E3.
  2: { eexists _, 0%nat. split; [apply K|].
       - apply (exec_guard_stop _ (fun s => match s_decoded s with Err e => Err e | Ok _ => Ok None end)). reflexivity.
       - split; [lia|]. cbn. rewrite app_nil_r. reflexivity. }
  set (x := bigIntToHex (Some (set_bytes (sha256 decoded)))).
  set (s3 := s_set_shaHashHex (pad_left 64 x) s2).
  assert (forall b e, exec b s3 e 0 -> exec
     (If (fun s => match s_decoded s with Err _ => true | Ok _ => false end)
        (Return (fun s => match s_decoded s with Err e => Err e | Ok _ => Ok None end)) Skip ;;
      Set_ (fun s => match s_decoded s with
                 | Ok d => s_set_shaHashHex (bigIntToHex (Some (set_bytes (sha256 d)))) s
                 | Err _ => s end) ;;
      For (fun s => len (s_shaHashHex s) <? 64) (fun s => s)
        (Set_ (fun s => s_set_shaHashHex (str "0" ++ s_shaHashHex s) s)) ;; b : cmd _ (result (option (list byte)))) s2 e (64 - length x)) as K2.
  { intros b e H. apply exec_guard_pass; [reflexivity|]. apply exec_set_then.
    eapply exec_then; [pad s_shaHashHex s_set_shaHashHex 64%nat|exact H|rewrite Nat.add_0_r; reflexivity]. }
  cbv zeta. destruct (slice (pad_left 64 x) 0 2) as [h2|p] eqn:E4.
  2: { eexists _, (64 - length x)%nat. split; [|split; [lia|]].
       - apply K, K2. apply exec_do_stop. change (s_shaHashHex s3) with (pad_left 64 x). rewrite E4. reflexivity.
       - cbn. rewrite app_nil_r. reflexivity. }
  destruct (negb (str_eqb h2 checksum)) eqn:E5.
  - eexists _, (64 - length x)%nat. split; [|split; [lia|]].
    + apply K, K2. eapply exec_do_then; [change (s_shaHashHex s3) with (pad_left 64 x); rewrite E4; reflexivity|].
      apply (exec_guard_stop _ (fun _ => Err EInvalidChecksum)). exact E5.
    + cbn. rewrite app_nil_r. reflexivity.
  - eexists _, (64 - length x)%nat. split; [|split; [lia|]].
    + apply K, K2. eapply exec_do_then; [change (s_shaHashHex s3) with (pad_left 64 x); rewrite E4; reflexivity|].
      apply exec_guard_pass; [exact E5|]. do 2 apply exec_set_then. apply exec_return.
    + cbn [observed s_log s_set_log s_shaHashHex s_hash s_checksum s_set_head s_set_shaHashHex s_set_decoded s_set_checksum s2 s3 fst snd].
      rewrite <- app_assoc. reflexivity.
Qed.

Lemma NewSeed_finish m p l : NewSeedFromMnemonic m p l =
  match words_binary (split_space m) (words_of l) with
  | None => ([], Ret (Err EInvalidMnemonic))
  | Some b => match snd (nibbles b) with
              | Panic q => (fst (nibbles b), Panic q)
              | Ret h => (fst (nibbles b) ++ fst (finish h), snd (finish h))
              end
  end.
Proof.
  unfold NewSeedFromMnemonic. cbv zeta. destruct (words_binary _ _) as [b|]; [|reflexivity].
  destruct (nibbles b) as [lg [h|q]]; cbn [fst snd]; [|reflexivity]. unfold finish.
  destruct (slice h (len h - 2) (len h)); [|rewrite app_nil_r; reflexivity].
  destruct (slice h 0 (len h - 2)); [|rewrite app_nil_r; reflexivity].
  destruct (hex_decode _); [|rewrite app_nil_r; reflexivity]. cbv zeta.
  destruct (slice _ 0 2); [|rewrite app_nil_r; reflexivity].
  destruct (negb _); [rewrite app_nil_r|]; reflexivity.
Qed.

(** The digits one word contributes. *)
Lemma words_binary_length ws l b : words_binary ws l = Some b -> (length l <= 2048)%nat -> length b = (11 * length ws)%nat.
Proof.
  revert b. induction ws as [|w ws IH]; intros b H Hl; cbn [words_binary] in H.
  - injection H as <-. reflexivity.
  - destruct (find_word w l 0) as [i|] eqn:E; [|discriminate]. destruct (words_binary ws l) as [r|]; [|discriminate].
    injection H as <-. apply find_word_nonneg in E; [|lia].
    assert (length (pad_left 11 (sprintf_b i)) = 11%nat) as L.
    { replace i with (Z.of_nat (Z.to_nat i)) by lia. rewrite pad11_index by lia. rewrite map_length. apply index_bits_length. }
    rewrite app_length, L, (IH r eq_refl Hl). cbn [length]. lia.
Qed.

Lemma NewSeed_runs m p l : exists e n, exec (NewSeedFromMnemonic_body m p l) seed_start e n /\
  observed s_log e = Some (NewSeedFromMnemonic m p l) /\
  ((length (words_of l) <= 2048)%nat -> (n <= length (split_space m) * (length (words_of l) + 26) + 69)%nat).
Proof.
  rewrite NewSeed_finish. unfold NewSeedFromMnemonic_body. cbv zeta.
  set (words := split_space m). set (L := words_of l).
  destruct (words_loop_runs words L words 0 (s_set_k 0 (s_set_binary [] seed_start)) eq_refl eq_refl ltac:(lia)) as (n1 & B1 & H1).
  destruct (words_binary words L) as [b|] eqn:Eb.
  2: { destruct H1 as (s' & X1 & L1). eexists _, n1. split; [|split].
       - do 2 apply exec_set_then. apply exec_seq_end; [exact X1|discriminate].
       - cbn. rewrite L1. reflexivity.
       - intros _. nia. }
  destruct H1 as (s1 & X1 & C1 & L1). cbn in C1, L1.
  destruct (group_loop_runs b 0 (s_set_i 0 (s_set_hash [] s1)) C1 eq_refl) as (n2 & B2 & H2).
  destruct (snd (nibbles b)) as [h|q] eqn:En.
  - destruct H2 as (s2 & X2 & C2 & L2). cbn in C2, L2. rewrite L1 in L2. cbn in L2.
    destruct (check_runs s2) as (e & n3 & X3 & B3 & O3). exists e, (n1 + (n2 + n3))%nat. split; [|split].
    + do 2 apply exec_set_then. eapply exec_then; [exact X1| |reflexivity]. do 2 apply exec_set_then.
      eapply exec_then; [exact X2|exact X3|reflexivity].
    + rewrite O3, C2, L2. reflexivity.
    + intros Hl. pose proof (words_binary_length _ _ _ Eb Hl) as Lb. rewrite Lb in B2.
      assert ((11 * length words + 3) / 4 * 4 <= 11 * length words + 3)%nat by (rewrite Nat.mul_comm; apply Nat.mul_div_le; lia).
      nia.
  - destruct H2 as (s2 & X2 & L2). cbn in L2. rewrite L1 in L2. cbn in L2. eexists _, (n1 + n2)%nat. split; [|split].
    + do 2 apply exec_set_then. eapply exec_then; [exact X1| |reflexivity]. do 2 apply exec_set_then.
      apply exec_seq_end; [exact X2|discriminate].
    + cbn. rewrite L2. reflexivity.
    + intros Hl. pose proof (words_binary_length _ _ _ Eb Hl) as Lb. rewrite Lb in B2.
      assert ((11 * length words + 3) / 4 * 4 <= 11 * length words + 3)%nat by (rewrite Nat.mul_comm; apply Nat.mul_div_le; lia).
      nia.
Qed.

(** ** NewMnemonic *)

Definition eleven_loop : cmd mnemonic_vars (result gostring) :=
  For (fun s => m_j s - m_i s <? 11) (fun s => m_set_j (m_j s + 1) s)
    (Do (fun s => match m_binary s with
                  | None => Panic PNil
                  | Some b => Ret (m_set_str (m_str s ++ [if big_bit b (m_j s) =? 0 then char0 else char1]) s)
                  end)).

Definition bit_char (b i : Z) (k : nat) : byte := if big_bit b (i + Z.of_nat k) =? 0 then char0 else char1.

(** The state inside lines 134-141 after [k] characters. *)
Definition writing (b : Z) (k : nat) (s : mnemonic_vars) : mnemonic_vars :=
  m_set_j (m_i s + Z.of_nat k) (m_set_str (map (bit_char b (m_i s)) (seq 0 k)) s).

Lemma eleven_runs b s : m_binary s = Some b -> forall r k, (k + r = 11)%nat ->
  exec eleven_loop (writing b k s) (Next (writing b 11 s)) r.
Proof.
  intros Hb. induction r as [|r IH]; intros k Hk.
  - replace k with 11%nat by lia. apply exec_for_done. apply Z.ltb_ge. cbn [writing m_j m_i m_set_j m_set_str]. lia.
  - apply (exec_for_more _ _ _ _ (m_set_str (m_str (writing b k s) ++ [bit_char b (m_i s) k]) (writing b k s)) _ 0 r).
    + apply Z.ltb_lt. cbn [writing m_j m_i m_set_j m_set_str]. lia.
    + apply exec_do. change (m_binary (writing b k s)) with (m_binary s). rewrite Hb. reflexivity.
    + specialize (IH (Datatypes.S k) ltac:(lia)).
      assert (writing b (Datatypes.S k) s = m_set_j (m_j (writing b k s) + 1)
        (m_set_str (m_str (writing b k s) ++ [bit_char b (m_i s) k]) (writing b k s))) as E.
      { unfold writing. rewrite seq_S, map_app. cbn [m_j m_i m_set_j m_set_str m_str map Nat.add].
        replace (m_i s + Z.of_nat (Datatypes.S k)) with (m_i s + Z.of_nat k + 1) by lia. reflexivity. }
      rewrite E in IH. exact IH.
Qed.

Lemma writing_str b s : m_str (writing b 11 s) = bit_chars b (m_i s).
Proof. reflexivity. Qed.

Definition bits_loop (l : list gostring) : cmd mnemonic_vars (result gostring) :=
  For (fun s => m_i s <? len (m_b s)) (fun s => m_set_i (m_i s + 11) s) (bits_body l).

Lemma bits_loop_runs l b : forall g s, m_binary s = Some b -> len (m_b s) <= m_i s + 11 * Z.of_nat g ->
  m_i s + 11 * Z.of_nat g < len (m_b s) + 11 ->
  exists n, (n <= 12 * g)%nat /\
  match phrase_loop g (m_i s) b l with
  | Ret ws => exists s', exec (bits_loop l) s (Next s') n /\ m_phrase s' = m_phrase s ++ ws
  | Panic p => exists s', exec (bits_loop l) s (Crashed s' p) n
  end.
Proof.
  induction g as [|g IH]; intros s Hb H1 H2.
  - exists 0%nat. split; [lia|]. cbn [phrase_loop]. exists s. rewrite app_nil_r. split; [|reflexivity].
    apply exec_for_done, Z.ltb_ge. lia.
  - assert (m_i s <? len (m_b s) = true) as Hc by (apply Z.ltb_lt; lia).
    assert (forall e n, exec (Do (fun s => match set_string2 (m_str s) with
               | None => Panic PNil
               | Some n => let* w := index l n in Ret (m_set_phrase (m_phrase s ++ [w]) s)
               end)) (writing b 11 s) e n -> exec (bits_body l) s e (11 + n)) as K.
    { intros e n H. unfold bits_body. do 2 apply exec_set_then.
      eapply exec_then; [|exact H|reflexivity].
      replace (m_set_j (m_i (m_set_str [] s)) (m_set_str [] s)) with (writing b 0 s).
      - exact (eleven_runs b s Hb 11 0 eq_refl).
      - unfold writing. change (Z.of_nat 0) with 0. rewrite Z.add_0_r. reflexivity. }
    cbn [phrase_loop]. rewrite <- (writing_str b s).
    destruct (set_string2 (m_str (writing b 11 s))) as [n|] eqn:E1.
    2: { exists (1 + (11 + 0))%nat. split; [lia|]. eexists. eapply exec_for_crash; [exact Hc|]. apply K.
         apply exec_do_panic. rewrite E1. reflexivity. }
    destruct (index l n) as [w|p] eqn:E2; cbn [bind].
    2: { exists (1 + (11 + 0))%nat. split; [lia|]. eexists. eapply exec_for_crash; [exact Hc|]. apply K.
         apply exec_do_panic. rewrite E1, E2. reflexivity. }
    set (s1 := m_set_phrase (m_phrase s ++ [w]) (writing b 11 s)).
    assert (exec (bits_body l) s (Next s1) (11 + 0)) as Hx.
    { apply K. apply exec_do. rewrite E1, E2. reflexivity. }
    destruct (IH (m_set_i (m_i s1 + 11) s1)) as (m & Hm & Hr).
    { exact Hb. }
    { change (m_b (m_set_i (m_i s1 + 11) s1)) with (m_b s). change (m_i (m_set_i (m_i s1 + 11) s1)) with (m_i s + 11). lia. }
    { change (m_b (m_set_i (m_i s1 + 11) s1)) with (m_b s). change (m_i (m_set_i (m_i s1 + 11) s1)) with (m_i s + 11). lia. }
    change (m_i (m_set_i (m_i s1 + 11) s1)) with (m_i s + 11) in Hr.
    change (m_phrase (m_set_i (m_i s1 + 11) s1)) with (m_phrase s ++ [w]) in Hr.
    exists (1 + (11 + 0) + m)%nat. split; [lia|].
    destruct (phrase_loop g (m_i s + 11) b l) as [ws|p]; cbn [bind].
    + destruct Hr as (s' & Hr & Hp). exists s'. split.
      * eapply exec_for_more; [exact Hc|exact Hx|exact Hr].
      * rewrite Hp, <- app_assoc. reflexivity.
    + destruct Hr as (s' & Hr). exists s'. eapply exec_for_more; [exact Hc|exact Hx|exact Hr].
Qed.

(** A nil binary crashes the loop at once. *)
Lemma bits_loop_nil l s : m_binary s = None -> m_i s < len (m_b s) ->
  exists s', exec (bits_loop l) s (Crashed s' PNil) 2.
Proof.
  intros Hb Hi. eexists. eapply (exec_for_crash _ _ _ _ _ _ 1); [apply Z.ltb_lt, Hi|].
  unfold bits_body. do 2 apply exec_set_then.
  apply exec_seq_end; [|discriminate]. eapply (exec_for_crash _ _ _ _ _ _ 0); [apply Z.ltb_lt; cbn; lia|].
  apply exec_do_panic. cbn. rewrite Hb. reflexivity.
Qed.

Lemma NewMnemonic_runs words wl rd : exists e n, exec (NewMnemonic_body words wl rd) mnemonic_start e n /\
  observed (fun _ => []) e = Some ([], NewMnemonic words wl rd) /\ (n <= 544)%nat.
Proof.
  unfold NewMnemonic_body, NewMnemonic.
  destruct wl as [l|]; [|eexists _, 0%nat; split; [apply exec_return|split; [reflexivity|lia]]].
  destruct (entropy_length words) as [L|] eqn:EL; [|eexists _, 0%nat; split; [apply exec_return|split; [reflexivity|lia]]].
  assert (exists k, (4 <= k <= 8)%nat /\ L = Z.of_nat (32 * k)) as (k & Hk & ->).
  { unfold entropy_length in EL. destruct (words =? 12); [injection EL as <-; exists 4%nat; split; [lia|reflexivity]|].
    destruct (words =? 15); [injection EL as <-; exists 5%nat; split; [lia|reflexivity]|].
    destruct (words =? 18); [injection EL as <-; exists 6%nat; split; [lia|reflexivity]|].
    destruct (words =? 21); [injection EL as <-; exists 7%nat; split; [lia|reflexivity]|].
    destruct (words =? 24); [injection EL as <-; exists 8%nat; split; [lia|reflexivity]|discriminate]. }
  pose proof (rand_int_pow k rd ltac:(lia)) as HR.
  destruct (rand_int (2 ^ Z.of_nat (32 * k)) rd) as [[entropy rest]|] eqn:ER.
  2: { eexists _, 0%nat. split; [|split].
       - apply exec_set_then. apply (exec_guard_stop m_err (fun _ => Err ERandRead)). reflexivity.
       - reflexivity.
       - lia. }
  assert (exists ent, length ent = (4 * k)%nat /\ entropy = bytes_number ent) as (ent & Le & ->).
  { destruct (Nat.ltb_spec (length rd) (4 * k)); [discriminate|]. injection HR as -> _.
    exists (firstn (4 * k) rd). rewrite firstn_length. split; [lia|reflexivity]. }
  clear HR.
  unfold mnemonic_of_entropy. set (hb := sprintf_b (set_bytes (sha256 (big_bytes (bytes_number ent))))).
  set (x := sprintf_b (bytes_number ent)).
  destruct (slice hb 0 (Z.of_nat (32 * k) / 32)) as [c|p] eqn:ES; cbn [bind].
  2: { eexists _, 0%nat. split; [|split; [|lia]].
       - apply exec_set_then. apply exec_guard_pass; [reflexivity|]. apply exec_do_stop. cbn [m_entropy m_set_entropy].
         fold hb. rewrite ES. reflexivity.
       - reflexivity. }
  rewrite Nat2Z.id. set (b := pad_left (32 * k) x ++ c).
  assert (length b = (33 * k)%nat) as Lb.
  { unfold b. rewrite app_length. unfold x. rewrite <- (bits_val ent), (pad_left_bits (bits ent) (32 * k)) by (rewrite ?bits_length; lia).
    rewrite map_length, bits_length. unfold slice in ES.
    destruct ((0 <=? 0) && (0 <=? Z.of_nat (32 * k) / 32) && (Z.of_nat (32 * k) / 32 <=? Z.of_nat (length hb))) eqn:EB; [|discriminate].
    apply andb_prop in EB as [_ EB]. apply Z.leb_le in EB. injection ES as <-.
    replace (Z.of_nat (32 * k) / 32) with (Z.of_nat k) in * by (apply Z.div_unique with 0; lia).
    rewrite firstn_length. cbn [Z.to_nat skipn]. unfold gostring in *. lia. }
  assert (exists s, m_i s = 0 /\ m_b s = b /\ m_binary s = set_string2 b /\ m_phrase s = [] /\
    forall q e n, exec q s e n -> exec
      (Set_ (fun s => match rand_int (2 ^ Z.of_nat (32 * k)) rd with
                      | Some (e, _) => m_set_entropy e s | None => m_set_err true s end) ;;
       If m_err (Return (fun _ => Err ERandRead)) Skip ;;
       Do (fun s => let* c := slice (sprintf_b (set_bytes (sha256 (big_bytes (m_entropy s))))) 0 (Z.of_nat (32 * k) / 32) in
                    Ret (m_set_checksumBinary c s)) ;;
       Set_ (fun s => m_set_b (sprintf_b (m_entropy s)) s) ;;
       For (fun s => len (m_b s) <? Z.of_nat (32 * k)) (fun s => s) (Set_ (fun s => m_set_b (str "0" ++ m_b s) s)) ;;
       Set_ (fun s => m_set_b (m_b s ++ m_checksumBinary s) s) ;;
       Set_ (fun s => m_set_binary (set_string2 (m_b s)) s) ;;
       Set_ (m_set_phrase []) ;; Set_ (m_set_i 0) ;; q : cmd mnemonic_vars (result gostring)) mnemonic_start e ((32 * k - length x) + n)) as (s & Si & Sb & Sn & Sp & K).
  { eexists. split; [|split; [|split; [|split]]]; [| | | |intros q e n H; apply exec_set_then; rewrite ER; apply exec_guard_pass; [reflexivity|];
      eapply exec_do_then; [cbn [m_entropy m_set_entropy]; fold hb; rewrite ES; reflexivity|]; apply exec_set_then;
      eapply exec_then; [pad m_b m_set_b (32 * k)%nat| |reflexivity]; do 4 apply exec_set_then; exact H]; reflexivity. }
  rewrite ER in K.
  assert (len b = 33 * Z.of_nat k) as Lz by (unfold len; lia).
  destruct (set_string2 b) as [z|] eqn:EZ.
  - destruct (bits_loop_runs l z (3 * k) s) as (n & Hn & Hr); [congruence|rewrite Sb, Si; lia|rewrite Sb, Si; lia|].
    replace (Z.to_nat ((len b + 10) / 11)) with (3 * k)%nat.
    2: { rewrite Lz. replace ((33 * Z.of_nat k + 10) / 11) with (Z.of_nat (3 * k)); [lia|]. apply Z.div_unique with 10; lia. }
    rewrite Si in Hr. destruct (phrase_loop (3 * k) 0 z l) as [ws|p]; cbn [bind].
    + destruct Hr as (s' & Hx & Hp). eexists _, _. split; [|split].
      * apply K. apply (exec_then _ _ _ s' _ n 0 _ Hx); [apply exec_return|reflexivity].
      * cbn [observed]. rewrite Hp, Sp. reflexivity.
      * lia.
    + destruct Hr as (s' & Hx). eexists _, _. split; [|split].
      * apply K. apply exec_seq_end; [exact Hx|discriminate].
      * reflexivity.
      * lia.
  - destruct (bits_loop_nil l s Sn) as (s' & Hx); [rewrite Sb, Si; lia|]. eexists _, _. split; [|split].
    + apply K. apply exec_seq_end; [exact Hx|discriminate].
    + reflexivity.
    + lia.
Qed.

(** ** Every run, not just one *)

Lemma every_run {S R} (c : cmd S R) s (P : ending S R -> nat -> Prop) :
  (exists e n, exec c s e n /\ P e n) ->
  (exists e n, exec c s e n) /\ forall e n, exec c s e n -> P e n.
Proof.
  intros (e & n & H & HP). split; [eauto|]. intros e' n' H'.
  destruct (exec_fun _ _ _ _ H _ _ H') as [-> ->]. exact HP.
Qed.

Lemma Format_every_run p c :
  (exists e n, exec (Format_body p c) format_start e n) /\
  forall e n, exec (Format_body p c) format_start e n ->
    observed (fun _ => []) e = Some ([], Format p c) /\ (n <= 128)%nat.
Proof. apply (every_run (Format_body p c)). apply Format_runs. Qed.

Lemma NewSeed_every_run m p l :
  (exists e n, exec (NewSeedFromMnemonic_body m p l) seed_start e n) /\
  forall e n, exec (NewSeedFromMnemonic_body m p l) seed_start e n ->
    observed s_log e = Some (NewSeedFromMnemonic m p l) /\
    ((length (words_of l) <= 2048)%nat -> (n <= length (split_space m) * (length (words_of l) + 26) + 69)%nat).
Proof. apply (every_run (NewSeedFromMnemonic_body m p l)). apply NewSeed_runs. Qed.

Lemma NewSeed_every_run_words m p l ws : spaced ws m ->
  (exists e n, exec (NewSeedFromMnemonic_body m p (Some l)) seed_start e n) /\
  forall e n, exec (NewSeedFromMnemonic_body m p (Some l)) seed_start e n ->
    observed s_log e = Some (NewSeedFromMnemonic m p (Some l)) /\
    ((length l <= 2048)%nat -> (n <= length ws * (length l + 26) + 69)%nat).
Proof. intros Hs. apply spaced_split in Hs. subst ws. exact (NewSeed_every_run m p (Some l)). Qed.

Lemma NewSeed_every_run_nil m p :
  (exists e n, exec (NewSeedFromMnemonic_body m p None) seed_start e n) /\
  forall e n, exec (NewSeedFromMnemonic_body m p None) seed_start e n ->
    observed s_log e = Some (NewSeedFromMnemonic m p None).
Proof. destruct (NewSeed_every_run m p None) as [H1 H2]. split; [exact H1|]. intros e n H. apply (H2 e n H). Qed.

Lemma NewMnemonic_every_run words wl rd :
  (exists e n, exec (NewMnemonic_body words wl rd) mnemonic_start e n) /\
  forall e n, exec (NewMnemonic_body words wl rd) mnemonic_start e n ->
    observed (fun _ => []) e = Some ([], NewMnemonic words wl rd) /\ (n <= 544)%nat.
Proof. apply (every_run (NewMnemonic_body words wl rd)). apply NewMnemonic_runs. Qed.
