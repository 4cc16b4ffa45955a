(** * The built-in word lists: checks by computation and what follows *)

From Coq Require Import ZifyNat.
From Verif Require Import GoBase GoNum Sha256 GoRand Model NumFacts Spec SpecText MnemFacts MnemProps SeedFacts.
From Verif Require Import WordsEnglish WordsFrench WordsJapanese WordsItalian WordsSpanish WordsKorean
  WordsCzech WordsChineseTraditional WordsChineseSimplified.
Local Open Scope Z_scope.

(** Distinctness by radix splitting: numbers are told apart bit by bit. *)
Fixpoint splitp (l : list positive) : list positive * list positive * nat :=
  match l with
  | [] => ([], [], O)
  | p :: r =>
      let '(os, is, h) := splitp r in
      match p with
      | xO q => (q :: os, is, h)
      | xI q => (os, q :: is, h)
      | xH => (os, is, S h)
      end
  end.
Lemma splitp_in l os is h : splitp l = (os, is, h) ->
  forall p, In p l -> match p with xO q => In q os | xI q => In q is | xH => (0 < h)%nat end.
Proof.
  revert os is h; induction l as [|p r IH]; intros os is h H q Hq; [destruct Hq|].
  cbn [splitp] in H. destruct (splitp r) as [[os' is'] h'] eqn:E.
  specialize (IH _ _ _ eq_refl). destruct Hq as [->|Hq].
  - destruct q; injection H as <- <- <-; [left; reflexivity|left; reflexivity|lia].
  - specialize (IH q Hq). destruct p; injection H as <- <- <-; destruct q; try exact IH; try (right; exact IH); lia.
Qed.
Lemma splitp_nodup l os is h : splitp l = (os, is, h) -> NoDup os -> NoDup is -> (h <= 1)%nat -> NoDup l.
Proof.
  revert os is h; induction l as [|p r IH]; intros os is h H Ho Hi Hh; [constructor|].
  cbn [splitp] in H. destruct (splitp r) as [[os' is'] h'] eqn:E.
  pose proof (splitp_in r _ _ _ E) as Hin.
  destruct p as [q|q|]; injection H as <- <- <-.
  - inversion Hi as [|? ? Hq Hr]; subst. constructor; [|apply (IH _ _ _ eq_refl); auto].
    intros K. apply (Hin (xI q)) in K. contradiction.
  - inversion Ho as [|? ? Hq Hr]; subst. constructor; [|apply (IH _ _ _ eq_refl); auto].
    intros K. apply (Hin (xO q)) in K. contradiction.
  - constructor; [|apply (IH _ _ _ eq_refl); auto; lia]. intros K. apply (Hin xH) in K. lia.
Qed.
Fixpoint nodup_pos (fuel : nat) (l : list positive) : bool :=
  match l with
  | [] => true
  | [_] => true
  | _ =>
      match fuel with
      | O => false
      | S f => let '(os, is, h) := splitp l in (h <=? 1)%nat && nodup_pos f os && nodup_pos f is
      end
  end.
Lemma nodup_pos_ok fuel l : nodup_pos fuel l = true -> NoDup l.
Proof.
  revert l; induction fuel as [|f IH]; intros l H.
  - destruct l as [|a [|b l]]; [constructor|constructor; [intros []|constructor]|discriminate].
  - destruct l as [|a [|b l]]; [constructor|constructor; [intros []|constructor]|].
    cbn [nodup_pos] in H. destruct (splitp (a :: b :: l)) as [[os is] h] eqn:E.
    apply andb_prop in H as [H H3]. apply andb_prop in H as [H1 H2]. apply Nat.leb_le in H1.
    apply (splitp_nodup _ _ _ _ E); auto.
Qed.

(** The bits of a word behind a leading 1. *)
Definition push (b : bool) (p : positive) : positive := if b then xI p else xO p.
Definition push8 (p : positive) (c : byte) : positive :=
  let '(b0, (b1, (b2, (b3, (b4, (b5, (b6, b7))))))) := Byte.to_bits c in
  push b7 (push b6 (push b5 (push b4 (push b3 (push b2 (push b1 (push b0 p))))))).
Definition code (w : gostring) : positive := fold_left push8 w xH.
Lemma push_inj b p c q : push b p = push c q -> b = c /\ p = q.
Proof. destruct b, c; cbn; intros H; inversion H; auto. Qed.
Lemma push8_inj p c q d : push8 p c = push8 q d -> p = q /\ c = d.
Proof.
  unfold push8. rewrite <- (Byte.of_bits_to_bits c), <- (Byte.of_bits_to_bits d) at 2.
  destruct (Byte.to_bits c) as (b0 & b1 & b2 & b3 & b4 & b5 & b6 & b7), (Byte.to_bits d) as (c0 & c1 & c2 & c3 & c4 & c5 & c6 & c7).
  intros H. repeat (apply push_inj in H; destruct H as (-> & H)). subst. auto.
Qed.
Lemma push8_not_1 p c : push8 p c <> xH.
Proof. unfold push8. destruct (Byte.to_bits c) as (b0 & b1 & b2 & b3 & b4 & b5 & b6 & []); discriminate. Qed.
Lemma code_inj v w : code v = code w -> v = w.
Proof.
  unfold code. revert w. induction v as [|c v IH] using rev_ind; intros w; destruct w as [|d w] using rev_ind;
    rewrite ?fold_left_app; cbn [fold_left]; intros H.
  - reflexivity.
  - symmetry in H. now apply push8_not_1 in H.
  - now apply push8_not_1 in H.
  - apply push8_inj in H as (H & ->). f_equal. apply IH, H.
Qed.
Definition nodupb (l : list gostring) : bool := nodup_pos 300 (map code l).
Lemma nodupb_ok l : nodupb l = true -> NoDup l.
Proof. unfold nodupb. intros H. exact (NoDup_map_inv _ _ (nodup_pos_ok 300 (map code l) H)). Qed.

Definition wordb (w : gostring) : bool :=
  match w with [] => false | _ => forallb (fun c => negb (byte_eqb c x20)) w end.
Lemma wordb_ok w : wordb w = true -> w <> [] /\ ~ In x20 w.
Proof.
  destruct w as [|c w]; [discriminate|]. unfold wordb. intros H. split; [discriminate|]. intros Hin.
  rewrite forallb_forall in H. specialize (H _ Hin). rewrite byte_eqb_refl in H. discriminate.
Qed.

Definition proper_listb (l : list gostring) : bool :=
  (Z.of_nat (length l) =? 2048) && nodupb l && forallb wordb l.
Lemma proper_listb_ok l : proper_listb l = true -> proper_list l.
Proof.
  unfold proper_listb. intros H. apply andb_prop in H as [H H3]. apply andb_prop in H as [H1 H2].
  apply Z.eqb_eq in H1. split; [apply Nat2Z.inj; rewrite H1; vm_compute; reflexivity|]. split; [apply nodupb_ok, H2|].
  apply Forall_forall. intros w Hw. rewrite forallb_forall in H3. apply wordb_ok, H3, Hw.
Qed.

Lemma builtin_proper : Forall proper_list builtin_lists.
Proof.
  repeat (constructor; [apply proper_listb_ok; vm_compute; reflexivity|]). constructor.
Qed.

(** What the mnemonic functions need from a list. *)
Lemma proper_nodup l : proper_list l -> NoDup l.
Proof. intros (_ & H & _). exact H. Qed.
Lemma proper_le l : proper_list l -> (length l <= 2048)%nat.
Proof. intros (H & _). rewrite H. apply Nat.le_refl. Qed.
Lemma proper_ge l : proper_list l -> (2048 <= length l)%nat.
Proof. intros (H & _). rewrite H. apply Nat.le_refl. Qed.
Lemma proper_firstn l : proper_list l -> firstn 2048 l = l.
Proof. intros H. apply firstn_all2, proper_le, H. Qed.
Lemma proper_space l : proper_list l -> Forall (fun w => ~ In x20 w) l.
Proof. intros (_ & _ & H). rewrite Forall_forall in *. intros w Hw. apply H, Hw. Qed.

(** Recovering indices: C49. *)
Lemma proper_index_unique l i j w : proper_list l -> nth_error l i = Some w -> nth_error l j = Some w -> i = j.
Proof.
  intros H Hi Hj. apply (proj1 (NoDup_nth_error l) (proper_nodup l H)); [|congruence].
  apply nth_error_Some. congruence.
Qed.
Lemma proper_phrase_unique l ws ws' s : proper_list l -> Forall (fun w => In w l) ws -> Forall (fun w => In w l) ws' ->
  ws <> [] -> ws' <> [] -> join_space ws = s -> join_space ws' = s -> ws = ws'.
Proof.
  intros H Hw Hw' Hn Hn' E E'. apply proper_space in H. rewrite Forall_forall in *.
  apply (spaced_fun _ _ s).
  - rewrite <- E. apply spaced_join; [exact Hn|]. apply Forall_forall. auto.
  - rewrite <- E'. apply spaced_join; [exact Hn'|]. apply Forall_forall. auto.
Qed.

(** First four letters (ASCII lists only). *)
Definition prefix4b (l : list gostring) : bool := nodupb (map (firstn 4) l).
Lemma NoDup_map_inj {A B} (f : A -> B) l a b : NoDup (map f l) -> In a l -> In b l -> f a = f b -> a = b.
Proof.
  induction l as [|x l IH]; [intros _ []|]. cbn [map]. intros H Ha Hb E. inversion H as [|y r Hx Hr]; subst.
  destruct Ha as [<-|Ha], Hb as [<-|Hb]; try reflexivity.
  - exfalso. apply Hx. rewrite E. apply in_map, Hb.
  - exfalso. apply Hx. rewrite <- E. apply in_map, Ha.
  - auto.
Qed.
Lemma prefix4_unique l a b : prefix4b l = true -> In a l -> In b l -> firstn 4 a = firstn 4 b -> a = b.
Proof. unfold prefix4b. intros H. exact (NoDup_map_inj (firstn 4) l a b (nodupb_ok _ H)). Qed.

Lemma english_prefix4 a b : In a EnglishWordlist -> In b EnglishWordlist -> firstn 4 a = firstn 4 b -> a = b.
Proof. apply (prefix4_unique EnglishWordlist a b). vm_compute. reflexivity. Qed.
