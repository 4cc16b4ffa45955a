(** * Proofs about [GoPrint.v]: comments and blanks do not change the words of a text *)

From Coq Require Import String Ascii ZArith List Bool.
Import ListNotations.
From Verif Require Import GoSyntax GoPrint WrittenFacts.
Local Open Scope string_scope.

(** Not inside a string or a comment over several lines. *)
Definition open_place (p : place) : bool :=
  match p with InStr _ | InComment _ _ => false | _ => true end.

Lemma same_tail a : forall ends p u v,
  read_text ends p a <> None ->
  (forall ends' p', open_place p' = true -> read_text ends' p' u = read_text ends' p' v) ->
  read_text ends p (a ++ u) = read_text ends p (a ++ v).
Proof.
  induction a as [|c a IH]; intros ends p u v Ha H.
  - apply H. destruct p; try reflexivity; cbn in Ha; congruence.
  - cbn [append read_text] in Ha |- *. destruct (read_char ends p c) as [[ts p']|]; [|reflexivity].
    rewrite (IH _ _ u v); [reflexivity| |exact H].
    intros E. rewrite E in Ha. congruence.
Qed.

Definition eol : string := one "010".

Lemma blank_marks o c : blank c = true -> among (String o (one c)) marks = false.
Proof.
  unfold blank. intros H. apply orb_prop in H. destruct H as [H|H]; [apply orb_prop in H; destruct H as [H|H]|];
    apply Ascii.eqb_eq in H; subst c; destruct o as [[][][][][][][][]]; reflexivity.
Qed.
Lemma newline_marks o : among (String o (one "010")) marks = false.
Proof. destruct o as [[][][][][][][][]]; reflexivity. Qed.

Lemma blank_cases c : blank c = true -> c = " "%char \/ c = "009"%char \/ c = "013"%char.
Proof.
  unfold blank. intros H. apply orb_prop in H. destruct H as [H|H]; [apply orb_prop in H; destruct H as [H|H]|];
    apply Ascii.eqb_eq in H; auto.
Qed.

(** The word the reader is in, if it is in one. *)
Definition word_of (p : place) : list token :=
  match p with
  | InName acc => [TName (turn "" acc)]
  | InInt z => [TInt z]
  | InMark o => [TOp (one o)]
  | _ => []
  end.
Definition next_place (p : place) : place := match p with InLine => InLine | _ => Outside end.

Lemma read_blank ends p c : open_place p = true -> blank c = true ->
  read_char ends p c = Some (word_of p, next_place p).
Proof.
  intros Hp Hc. pose proof (fun o => blank_marks o c Hc) as M.
  destruct (blank_cases c Hc) as [-> |[-> | ->]]; destruct p; try discriminate Hp; try reflexivity;
    cbn [read_char]; rewrite M; destruct (Ascii.eqb c "/"); reflexivity.
Qed.

Lemma read_newline ends p : open_place p = true ->
  read_char ends p "010" = Some ((word_of p ++ semicolon (last (map ends_line (word_of p)) ends))%list, Outside).
Proof.
  intros Hp. destruct p; try discriminate Hp; try reflexivity.
  cbn [read_char]. rewrite newline_marks. destruct (Ascii.eqb c "/"); reflexivity.
Qed.

Definition no_newline (s : string) : bool := every (fun c => negb (newline c)) s.

Lemma in_line c : forall ends b, no_newline c = true ->
  read_text ends InLine (c ++ eol ++ b) = read_text ends Outside (eol ++ b).
Proof.
  induction c as [|x c IH]; intros ends b H; [reflexivity|].
  unfold no_newline in H; cbn [every] in H; fold (no_newline c) in H. apply andb_prop in H. destruct H as [Hx H]. apply negb_true_iff in Hx.
  cbn [append]. rewrite (read_quiet ends InLine x _ InLine); [apply IH; exact H|].
  cbn [read_char]. rewrite Hx. reflexivity.
Qed.

Lemma last_cons {A} (x : A) l d : last (x :: l) d = last l x.
Proof. revert x d. induction l as [|y l IH]; intros x d; [reflexivity|]. exact (eq_trans (IH y d) (eq_sym (IH y x))). Qed.

Lemma last_app {A} (l l' : list A) d : last (l ++ l')%list d = last l' (last l d).
Proof.
  revert d. induction l as [|x l IH]; intros d; [reflexivity|].
  cbn [app]. rewrite !last_cons. apply IH.
Qed.

(** Two texts that are the same words to a reader who is between words. *)
Definition alike (u v : string) : Prop :=
  forall ends p, open_place p = true -> read_text ends p u = read_text ends p v.

Lemma alike_app a u v : tokens_of a <> None -> alike u v -> tokens_of (a ++ u) = tokens_of (a ++ v).
Proof. intros Ha H. apply same_tail; [exact Ha|exact H]. Qed.

Lemma blank_step ends p c s : open_place p = true -> blank c = true ->
  read_text ends p (String c s) =
  match read_text (last (map ends_line (word_of p)) ends) (next_place p) s with
  | Some us => Some (word_of p ++ us)%list | None => None end.
Proof. intros Hp Hc. exact (read_cons ends p c s _ _ (read_blank ends p c Hp Hc)). Qed.

Lemma line_comment c b : no_newline c = true -> alike (" //" ++ c ++ eol ++ b) (eol ++ b).
Proof.
  intros Hc ends p Hp.
  assert (E : forall e q, q = Outside \/ q = InLine ->
            read_text e q ("//" ++ c ++ eol ++ b) = read_text e Outside (eol ++ b)).
  { intros e q [-> | ->].
    - cbn [append]. rewrite (read_quiet e Outside "/" _ (InMark "/") eq_refl).
      rewrite (read_quiet e (InMark "/") "/" _ InLine eq_refl). apply in_line, Hc.
    - cbn [append]. rewrite (read_quiet e InLine "/" _ InLine eq_refl).
      rewrite (read_quiet e InLine "/" _ InLine eq_refl). apply in_line, Hc. }
  change (" //" ++ c ++ eol ++ b) with (String " " ("//" ++ c ++ eol ++ b)).
  rewrite blank_step by (exact Hp || reflexivity).
  rewrite E by (destruct p; auto).
  change (eol ++ b) with (String "010" b).
  rewrite (read_cons _ p "010" b _ _ (read_newline ends p Hp)).
  rewrite (read_cons _ Outside "010" b _ _ (read_newline (last (map ends_line (word_of p)) ends) Outside eq_refl)).
  cbn [word_of map last app]. rewrite map_app, last_app.
  destruct (read_text _ Outside b); [|reflexivity]. rewrite app_assoc. reflexivity.
Qed.

(** No end of a comment in [s]; [star]: a star stands before it. *)
Fixpoint stays (star : bool) (s : string) : bool :=
  match s with
  | EmptyString => true
  | String c s' => negb (star && Ascii.eqb c "/") && stays (Ascii.eqb c "*") s'
  end.

Lemma in_comment c : forall star ends b, stays star c = true -> no_newline c = true ->
  read_text ends (InComment star false) (c ++ "*/" ++ b) = read_text ends Outside b.
Proof.
  induction c as [|x c IH]; intros star ends b Hs Hn.
  - cbn [append]. rewrite (read_quiet ends (InComment star false) "*" _ (InComment true false)) by (destruct star; reflexivity).
    rewrite (read_quiet ends (InComment true false) "/" _ Outside) by reflexivity. reflexivity.
  - unfold no_newline in Hn; cbn [every stays] in Hs, Hn. fold (no_newline c) in Hn. apply andb_prop in Hs, Hn. destruct Hs as [H1 Hs], Hn as [H2 Hn].
    apply negb_true_iff in H1, H2.
    cbn [append]. rewrite (read_quiet ends _ x _ (InComment (Ascii.eqb x "*") false)).
    + apply IH; assumption.
    + cbn [read_char]. rewrite H1, H2. reflexivity.
Qed.

Lemma in_line_all c : forall ends b, no_newline c = true ->
  read_text ends InLine (c ++ b) = read_text ends InLine b.
Proof.
  induction c as [|x c IH]; intros ends b H; [reflexivity|].
  unfold no_newline in H; cbn [every] in H; fold (no_newline c) in H. apply andb_prop in H. destruct H as [Hx H]. apply negb_true_iff in Hx.
  cbn [append]. rewrite (read_quiet ends InLine x _ InLine); [apply IH; exact H|].
  cbn [read_char]. rewrite Hx. reflexivity.
Qed.

Lemma block_comment c b : no_newline c = true -> stays false c = true ->
  alike (" /*" ++ c ++ "*/" ++ b) (" " ++ b).
Proof.
  intros Hn Hs ends p Hp.
  assert (E : forall e q, q = Outside \/ q = InLine ->
            read_text e q ("/*" ++ c ++ "*/" ++ b) = read_text e q b).
  { intros e q [-> | ->].
    - cbn [append]. rewrite (read_quiet e Outside "/" _ (InMark "/") eq_refl).
      rewrite (read_quiet e (InMark "/") "*" _ (InComment false false) eq_refl). exact (in_comment c false e b Hs Hn).
    - cbn [append]. rewrite (read_quiet e InLine "/" _ InLine eq_refl).
      rewrite (read_quiet e InLine "*" _ InLine eq_refl). rewrite in_line_all by exact Hn.
      cbn [append]. rewrite (read_quiet e InLine "*" _ InLine eq_refl).
      rewrite (read_quiet e InLine "/" _ InLine eq_refl). reflexivity. }
  change (" /*" ++ c ++ "*/" ++ b) with (String " " ("/*" ++ c ++ "*/" ++ b)).
  change (" " ++ b) with (String " " b).
  rewrite !blank_step by (exact Hp || reflexivity).
  rewrite E by (destruct p; auto). reflexivity.
Qed.

Lemma blanks x y b : blank x = true -> blank y = true -> alike (String x (String y b)) (String " " b).
Proof.
  intros Hx Hy ends p Hp. rewrite !(blank_step ends p) by (exact Hp || exact Hx || reflexivity).
  rewrite blank_step by (exact Hy || (destruct p; reflexivity)).
  destruct p; try discriminate Hp; cbn [next_place word_of map last app];
    match goal with |- context[read_text ?e ?q b] => destruct (read_text e q b); reflexivity end.
Qed.

Lemma blank_any x b : blank x = true -> alike (String x b) (String " " b).
Proof. intros Hx ends p Hp. rewrite !(blank_step ends p) by (exact Hp || exact Hx || reflexivity). reflexivity. Qed.

Lemma empty_line b : alike (eol ++ eol ++ b) (eol ++ b).
Proof.
  intros ends p Hp. change (eol ++ eol ++ b) with (String "010" (String "010" b)). change (eol ++ b) with (String "010" b).
  rewrite !(read_cons _ p "010" _ _ _ (read_newline ends p Hp)).
  set (w := word_of p). set (e := last (map ends_line w) ends).
  rewrite map_app, last_app. fold e.
  assert (F : last (map ends_line (semicolon e)) e = false) by (destruct e; reflexivity).
  rewrite F. rewrite (read_cons _ Outside "010" b _ _ (read_newline false Outside eq_refl)).
  cbn [word_of map last app semicolon]. destruct (read_text false Outside b); reflexivity.
Qed.

Lemma stays_spec c : forall star, (star = true -> forall v, c <> ("/" ++ v)%string) ->
  (forall u v, c <> (u ++ "*/" ++ v)%string) -> stays star c = true.
Proof.
  induction c as [|x c IH]; intros star H1 H2; [reflexivity|]. cbn [stays].
  apply andb_true_intro. split.
  - apply negb_true_iff. destruct star; [|reflexivity]. destruct (Ascii.eqb_spec x "/") as [-> |]; [|reflexivity].
    exfalso. exact (H1 eq_refl c eq_refl).
  - apply IH.
    + intros Hx v E. apply Ascii.eqb_eq in Hx. subst x c. exact (H2 "" v eq_refl).
    + intros u v E. subst c. exact (H2 (String x u) v eq_refl).
Qed.

(** *** For whole texts *)

Lemma line_comment_text a c b : tokens_of a <> None -> every (fun x => negb (newline x)) c = true ->
  tokens_of (a ++ " //" ++ c ++ one "010" ++ b) = tokens_of (a ++ one "010" ++ b).
Proof. intros Ha Hc. exact (alike_app a _ _ Ha (line_comment c b Hc)). Qed.

Lemma block_comment_text a c b : tokens_of a <> None ->
  every (fun x => negb (newline x)) c = true -> (forall u v, c <> u ++ "*/" ++ v) ->
  tokens_of (a ++ " /*" ++ c ++ "*/" ++ b) = tokens_of (a ++ " " ++ b).
Proof.
  intros Ha Hc Hs. refine (alike_app a _ _ Ha (block_comment c b Hc (stays_spec c false _ Hs))). discriminate.
Qed.

Lemma blanks_text a x y b : tokens_of a <> None -> blank x = true -> blank y = true ->
  tokens_of (a ++ String x b) = tokens_of (a ++ " " ++ b) /\
  tokens_of (a ++ String x (String y b)) = tokens_of (a ++ " " ++ b).
Proof.
  intros Ha Hx Hy. split; [exact (alike_app a _ _ Ha (blank_any x b Hx))|exact (alike_app a _ _ Ha (blanks x y b Hx Hy))].
Qed.

Lemma empty_line_text a b : tokens_of a <> None ->
  tokens_of (a ++ one "010" ++ one "010" ++ b) = tokens_of (a ++ one "010" ++ b).
Proof. intros Ha. exact (alike_app a _ _ Ha (empty_line b)). Qed.
