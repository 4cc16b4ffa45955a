(** * Proofs about [GoPrint.v]: words that are written down are read back *)

From Coq Require Import String Ascii ZArith NArith List Bool Lia.
Import ListNotations.
From Verif Require Import GoSyntax GoPrint.
Local Open Scope string_scope.

(** Reading one more character. *)
Lemma read_cons ends p c s ts p' :
  read_char ends p c = Some (ts, p') ->
  read_text ends p (String c s) =
  match read_text (last (map ends_line ts) ends) p' s with
  | Some us => Some (ts ++ us)%list | None => None end.
Proof. intros H. cbn [read_text]. rewrite H. reflexivity. Qed.

Lemma read_quiet ends p c s p' :
  read_char ends p c = Some ([], p') -> read_text ends p (String c s) = read_text ends p' s.
Proof.
  intros H. rewrite (read_cons _ _ _ _ _ _ H). cbn [map last app].
  destruct (read_text ends p' s); reflexivity.
Qed.

(** The reader after a word [t]. *)
Definition yields (ends : bool) (p : place) (s : string) (t : token) (r : string) : Prop :=
  read_text ends p s =
  match read_text (ends_line t) Outside r with Some us => Some (t :: us) | None => None end.

(** *** Characters *)

Lemma letter_not_space c : letter c = true -> newline c = false /\ blank c = false.
Proof.
  destruct c as [[][][][][][][][]]; intros H; vm_compute in H;
    solve [discriminate H | split; reflexivity].
Qed.

Lemma digit_facts c :
  digit c = true -> newline c = false /\ blank c = false /\ letter c = false.
Proof.
  destruct c as [[][][][][][][][]]; intros H; vm_compute in H;
    solve [discriminate H | repeat split; reflexivity].
Qed.

Lemma mark_facts c :
  mark c = true ->
  newline c = false /\ blank c = false /\ letter c = false /\ digit c = false /\
  Ascii.eqb c """" = false.
Proof.
  destruct c as [[][][][][][][][]]; intros H; vm_compute in H;
    solve [discriminate H | repeat split; reflexivity].
Qed.

(** *** Names *)

Lemma turn_spec s : forall acc r, turn r (turn acc s) = turn (append s r) acc.
Proof.
  induction s as [|c s IH]; intros acc r; cbn [turn append]; [reflexivity|].
  rewrite IH. reflexivity.
Qed.

Lemma append_nil s : (s ++ "" = s)%string.
Proof. induction s as [|c s IH]; cbn; [reflexivity|]. rewrite IH. reflexivity. Qed.

Lemma turn_twice s : turn "" (turn "" s) = s.
Proof. rewrite turn_spec. cbn [turn]. apply append_nil. Qed.

Lemma append_assoc a b c : ((a ++ b) ++ c = a ++ (b ++ c))%string.
Proof. induction a as [|x a IH]; cbn; [reflexivity|]. rewrite IH. reflexivity. Qed.

Lemma read_name s : forall ends acc r,
  every (fun c => letter c || digit c) s = true ->
  read_text ends (InName acc) (s ++ String " " r) =
  match read_text (ends_line (TName (turn "" (turn acc s)))) Outside r with
  | Some us => Some (TName (turn "" (turn acc s)) :: us) | None => None end.
Proof.
  induction s as [|c s IH]; intros ends acc r H.
  - cbn [append turn]. rewrite (read_cons ends (InName acc) " " r [TName (turn "" acc)] Outside eq_refl).
    reflexivity.
  - cbn [every] in H. apply andb_prop in H. destruct H as [Hc H].
    cbn [append]. rewrite (read_quiet _ _ _ _ (InName (String c acc))).
    + rewrite IH by exact H. reflexivity.
    + cbn [read_char]. rewrite Hc. reflexivity.
Qed.

(** *** Numbers *)

Lemma digit_of d :
  (0 <= d < 10)%Z ->
  digit (ascii_of_N (Z.to_N (48 + d))) = true /\ digit_value (ascii_of_N (Z.to_N (48 + d))) = d.
Proof.
  intros H. assert (E : (d = 0 \/ d = 1 \/ d = 2 \/ d = 3 \/ d = 4 \/ d = 5 \/ d = 6 \/ d = 7 \/ d = 8 \/ d = 9)%Z) by lia.
  repeat (destruct E as [-> |E]; [split; reflexivity|]). subst d. split; reflexivity.
Qed.

Lemma read_digits fuel : forall z acc ends,
  (0 <= z < 10 * 2 ^ Z.of_nat fuel)%Z ->
  read_text ends Outside (digits fuel z acc) = read_text ends (InInt z) acc.
Proof.
  induction fuel as [|n IH]; intros z acc ends Hz.
  - cbn [digits]. rewrite Z.mod_small by (cbn in Hz; lia).
    destruct (digit_of z ltac:(cbn in Hz; lia)) as [D V].
    destruct (digit_facts _ D) as (F1 & F2 & F3).
    rewrite (read_quiet _ _ _ _ (InInt z)); [reflexivity|].
    cbn [read_char]. unfold outside. rewrite F1, F2, F3, D, V. reflexivity.
  - cbn [digits]. destruct (Z.ltb_spec z 10) as [Hs|Hs].
    + rewrite Z.mod_small by lia. destruct (digit_of z ltac:(lia)) as [D V].
      destruct (digit_facts _ D) as (F1 & F2 & F3).
      rewrite (read_quiet _ _ _ _ (InInt z)); [reflexivity|].
      cbn [read_char]. unfold outside. rewrite F1, F2, F3, D, V. reflexivity.
    + rewrite IH.
      * destruct (digit_of (z mod 10) ltac:(apply Z.mod_pos_bound; lia)) as [D V].
        rewrite (read_quiet _ _ _ _ (InInt z)); [reflexivity|].
        cbn [read_char]. rewrite D, V.
        assert (1 <= z / 10)%Z by (apply Z.div_le_lower_bound; lia).
        destruct (Z.eqb_spec (z / 10) 0); [lia|].
        rewrite <- (Z.div_mod z 10) by lia. reflexivity.
      * split; [apply Z.div_pos; lia|]. apply Z.div_lt_upper_bound; [lia|].
        rewrite Nat2Z.inj_succ, Z.pow_succ_r in Hz by lia. lia.
Qed.

Lemma read_number z ends r :
  (0 <= z)%Z -> yields ends Outside (spelling (TInt z) ++ String " " r) (TInt z) r.
Proof.
  intros Hz. unfold yields. cbn [spelling].
  assert (E : forall fuel z acc, (digits fuel z acc ++ String " " r = digits fuel z (acc ++ String " " r))%string).
  { induction fuel as [|n IH]; intros w acc; cbn [digits]; [reflexivity|].
    destruct (w <? 10)%Z; [reflexivity|]. rewrite IH. reflexivity. }
  rewrite E. cbn [append]. rewrite read_digits.
  - rewrite (read_cons ends (InInt z) " " r [TInt z] Outside eq_refl). reflexivity.
  - split; [exact Hz|]. rewrite Z2Nat.id by apply Z.log2_nonneg.
    destruct (Z.eq_dec z 0) as [->|Hn]; [cbn; lia|].
    pose proof (Z.log2_spec z ltac:(lia)) as L. rewrite Z.pow_succ_r in L by apply Z.log2_nonneg.
    pose proof (Z.pow_pos_nonneg 2 (Z.log2 z) ltac:(lia) (Z.log2_nonneg z)). lia.
Qed.

(** *** Strings *)

Lemma read_string s : forall ends acc r,
  every (fun c => negb (Ascii.eqb c """" || newline c || Ascii.eqb c "\")) s = true ->
  read_text ends (InStr acc) (s ++ String """" r) =
  match read_text true Outside r with
  | Some us => Some (TStr (turn "" (turn acc s)) :: us) | None => None end.
Proof.
  induction s as [|c s IH]; intros ends acc r H.
  - cbn [append turn].
    rewrite (read_cons ends (InStr acc) """" _ [TStr (turn "" acc)] Outside eq_refl). reflexivity.
  - cbn [every] in H. apply andb_prop in H. destruct H as [Hc H]. apply negb_true_iff in Hc.
    rewrite !orb_false_iff in Hc. destruct Hc as [[H1 H2] H3].
    cbn [append]. rewrite (read_quiet _ _ _ _ (InStr (String c acc))).
    + rewrite IH by exact H. reflexivity.
    + cbn [read_char]. rewrite H1, H2, H3. reflexivity.
Qed.

(** *** Words *)

Lemma read_word t ends r :
  writable t = true -> yields ends Outside (spelling t ++ String " " r) t r.
Proof.
  intros H. destruct t as [s|z|s|s].
  - destruct s as [|c s]; [discriminate|]. cbn [writable] in H. apply andb_prop in H.
    destruct H as [Hc Hs]. destruct (letter_not_space c Hc) as [F1 F2].
    unfold yields. cbn [spelling append]. rewrite (read_quiet _ _ _ _ (InName (one c))).
    + rewrite read_name by exact Hs.
      replace (turn "" (turn (one c) s)) with (String c s); [reflexivity|].
      change (turn (one c) s) with (turn "" (String c s)). rewrite turn_twice. reflexivity.
    + cbn [read_char]. unfold outside. rewrite F1, F2, Hc. reflexivity.
  - cbn [writable] in H. apply Z.leb_le in H. apply read_number, H.
  - cbn [writable] in H. unfold yields. cbn [spelling append].
    rewrite (read_quiet _ _ _ _ (InStr "")) by reflexivity.
    rewrite append_assoc. cbn [append]. rewrite read_string by exact H. rewrite turn_twice.
    rewrite (read_quiet _ _ _ _ Outside) by reflexivity. reflexivity.
  - unfold yields. cbn [spelling].
    assert (Hone : forall c, mark c = true -> read_text ends Outside (String c (String " " r)) =
      match read_text (ends_line (TOp (one c))) Outside r with
      | Some us => Some (TOp (one c) :: us) | None => None end).
    { intros c Hc. destruct (mark_facts c Hc) as (F1 & F2 & F3 & F4 & F5).
      rewrite (read_quiet _ _ _ _ (InMark c)).
      - rewrite (read_cons ends (InMark c) " " r [TOp (one c)] Outside); [reflexivity|].
        clear -Hc. destruct c as [[][][][][][][][]]; vm_compute in Hc; solve [discriminate Hc | reflexivity].
      - cbn [read_char]. unfold outside. rewrite F1, F2, F3, F4, F5, Hc. reflexivity. }
    destruct s as [|c [|d s]]; [discriminate|apply Hone, H|].
    cbn [writable] in H. apply existsb_exists in H. destruct H as (x & Hx & E).
    apply String.eqb_eq in E. rewrite E. clear E Hone.
    unfold marks in Hx. cbn [In] in Hx.
    repeat (destruct Hx as [<-|Hx];
      [cbn [append]; erewrite read_quiet by reflexivity; erewrite read_cons by reflexivity;
       cbn [map last]; erewrite read_quiet by reflexivity; reflexivity|]).
    contradiction.
Qed.

Lemma last_shift {A} (l : list A) a d : last (a :: l) d = last l a.
Proof.
  revert a d. induction l as [|b l IH]; intros a d; [reflexivity|].
  change (last (a :: b :: l) d) with (last (b :: l) d). rewrite IH, IH. reflexivity.
Qed.

Lemma list_case {A} (l : list A) : l = [] \/ exists l' a, l = (l' ++ [a])%list.
Proof.
  induction l as [|a l _] using rev_ind; [left; reflexivity|right]. exists l, a. reflexivity.
Qed.

(** What is written is read. *)
Lemma read_written ts ends :
  forallb writable ts = true ->
  read_text ends Outside (written ts) =
  Some (ts ++ semicolon (last (map ends_line ts) ends))%list.
Proof.
  revert ends. induction ts as [|t ts IH]; intros ends H; [reflexivity|].
  cbn [forallb] in H. apply andb_prop in H. destruct H as [Ht H].
  cbn [written]. change (" " ++ written ts)%string with (String " " (written ts)).
  rewrite (read_word t ends (written ts) Ht), (IH _ H). cbn [map app]. do 2 f_equal.
  rewrite last_shift. reflexivity.
Qed.

(** A file ends with a semicolon, so nothing is added to its words. *)
Lemma file_written f :
  forallb writable (file_tokens f) = true -> is_text_of (written (file_tokens f)) f.
Proof.
  intros H. unfold is_text_of, tokens_of. rewrite read_written by exact H. f_equal.
  assert (E : exists ts, file_tokens f = (ts ++ [TOp ";"])%list).
  { destruct f as [p is ds]. unfold file_tokens. cbn [gf_package gf_imports gf_decls].
    destruct (list_case ds) as [->|(ds' & d & ->)].
    - cbn [flat_map]. destruct is as [|i is].
      + exists [TName "package"; TName p]. reflexivity.
      + exists (TName "package" :: TName p :: TOp ";" :: TName "import" :: TOp "(" ::
                flat_map (fun i => [TStr i; TOp ";"]) (i :: is) ++ [TOp ")"])%list.
        rewrite app_nil_r. cbn [app]. do 5 f_equal. rewrite <- app_assoc. reflexivity.
    - rewrite flat_map_app. cbn [flat_map]. rewrite app_nil_r.
      assert (A : forall a b, (exists ts, b = ts ++ [TOp ";"])%list -> (exists ts, a ++ b = ts ++ [TOp ";"])%list)
        by (intros a b [ts ->]; exists (a ++ ts)%list; apply app_assoc).
      assert (C : forall t b, (exists ts, b = ts ++ [TOp ";"])%list -> (exists ts, t :: b = ts ++ [TOp ";"])%list)
        by (intros t b [ts ->]; exists (t :: ts); reflexivity).
      do 3 apply C. apply A, A. exists (decl_tokens d). reflexivity. }
  destruct E as [ts ->]. rewrite map_app. cbn [map]. rewrite last_last. cbn.
  apply app_nil_r.
Qed.

(** ** A file of word lists

    wordlists.go is too long to be read by computation, so its layout is read here once
    for all lists. *)

(** The words read from the beginning of a text, and where the reader then is. *)
Fixpoint scan (ends : bool) (p : place) (s : string) : option (list token * bool * place) :=
  match s with
  | EmptyString => Some ([], ends, p)
  | String c s' =>
      match read_char ends p c with
      | None => None
      | Some (ts, p') =>
          match scan (last (map ends_line ts) ends) p' s' with
          | None => None
          | Some (us, e, q) => Some (ts ++ us, e, q)%list
          end
      end
  end.

Lemma read_append a : forall ends p b,
  read_text ends p (a ++ b) =
  match scan ends p a with
  | None => None
  | Some (ts, e, q) => match read_text e q b with Some us => Some (ts ++ us)%list | None => None end
  end.
Proof.
  induction a as [|c a IH]; intros ends p b.
  - cbn [append scan]. destruct (read_text ends p b); reflexivity.
  - cbn [append read_text scan]. destruct (read_char ends p c) as [[ts p']|]; [|reflexivity].
    rewrite IH. destruct (scan _ p' a) as [[[us e] q]|]; [|reflexivity].
    destruct (read_text e q b); [|reflexivity]. rewrite app_assoc. reflexivity.
Qed.

Definition nl : string := String "010" EmptyString.
Definition line (w : string) (r : string) : string :=
  String "009" (String """" (w ++ String """" (String "," (String "010" r)))).
Fixpoint lines (ws : list string) (r : string) : string :=
  match ws with [] => r | w :: ws' => line w (lines ws' r) end.
Definition list_text (p : string * list string) (r : string) : string :=
  ("var " ++ fst p ++ " = Wordlist{" ++ nl) ++ lines (snd p) (("}" ++ nl) ++ r).
Fixpoint lists_text (l : list (string * list string)) : string :=
  match l with
  | [] => ""
  | [p] => list_text p ""
  | p :: l' => list_text p (nl ++ lists_text l')
  end.
Definition lists_head : string :=
  "package btc" ++ nl ++ nl ++ "type Wordlist []string" ++ nl ++ nl.

Definition plain (w : string) : bool :=
  every (fun c => negb (Ascii.eqb c """" || newline c || Ascii.eqb c "\")) w.

Lemma read_line w r :
  plain w = true ->
  read_text false Outside (line w r) =
  match read_text false Outside r with
  | Some us => Some (TStr w :: TOp "," :: us) | None => None end.
Proof.
  intros H. unfold line.
  rewrite (read_quiet _ _ _ _ Outside) by reflexivity.
  rewrite (read_quiet _ _ _ _ (InStr "")) by reflexivity.
  rewrite read_string by exact H. rewrite turn_twice.
  rewrite (read_quiet _ _ _ _ (InMark ",")) by reflexivity.
  rewrite (read_cons _ (InMark ",") _ r [TOp ","] Outside) by reflexivity.
  cbn [map last ends_line]. change (among "," ["++"; "--"; ")"; "]"; "}"]) with false.
  destruct (read_text false Outside r); reflexivity.
Qed.

Lemma read_lines ws r :
  forallb plain ws = true ->
  read_text false Outside (lines ws r) =
  match read_text false Outside r with
  | Some us => Some (flat_map (fun w => [TStr w; TOp ","]) ws ++ us)%list | None => None end.
Proof.
  induction ws as [|w ws IH]; intros H; cbn [lines flat_map app].
  - destruct (read_text false Outside r); reflexivity.
  - cbn [forallb] in H. apply andb_prop in H. destruct H as [Hw H].
    rewrite (read_line w _ Hw), (IH H). destruct (read_text false Outside r); reflexivity.
Qed.

Definition head_ok (n : string) : Prop :=
  scan false Outside ("var " ++ n ++ " = Wordlist{" ++ nl) =
  Some ([TName "var"; TName n; TOp "="; TName "Wordlist"; TOp "{"], false, Outside).

Lemma read_list p r :
  head_ok (fst p) -> forallb plain (snd p) = true ->
  read_text false Outside (list_text p r) =
  match read_text false Outside r with
  | Some us => Some (decl_tokens (DList (fst p) "Wordlist" (snd p)) ++ TOp ";" :: us)%list
  | None => None end.
Proof.
  destruct p as [n ws]. cbn [fst snd]. intros Hn Hw. unfold list_text. cbn [fst snd].
  rewrite read_append, Hn, read_lines by exact Hw. rewrite read_append.
  change (scan false Outside ("}" ++ nl)) with (Some ([TOp "}"; TOp ";"], false, Outside)).
  cbn iota beta. destruct (read_text false Outside r) as [us|]; [|reflexivity].
  f_equal. cbn [decl_tokens]. change (name_tokens "Wordlist") with [TName "Wordlist"].
  cbn [app]. rewrite <- app_assoc. reflexivity.
Qed.

Lemma read_lists l :
  Forall (fun p => head_ok (fst p)) l -> forallb (fun p => forallb plain (snd p)) l = true ->
  read_text false Outside (lists_text l) =
  Some (flat_map (fun d => decl_tokens d ++ [TOp ";"])
          (map (fun p => DList (fst p) "Wordlist" (snd p)) l))%list.
Proof.
  intros Hl. induction Hl as [|p l Hp Hl IH]; intros H; [reflexivity|].
  cbn [forallb] in H. apply andb_prop in H. destruct H as [Hw H]. specialize (IH H).
  assert (E : exists r, lists_text (p :: l) = list_text p r /\
    read_text false Outside r = Some (flat_map (fun d => decl_tokens d ++ [TOp ";"])
      (map (fun p => DList (fst p) "Wordlist" (snd p)) l))%list).
  { destruct l as [|q l]; [exists ""; split; reflexivity|].
    exists (nl ++ lists_text (q :: l))%string. split; [reflexivity|]. rewrite <- IH.
    rewrite read_append. change (scan false Outside nl) with (Some (@nil token, false, Outside)).
    cbn iota beta. destruct (read_text false Outside (lists_text (q :: l))); reflexivity. }
  destruct E as (r & -> & E). rewrite (read_list p r Hp Hw), E. cbn [map flat_map].
  rewrite <- app_assoc. reflexivity.
Qed.

Lemma lists_are_text l text :
  Forall (fun p => head_ok (fst p)) l -> forallb (fun p => forallb plain (snd p)) l = true ->
  String.eqb text (lists_head ++ lists_text l) = true ->
  is_text_of text (GoFile "btc" [] (DType "Wordlist" "[]string" ::
                                    map (fun p => DList (fst p) "Wordlist" (snd p)) l)).
Proof.
  intros Hl Hp E. apply String.eqb_eq in E. subst text. unfold is_text_of, tokens_of.
  rewrite read_append.
  change (scan false Outside lists_head) with
    (Some ([TName "package"; TName "btc"; TOp ";"; TName "type"; TName "Wordlist"; TOp "["; TOp "]";
            TName "string"; TOp ";"], false, Outside)).
  cbn iota beta. rewrite (read_lists l Hl Hp). reflexivity.
Qed.
