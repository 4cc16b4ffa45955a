(** * The built-in word lists: characters, languages, abbreviations *)

From Coq Require Import ZifyNat.
From Verif Require Import GoBase GoNum Sha256 Base58 GoRand Model Spec SpecMore SpecText.
From Verif Require Import NumFacts MnemFacts MnemProps SeedFacts WordFacts CallFacts MnemWitness AnyList.
From Verif Require Import WordsEnglish WordsFrench WordsJapanese WordsItalian WordsSpanish WordsKorean
  WordsCzech WordsChineseTraditional WordsChineseSimplified.
Local Open Scope Z_scope.
Local Opaque sha256.

(** ** A text without space that occurs in a phrase occurs in one of its words *)

Lemma pattern_piece s : ~ In x20 s -> forall k m, (length m <= k)%nat -> (exists a b, m = a ++ s ++ b) ->
  exists w, In w (split_space m) /\ exists a b, w = a ++ s ++ b.
Proof.
  intros Hs. induction k as [|k IH]; intros m Hm (a & b & E).
  - destruct m; [|cbn in Hm; lia]. exists []. split; [left; reflexivity|]. exists a, b. exact E.
  - destruct (space_dec m) as [N|(c & d & -> & N)].
    + exists m. split; [|eauto]. assert (split_space m = [m]) as -> by (apply spaced_iff; constructor; exact N).
      left. reflexivity.
    + rewrite split_space_app by exact N. rewrite app_length in Hm. cbn [length] in Hm.
      apply app_eq_app in E as (l & [(-> & E)|(-> & E)]).
      * apply app_eq_app in E as (l2 & [(-> & E)|(-> & E)]).
        -- destruct l2 as [|y l2].
           ++ cbn [app] in E. exists (a ++ l). split; [left; reflexivity|]. exists a, []. rewrite !app_nil_r. reflexivity.
           ++ injection E as <- _. exfalso. apply Hs, in_app_iff. right. left. reflexivity.
        -- exists (a ++ s ++ l2). split; [left; reflexivity|eauto].
      * destruct l as [|y l]; cbn [app] in E.
        -- destruct s as [|y s]; cbn [app] in E.
           ++ exists c. split; [left; reflexivity|]. exists c, []. rewrite app_nil_r. reflexivity.
           ++ injection E as <- _. exfalso. apply Hs. left. reflexivity.
        -- injection E as <- E. destruct (IH d ltac:(lia)) as (w & Hw & Hc); [exists l, b; exact E|].
           exists w. split; [right; exact Hw|exact Hc].
Qed.

Lemma pattern_refused s l m p : ~ In x20 s -> (forall w, In w l -> ~ exists a b, w = a ++ s ++ b) ->
  (exists a b, m = a ++ s ++ b) -> NewSeedFromMnemonic m p (Some l) = ([], Ret (Err EInvalidMnemonic)).
Proof.
  intros Hs Hl Hm. apply NewSeed_unknown. destruct (pattern_piece s Hs _ m (le_n _) Hm) as (w & Hw & Hc).
  exists w. split; [exact Hw|]. cbn [words_of]. intros Hin. exact (Hl w Hin Hc).
Qed.

Lemma byte_refused c l m p : c <> x20 -> (forall w, In w l -> ~ In c w) -> In c m ->
  NewSeedFromMnemonic m p (Some l) = ([], Ret (Err EInvalidMnemonic)).
Proof.
  intros Hc Hl Hm. apply (pattern_refused [c]).
  - intros [E|[]]. congruence.
  - intros w Hw (a & b & ->). apply (Hl _ Hw). apply in_app_iff. right. left. reflexivity.
  - apply in_split in Hm as (a & b & ->). exists a, b. reflexivity.
Qed.

(** ** The bytes of the lists *)

Definition bytes_in (ok : byte -> bool) (l : list gostring) : bool := forallb (forallb ok) l.
Lemma bytes_in_ok ok l w c : bytes_in ok l = true -> In w l -> In c w -> ok c = true.
Proof. unfold bytes_in. intros H Hw Hc. rewrite forallb_forall in H. specialize (H _ Hw). rewrite forallb_forall in H. auto. Qed.

Definition az (c : byte) : bool :=
  match c with
  | x61 | x62 | x63 | x64 | x65 | x66 | x67 | x68 | x69 | x6a | x6b | x6c | x6d | x6e | x6f | x70 | x71 | x72
  | x73 | x74 | x75 | x76 | x77 | x78 | x79 | x7a => true
  | _ => false
  end.

(** a-z, the accents, the leading bytes of the other scripts, continuation bytes. *)
Definition list_byte (c : byte) : bool :=
  match c with
  | x61 | x62 | x63 | x64 | x65 | x66 | x67 | x68 | x69 | x6a | x6b | x6c | x6d | x6e | x6f | x70 | x71 | x72
  | x73 | x74 | x75 | x76 | x77 | x78 | x79 | x7a | x80 | x81 | x82 | x83 | x84 | x85 | x86 | x87 | x88 | x89
  | x8a | x8b | x8c | x8d | x8e | x8f | x90 | x91 | x92 | x93 | x94 | x95 | x96 | x97 | x98 | x99 | x9a | x9b
  | x9c | x9d | x9e | x9f | xa0 | xa1 | xa2 | xa3 | xa4 | xa5 | xa6 | xa7 | xa8 | xa9 | xaa | xab | xac | xad
  | xae | xaf | xb0 | xb1 | xb2 | xb3 | xb4 | xb5 | xb6 | xb7 | xb8 | xb9 | xba | xbb | xbc | xbd | xbe | xbf
  | xcc | xe1 | xe3 | xe4 | xe5 | xe6 | xe7 | xe8 | xe9 => true
  | _ => false
  end.
Lemma builtin_bytes : forallb (bytes_in list_byte) builtin_lists = true.
Proof. vm_compute. reflexivity. Qed.
Lemma builtin_byte l w c : In l builtin_lists -> In w l -> In c w -> list_byte c = true.
Proof. intros Hl. pose proof builtin_bytes as H. rewrite forallb_forall in H. apply bytes_in_ok, H, Hl. Qed.

Lemma ascii_lists_bytes : forallb (bytes_in az) [EnglishWordlist; ItalianWordlist; CzechWordlist] = true.
Proof. vm_compute. reflexivity. Qed.

Lemma no_e3 : forallb (bytes_in (fun c => match c with xe3 => false | _ => true end))
  [EnglishWordlist; FrenchWordlist; ItalianWordlist; SpanishWordlist; KoreanWordlist;
   CzechWordlist; ChineseTraditionalWordlist; ChineseSimplifiedWordlist] = true.
Proof. vm_compute. reflexivity. Qed.

Lemma az_in c : az c = true -> In c (str "abcdefghijklmnopqrstuvwxyz").
Proof. destruct c; vm_compute; try discriminate; intros _; tauto. Qed.

Lemma ascii_refused l m p c : In l builtin_lists -> In c m -> byte_number c < 128 ->
  ~ In c (x20 :: str "abcdefghijklmnopqrstuvwxyz") ->
  NewSeedFromMnemonic m p (Some l) = ([], Ret (Err EInvalidMnemonic)).
Proof.
  intros Hl Hm Hc Hn. apply (byte_refused c); [|intros w Hw Hin|exact Hm].
  - intros ->. apply Hn. left. reflexivity.
  - pose proof (builtin_byte l w c Hl Hw Hin) as K. change (byte_number c) with (b2z c) in Hc.
    assert (az c = true) as A by (destruct c; try reflexivity; first [discriminate K | vm_compute in Hc; discriminate Hc]).
    apply Hn. right. apply az_in, A.
Qed.

Lemma foreign_refused l m p c : In l [EnglishWordlist; ItalianWordlist; CzechWordlist] -> In c m ->
  ~ In c (x20 :: str "abcdefghijklmnopqrstuvwxyz") ->
  NewSeedFromMnemonic m p (Some l) = ([], Ret (Err EInvalidMnemonic)).
Proof.
  intros Hl Hm Hn. apply (byte_refused c); [|intros w Hw Hin|exact Hm].
  - intros ->. apply Hn. left. reflexivity.
  - pose proof ascii_lists_bytes as K. rewrite forallb_forall in K. pose proof (bytes_in_ok _ _ _ _ (K l Hl) Hw Hin) as A.
    apply Hn. right. apply az_in, A.
Qed.

(** ** Composed characters *)

Lemma b2z_z2b_small z : 0 <= z < 256 -> b2z (z2b z) = z.
Proof. intros H. apply b2z_z2b, H. Qed.

Definition voiced_at (w : gostring) : bool :=
  match w with
  | xe3 :: x81 :: c :: _ =>
      match c with
      | x8c | x8e | x90 | x92 | x94 | x96 | x98 | x9a | x9c | x9e | xa0 | xa2 | xa5 | xa7 | xa9 | xb0 | xb1 |
      xb3 | xb4 | xb6 | xb7 | xb9 | xba | xbc | xbd => true
      | _ => false
      end
  | xe3 :: x82 :: (x94 | x9e) :: _ => true
  | _ => false
  end.
Fixpoint voiced_in (w : gostring) : bool :=
  voiced_at w || match w with [] => false | _ :: w' => voiced_in w' end.
Lemma voiced_in_app x cp y : In cp voiced_kana -> voiced_in (x ++ utf8 cp ++ y) = true.
Proof.
  intros H. induction x as [|c x IH].
  - assert (voiced_at (utf8 cp ++ y) = true) as K.
    { unfold voiced_kana in H. repeat (destruct H as [<-|H]; [reflexivity|]). destruct H. }
    cbn [app]. destruct (utf8 cp ++ y) as [|c r]; [discriminate K|]. cbn [voiced_in]. rewrite K. reflexivity.
  - cbn [app voiced_in]. rewrite IH. apply orb_true_r.
Qed.
Lemma japanese_no_voiced : forallb (fun w => negb (voiced_in w)) JapaneseWordlist = true.
Proof. vm_compute. reflexivity. Qed.

Lemma utf8_lead cp : composed cp -> exists c s, utf8 cp = c :: s /\ ~ In x20 (utf8 cp) /\
  (list_byte c = false \/ c = xe3 /\ In cp voiced_kana).
Proof.
  intros [H|[H|H]].
  - unfold utf8. destruct (Z.ltb_spec cp 0x800) as [_|]; [|lia].
    assert (cp / 64 = 3) as -> by (symmetry; apply (Z.div_unique cp 64 3 (cp - 192)); lia).
    eexists _, _. split; [reflexivity|]. pose proof (Z.mod_pos_bound cp 64 ltac:(lia)) as B. split; [|left; reflexivity].
    intros [E|[E|[]]]; [discriminate|]. apply (f_equal b2z) in E. rewrite b2z_z2b_small in E by lia.
    change (b2z x20) with 32 in E. lia.
  - unfold utf8. destruct (Z.ltb_spec cp 0x800) as [|_]; [lia|].
    assert (10 <= cp / 4096 <= 13) as A.
    { split; [apply Z.div_le_lower_bound; lia|]. apply Z.lt_succ_r, Z.div_lt_upper_bound; lia. }
    eexists _, _. split; [reflexivity|]. pose proof (Z.mod_pos_bound cp 64 ltac:(lia)) as B1.
    pose proof (Z.mod_pos_bound (cp / 64) 64 ltac:(lia)) as B2. split.
    + intros [E|[E|[E|[]]]]; apply (f_equal b2z) in E; rewrite b2z_z2b_small in E by lia; change (b2z x20) with 32 in E; lia.
    + left. assert (cp / 4096 = 10 \/ cp / 4096 = 11 \/ cp / 4096 = 12 \/ cp / 4096 = 13) as D by lia.
      destruct D as [-> |[-> |[-> | ->]]]; reflexivity.
  - assert (forallb (fun cp => match utf8 cp with c :: s => byte_eqb c xe3 | [] => false end &&
              forallb (fun b => negb (byte_eqb b x20)) (utf8 cp)) voiced_kana = true) as K by (vm_compute; reflexivity).
    rewrite forallb_forall in K. pose proof (K cp H) as K1. apply andb_prop in K1 as [K1 K2].
    destruct (utf8 cp) as [|c s] eqn:E; [discriminate|]. apply byte_eqb_eq in K1 as ->.
    eexists _, _. split; [reflexivity|]. split; [|right; auto].
    intros Hin. rewrite forallb_forall in K2. apply K2 in Hin. discriminate.
Qed.

Lemma composed_refused l cp a b p : In l builtin_lists -> composed cp ->
  NewSeedFromMnemonic (a ++ utf8 cp ++ b) p (Some l) = ([], Ret (Err EInvalidMnemonic)).
Proof.
  intros Hl Hc. destruct (utf8_lead cp Hc) as (c & s & E & Hs & K).
  apply (pattern_refused (utf8 cp)); [exact Hs| |eauto].
  intros w Hw (x & y & Ew).
  assert (In c w) as Hin by (subst w; rewrite E; apply in_app_iff; right; left; reflexivity).
  destruct K as [K|[-> Hv]].
  - rewrite (builtin_byte l w c Hl Hw Hin) in K. discriminate.
  - pose proof no_e3 as N. rewrite forallb_forall in N.
    assert (l = JapaneseWordlist \/ In l [EnglishWordlist; FrenchWordlist; ItalianWordlist; SpanishWordlist; KoreanWordlist;
      CzechWordlist; ChineseTraditionalWordlist; ChineseSimplifiedWordlist]) as [->|Hl'].
    { clear - Hl. unfold builtin_lists in Hl. cbn [In] in *. intuition. }
    + pose proof japanese_no_voiced as J. rewrite forallb_forall in J. specialize (J _ Hw).
      subst w. rewrite (voiced_in_app _ _ _ Hv) in J. discriminate.
    + pose proof (bytes_in_ok _ _ _ _ (N l Hl') Hw Hin) as F. discriminate F.
Qed.

(** ** Languages *)

Definition disjoint (l l' : list gostring) : Prop := forall w, In w l -> ~ In w l'.
Lemma disjoint_sym l l' : disjoint l l' -> disjoint l' l.
Proof. intros H w Hw Hw'. exact (H w Hw' Hw). Qed.

Lemma NoDup_app_disjoint {A} (l l' : list A) : NoDup (l ++ l') -> forall w, In w l -> ~ In w l'.
Proof.
  induction l as [|x l IH]; [intros _ w []|]. cbn [app]. intros H w [->|Hw] Hw'; inversion H as [|? ? Hx Hr]; subst.
  - apply Hx, in_app_iff. right. exact Hw'.
  - exact (IH Hr w Hw Hw').
Qed.
Lemma NoDup_app_r {A} (l l' : list A) : NoDup (l ++ l') -> NoDup l'.
Proof. induction l as [|x l IH]; [trivial|]. cbn [app]. intros H. inversion H. auto. Qed.

(** The class of a word by its first byte: Latin, Korean, Japanese, Chinese. *)
Definition script (w : gostring) : nat :=
  match w with
  | [] => 0
  | xe1 :: _ => 2
  | xe3 :: _ => 3
  | (xe4 | xe5 | xe6 | xe7 | xe8 | xe9) :: _ => 4
  | c :: _ => if az c then 1 else 0
  end%nat.
Definition script_all (s : nat) (l : list gostring) : bool := forallb (fun w => (script w =? s)%nat) l.
Lemma script_disjoint s s' l l' : script_all s l = true -> script_all s' l' = true -> s <> s' -> disjoint l l'.
Proof.
  unfold script_all. intros H H' N w Hw Hw'. rewrite forallb_forall in H, H'.
  apply H, Nat.eqb_eq in Hw. apply H', Nat.eqb_eq in Hw'. congruence.
Qed.
Lemma scripts : script_all 1 EnglishWordlist && script_all 1 FrenchWordlist && script_all 1 ItalianWordlist &&
  script_all 1 SpanishWordlist && script_all 1 CzechWordlist && script_all 2 KoreanWordlist &&
  script_all 3 JapaneseWordlist && script_all 4 ChineseTraditionalWordlist && script_all 4 ChineseSimplifiedWordlist = true.
Proof. vm_compute. reflexivity. Qed.

Lemma latin_nodup_en : NoDup (EnglishWordlist ++ ItalianWordlist ++ SpanishWordlist ++ CzechWordlist).
Proof. apply nodupb_ok. vm_compute. reflexivity. Qed.
Lemma latin_nodup_fr : NoDup (FrenchWordlist ++ ItalianWordlist ++ SpanishWordlist ++ CzechWordlist).
Proof. apply nodupb_ok. vm_compute. reflexivity. Qed.

Lemma latin_disjoint (A I S C : list gostring) : NoDup (A ++ I ++ S ++ C) ->
  disjoint A I /\ disjoint A S /\ disjoint A C /\ disjoint I S /\ disjoint I C /\ disjoint S C.
Proof.
  intros H.
  pose proof (NoDup_app_disjoint _ _ H) as H1. apply NoDup_app_r in H. pose proof (NoDup_app_disjoint _ _ H) as H2.
  apply NoDup_app_r in H. pose proof (NoDup_app_disjoint _ _ H) as H3. unfold disjoint.
  repeat split; intros w Hw Hw';
    first [apply (H1 w Hw); rewrite !in_app_iff; tauto | apply (H2 w Hw); rewrite !in_app_iff; tauto | exact (H3 w Hw Hw')].
Qed.

(** The same facts in the order of the groups, from the first to the later ones. *)
Inductive apart : list (list (list gostring)) -> Prop :=
| apart_nil : apart []
| apart_cons g gs : (forall g' l l', In g' gs -> In l g -> In l' g' -> disjoint l l') -> apart gs -> apart (g :: gs).

Lemma apart_ok gs : apart gs -> forall i j g g' l l', nth_error gs i = Some g -> nth_error gs j = Some g' -> i <> j ->
  In l g -> In l' g' -> disjoint l l'.
Proof.
  induction 1 as [|g0 gs H0 Hr IH]; intros i j g g' l l' Hi Hj N Hl Hl'.
  - destruct i; discriminate.
  - destruct i as [|i], j as [|j]; cbn [nth_error] in Hi, Hj.
    + congruence.
    + injection Hi as <-. apply (H0 g'); [exact (nth_error_In _ _ Hj)|assumption|assumption].
    + injection Hj as <-. apply disjoint_sym, (H0 g); [exact (nth_error_In _ _ Hi)|assumption|assumption].
    + apply (IH i j g g'); auto.
Qed.

Lemma groups_apart : apart language_groups.
Proof.
  pose proof scripts as S. do 8 (apply andb_prop in S as [S ?]).
  pose proof (latin_disjoint _ _ _ _ latin_nodup_en) as (E1 & E2 & E3 & E4 & E5 & E6).
  pose proof (latin_disjoint _ _ _ _ latin_nodup_fr) as (F1 & F2 & F3 & _).
  pose proof script_disjoint as D. unfold language_groups.
  assert (1 <> 2 /\ 1 <> 3 /\ 1 <> 4 /\ 2 <> 3 /\ 2 <> 4 /\ 3 <> 4 /\
          2 <> 1 /\ 3 <> 1 /\ 4 <> 1 /\ 3 <> 2 /\ 4 <> 2 /\ 4 <> 3)%nat as N by (repeat split; discriminate).
  decompose [and] N. clear N.
  Local Ltac split_in := repeat match goal with
    | H : In _ _ |- _ => progress cbn [In] in H
    | H : _ \/ _ |- _ => destruct H as [<-|H]
    | H : False |- _ => destruct H
    end.
  do 7 (apply apart_cons; [intros g' l l' Hg Hl Hl'; split_in;
    match goal with
    | H : disjoint ?A ?B |- disjoint ?A ?B => exact H
    | H : disjoint ?B ?A |- disjoint ?A ?B => exact (disjoint_sym _ _ H)
    | HA : script_all ?s ?A = true, HB : script_all ?t ?B = true |- disjoint ?A ?B =>
        apply (D s t A B HA HB); assumption
    end|]).
  apply apart_nil.
Qed.

Lemma languages_apart i j g g' l l' w : nth_error language_groups i = Some g -> nth_error language_groups j = Some g' ->
  i <> j -> In l g -> In l' g' -> In w l -> ~ In w l'.
Proof. intros. eapply (apart_ok _ groups_apart i j g g'); eassumption. Qed.

(** A phrase with a word of another language is refused. *)
Lemma language_refused i j g g' l l' ws m w p : nth_error language_groups i = Some g ->
  nth_error language_groups j = Some g' -> i <> j -> In l g -> In l' g' ->
  spaced ws m -> In w ws -> In w l ->
  NewSeedFromMnemonic m p (Some l') = ([], Ret (Err EInvalidMnemonic)).
Proof.
  intros Hi Hj N Hl Hl' Hs Hw Hwl. apply NewSeed_unknown. exists w. split.
  - apply spaced_iff in Hs. rewrite Hs. exact Hw.
  - exact (languages_apart i j g g' l l' w Hi Hj N Hl Hl' Hwl).
Qed.

Lemma group_builtin i g l : nth_error language_groups i = Some g -> In l g -> In l builtin_lists.
Proof.
  intros H Hl. apply nth_error_In in H. unfold language_groups in H. unfold builtin_lists. cbn [In] in *.
  repeat (destruct H as [<-|H]; [cbn [In] in Hl; repeat (destruct Hl as [<-|Hl]; [tauto|]); destruct Hl|]). destruct H.
Qed.

Lemma entropy_length_some n : entropy_length n <> None -> exists k, (4 <= k <= 8)%nat /\ n = Z.of_nat (3 * k).
Proof.
  intros H. destruct (in_dec Z.eq_dec n [12; 15; 18; 21; 24]) as [I|I].
  - cbn [In] in I. destruct I as [<-|[<-|[<-|[<-|[<-|[]]]]]]; [exists 4%nat|exists 5%nat|exists 6%nat|exists 7%nat|exists 8%nat];
      (split; [lia|reflexivity]).
  - apply entropy_length_none in I. contradiction.
Qed.

(** So is every generated phrase. *)
Lemma generated_language i j g g' l l' n rd s p : nth_error language_groups i = Some g ->
  nth_error language_groups j = Some g' -> i <> j -> In l g -> In l' g' ->
  NewMnemonic n (Some l) rd = Ret (Ok s) ->
  NewSeedFromMnemonic s p (Some l') = ([], Ret (Err EInvalidMnemonic)).
Proof.
  intros Hi Hj N Hl Hl' H.
  assert (entropy_length n <> None) as Hn.
  { intros E. unfold NewMnemonic in H. rewrite E in H. discriminate. }
  apply entropy_length_some in Hn as (k & Hk & ->).
  pose proof builtin_proper as P. rewrite Forall_forall in P. specialize (P l (group_builtin _ _ _ Hi Hl)).
  assert (Forall (fun w => ~ In x20 w) (firstn 2048 l)) as Sp by (rewrite (proper_firstn l P); exact (proper_space l P)).
  destruct (NewMnemonic_words k l rd s Hk Sp H) as (e & rest & ws & _ & _ & _ & Hs & Lw & Hp).
  apply phrase_bits_in in Hp. rewrite (proper_firstn l P) in Hp.
  destruct ws as [|w ws]; [cbn in Lw; lia|].
  apply (language_refused i j g g' l l' (w :: ws) s w p Hi Hj N Hl Hl' Hs); [left; reflexivity|].
  inversion Hp. assumption.
Qed.

(** ** The two Chinese lists *)

Fixpoint differing (l l' : list gostring) : list gostring :=
  match l, l' with
  | a :: l, b :: l' => if str_eqb a b then differing l l' else b :: differing l l'
  | _, _ => []
  end.
Lemma differing_in l : forall l' i w, length l = length l' -> nth_error l' i = Some w ->
  nth_error l i = Some w \/ In w (differing l l').
Proof.
  induction l as [|a l IH]; intros l' i w L H; destruct l' as [|b l']; try discriminate.
  - destruct i; discriminate.
  - cbn [differing]. destruct i as [|i]; cbn [nth_error] in *.
    + injection H as ->. destruct (str_eqb a w) eqn:E; [apply str_eqb_eq in E; left; congruence|right; left; reflexivity].
    + destruct (IH l' i w ltac:(cbn in L; lia) H) as [D|D]; [left; exact D|right].
      destruct (str_eqb a b); [exact D|right; exact D].
Qed.
Lemma chinese_check : NoDup (ChineseTraditionalWordlist ++ differing ChineseTraditionalWordlist ChineseSimplifiedWordlist).
Proof. apply nodupb_ok. vm_compute. reflexivity. Qed.

Lemma same_places (T S : list gostring) : NoDup (T ++ differing T S) -> length T = length S ->
  forall w, In w T -> In w S -> exists i, nth_error T i = Some w /\ nth_error S i = Some w.
Proof.
  intros N L w HT HS. apply In_nth_error in HS as (i & HS). exists i. split; [|exact HS].
  destruct (differing_in T S i w L HS) as [D|D]; [exact D|].
  exfalso. exact (NoDup_app_disjoint _ _ N w HT D).
Qed.

Lemma chinese_same_place w : In w ChineseTraditionalWordlist -> In w ChineseSimplifiedWordlist ->
  exists i, nth_error ChineseTraditionalWordlist i = Some w /\ nth_error ChineseSimplifiedWordlist i = Some w.
Proof.
  apply (same_places _ _ chinese_check). pose proof builtin_proper as P. rewrite Forall_forall in P.
  rewrite (proj1 (P ChineseTraditionalWordlist ltac:(unfold builtin_lists; cbn [In]; tauto))).
  rewrite (proj1 (P ChineseSimplifiedWordlist ltac:(unfold builtin_lists; cbn [In]; tauto))). reflexivity.
Qed.

Lemma words_binary_same T S ws : NoDup T -> NoDup S ->
  (forall w, In w ws -> exists i, nth_error T i = Some w /\ nth_error S i = Some w) ->
  words_binary ws T = words_binary ws S.
Proof.
  intros NT NS. induction ws as [|w ws IH]; intros H; [reflexivity|]. cbn [words_binary].
  destruct (H w (or_introl eq_refl)) as (i & HT & HS).
  rewrite (find_word_nodup w T 0 i NT HT), (find_word_nodup w S 0 i NS HS), IH; [reflexivity|].
  intros w' Hw'. apply H. right. exact Hw'.
Qed.

Lemma chinese_agree ws m p : spaced ws m -> Forall (fun w => In w ChineseTraditionalWordlist) ws ->
  Forall (fun w => In w ChineseSimplifiedWordlist) ws ->
  NewSeedFromMnemonic m p (Some ChineseTraditionalWordlist) = NewSeedFromMnemonic m p (Some ChineseSimplifiedWordlist).
Proof.
  intros Hs HT HS. apply spaced_iff in Hs. rewrite Forall_forall in HT, HS.
  pose proof builtin_proper as P. rewrite Forall_forall in P.
  unfold NewSeedFromMnemonic. cbn [words_of]. rewrite Hs.
  rewrite (words_binary_same ChineseTraditionalWordlist ChineseSimplifiedWordlist ws); [reflexivity| | |].
  - apply proper_nodup, P. unfold builtin_lists. cbn [In]. tauto.
  - apply proper_nodup, P. unfold builtin_lists. cbn [In]. tauto.
  - intros w Hw. apply chinese_same_place; auto.
Qed.

(** ** Abbreviations *)

Definition four (w : gostring) : gostring := firstn 4 (without_accents w).
Lemma latin_four : forallb (fun l => nodupb (map four l)) latin_lists = true.
Proof. vm_compute. reflexivity. Qed.
Lemma four_letters l v w : In l latin_lists -> In v l -> In w l -> same_four_letters v w -> v = w.
Proof.
  intros Hl Hv Hw H. pose proof latin_four as K. rewrite forallb_forall in K.
  exact (NoDup_map_inj four l v w (nodupb_ok _ (K l Hl)) Hv Hw H).
Qed.
Lemma four_letters_phrase l vs ws : In l latin_lists -> Forall (fun v => In v l) vs -> Forall (fun w => In w l) ws ->
  Forall2 same_four_letters vs ws -> vs = ws.
Proof.
  intros Hl Hv Hw H. induction H as [|v w vs ws H1 H2 IH]; [reflexivity|].
  inversion Hv; inversion Hw; subst. f_equal; [apply (four_letters l); assumption|apply IH; assumption].
Qed.

(** ** A phrase of two languages *)

Definition phrase_two : gostring :=
  str "fortune surprise badge phrase double muscle muscle machine surprise surprise service notable notable image fruit badge danger orange civil guide fragile panda romance animal".
Definition places_en : list nat :=
  [732; 1747; 139; 1310; 525; 1164; 1164; 1068; 1747; 1747; 1569; 1204; 1204; 906; 750; 139; 443; 1246; 332; 828; 739; 1275; 1500; 72]%nat.
Definition places_fr : list nat :=
  [854; 1833; 190; 1476; 594; 1286; 1286; 1178; 1833; 1833; 1756; 1331; 1331; 1011; 880; 190; 498; 1387; 403; 953; 861; 1416; 1674; 110]%nat.
Definition entropy_en : list byte := big_bytes 0x5b9b4c45d1e41b2324642cda7b4f10cb4968e297708b377378a633c5c73eeee0.
Definition entropy_fr : list byte := big_bytes 0x6adca45f5c44a541a8349ae53ca76e533a66fcdb80be3e55acc9bb96bb623450.

Lemma phrase_bits_check l ws is B : map (nth_error l) is = map Some ws ->
  forallb (fun i => (i <? 2048)%nat) is = true -> flat_map index_bits is = B -> phrase_bits l ws B.
Proof.
  intros E L <-. exists is. split; [|reflexivity]. revert ws E. induction is as [|i is IH]; intros ws E; destruct ws as [|w ws];
    try discriminate; [constructor|].
  cbn [map forallb] in *. apply andb_prop in L as [L1 L2]. injection E as E1 E2. constructor; [|apply IH; assumption].
  split; [apply Nat.ltb_lt, L1|exact E1].
Qed.

Lemma two_languages_bits :
  phrase_bits EnglishWordlist (split_space phrase_two) (bits entropy_en ++ firstn 8 (bits (sha256 entropy_en))) /\
  phrase_bits FrenchWordlist (split_space phrase_two) (bits entropy_fr ++ firstn 8 (bits (sha256 entropy_fr))).
Proof.
  split; [apply (phrase_bits_check _ _ places_en)|apply (phrase_bits_check _ _ places_fr)]; vm_compute; reflexivity.
Qed.

Lemma two_languages p : exists ws m e f log log', spaced ws m /\ length ws = 24%nat /\
  bip39 EnglishWordlist ws e /\ bip39 FrenchWordlist ws f /\ e <> f /\
  NewSeedFromMnemonic m p (Some EnglishWordlist) = (log, Ret (Ok None)) /\
  NewSeedFromMnemonic m p (Some FrenchWordlist) = (log', Ret (Ok None)).
Proof.
  assert (Hs : spaced (split_space phrase_two) phrase_two) by apply split_spaced.
  assert (Hl : length (split_space phrase_two) = 24%nat) by (vm_compute; reflexivity).
  assert (He : length entropy_en = 32%nat) by (vm_compute; reflexivity).
  assert (Hf : length entropy_fr = 32%nat) by (vm_compute; reflexivity).
  assert (Ne : entropy_en <> entropy_fr) by (intros E; apply (f_equal (hd x00)) in E; vm_compute in E; discriminate E).
  destruct two_languages_bits as [B C].
  assert (E : bip39 EnglishWordlist (split_space phrase_two) entropy_en).
  { unfold bip39. rewrite He. split; [do 4 right; left; reflexivity|]. change (32 / 4)%nat with 8%nat. exact B. }
  assert (F : bip39 FrenchWordlist (split_space phrase_two) entropy_fr).
  { unfold bip39. rewrite Hf. split; [do 4 right; left; reflexivity|]. change (32 / 4)%nat with 8%nat. exact C. }
  assert (PE : proper_list EnglishWordlist) by (apply builtin_in; left; reflexivity).
  assert (PF : proper_list FrenchWordlist) by (apply builtin_in; right; left; reflexivity).
  destruct (proj2 (NewSeed_accepts_24 phrase_two p _ _ (proper_nodup _ PE) (proper_le _ PE) Hs Hl)) as (log & r & R); [eauto|].
  destruct (proj2 (NewSeed_accepts_24 phrase_two p _ _ (proper_nodup _ PF) (proper_le _ PF) Hs Hl)) as (log' & r' & R'); [eauto|].
  pose proof (NewSeed_never_seed _ _ _ _ _ R) as ->. pose proof (NewSeed_never_seed _ _ _ _ _ R') as ->.
  exists (split_space phrase_two), phrase_two, entropy_en, entropy_fr, log, log'. auto 10.
Qed.
