(** * The source of NewSeedFromMnemonic computes what [Model.v] says *)

From Coq Require Import String.
From Verif Require Import GoBase GoNum Sha256 Ripemd160 Base58 GoRand Model GoSyntax GoSource GoSem SpecSource SourceBase SourcePriv MnemFacts SeedFacts AnyList.
Local Open Scope Z_scope.
Local Opaque sha256 ripemd160 secp_A secp_B secp_P secp_Gx secp_Gy secp_N secp_H set_string16.

Section WithE.
Context (E : curve_params -> ecdsa_lib) (L : limits).

(** ** range loops *)

Lemma evt_range_cons wrap w ws i k v B e s (Q : res flow -> Prop) :
  evt (fun n => let '(e1, s1) := declare k (VInt i) ([] :: e) s in
                let '(e2, s2) := declare v (VStr w) e1 s1 in leave (B n e2 s2))
      (fun r => match r with
                | Done (Next e) s => evt (fun n => range_loop wrap ws (wrap (i + 1)) k v (B n) e s) Q
                | Done (Broken e) s => Q (Done (Next e) s)
                | r => Q r
                end) ->
  evt (fun n => range_loop wrap (w :: ws) i k v (B n) e s) Q.
Proof.
  intros (r & HQ & N & HN). cbn [range_loop].
  destruct (declare k (VInt i) ([] :: e) s) as [e1 s1].
  destruct (declare v (VStr w) e1 s1) as [e2 s2].
  destruct r as [[e3|e3|vs] s3|p s3| |].
  1: destruct HQ as (r' & Hr' & N' & H'); exists r'; split; [exact Hr'|]; exists (max N N');
     intros n Hn; rewrite HN by lia; cbn [andthen]; apply H'; lia.
  all: eexists; (split; [exact HQ|]); exists N; intros n Hn; now rewrite HN.
Qed.

(** the search for the first equal word *)
Lemma evt_search wrap word l (g : Z -> env) s B (Q : res flow -> Prop) :
  (forall z, 0 <= z <= len l -> wrap z = z) ->
  (forall n j w, index l j = Ret w ->
     leave (B n ([("i"%string, SVal (VInt j))] :: g (-1)) s) =
     if str_eqb word w then Done (Broken (g j)) s else Done (Next (g (-1))) s) ->
  Q (Done (Next (g (match find_word word l 0 with Some j => j | None => -1 end))) s) ->
  evt (fun n => range_loop wrap l 0 "i" "_" (B n) (g (-1)) s) Q.
Proof.
  intros Hroom HB. change 0 with (len (@nil gostring)).
  assert (forall l' pre, pre ++ l' = l ->
            Q (Done (Next (g (match find_word word l' (len pre) with Some j => j | None => -1 end))) s) ->
            evt (fun n => range_loop wrap l' (len pre) "i" "_" (B n) (g (-1)) s) Q) as H;
    [|now apply (H l [])].
  induction l' as [|w l' IH]; intros pre Hl HQ.
  - cbn [range_loop]. apply evt_const. exact HQ.
  - apply evt_range_cons.
    assert (index l (len pre) = Ret w) as Hi.
    { unfold index, len. subst l. replace (0 <=? Z.of_nat (length pre)) with true by (symmetry; apply Z.leb_le; lia).
      rewrite Nat2Z.id, nth_error_app2, Nat.sub_diag by lia. reflexivity. }
    apply (evt_ext _ (fun _ => if str_eqb word w then Done (Broken (g (len pre))) s else Done (Next (g (-1))) s)).
    { intros n. exact (HB n (len pre) w Hi). }
    cbn [find_word] in HQ. apply evt_const. destruct (str_eqb word w).
    + exact HQ.
    + rewrite Hroom by (unfold len; subst l; rewrite app_length; cbn [length]; lia).
      replace (len pre + 1) with (len (pre ++ [w])) in * by (unfold len; rewrite app_length; cbn; lia).
      apply IH; [|exact HQ]. now rewrite <- app_assoc.
Qed.

(** the loop over the words of the phrase *)
Lemma evt_words wrap l (g : gostring -> env) s B k v ws i b (Q : res flow -> Prop) :
  (forall i w b,
     evt (fun n => let '(e1, s1) := declare k (VInt i) ([] :: g b) s in
                   let '(e2, s2) := declare v (VStr w) e1 s1 in leave (B n e2 s2))
       (fun r => r = match find_word w l 0 with
                     | None => Done (Returned [VNil; VErr EInvalidMnemonic]) s
                     | Some j => Done (Next (g (b ++ pad_left 11 (sprintf_b j)))) s
                     end)) ->
  Q (match words_binary ws l with
     | None => Done (Returned [VNil; VErr EInvalidMnemonic]) s
     | Some x => Done (Next (g (b ++ x))) s
     end) ->
  evt (fun n => range_loop wrap ws i k v (B n) (g b) s) Q.
Proof.
  intros HB. revert i b. induction ws as [|w ws IH]; intros i b HQ; cbn [words_binary] in HQ.
  - cbn [range_loop]. apply evt_const. now rewrite app_nil_r in HQ.
  - apply evt_range_cons. eapply evt_weaken; [apply HB|]. cbv beta. intros r ->.
    destruct (find_word w l 0) as [j|]; [|exact HQ].
    apply IH. destruct (words_binary ws l); [|exact HQ]. now rewrite <- app_assoc.
Qed.

Lemma find_word_range w l i j : find_word w l i = Some j -> i <= j.
Proof.
  revert i. induction l as [|x l IH]; intros i; cbn; [discriminate|].
  destruct (str_eqb w x); [intros [= ->]; lia|]. intros H%IH. lia.
Qed.

(** the loop over groups of four digits *)
Lemma evt_nibbles binary (g : Z -> gostring -> env) h rd C P B new lg (Q : res flow -> Prop) :
  (forall n i x s, C n (g i x) s = Done [VBool (i <? len binary)] s) ->
  (forall n i x s, 0 <= i <= len binary -> P n (g i x) s = Done (Next (g (i + 4) x)) s) ->
  (forall h1 pre rest x lg, (length h <= length h1)%nat -> binary = pre ++ rest -> rest <> [] ->
     evt (fun n => B n (g (len pre) x) (State (h1 ++ []) rd lg))
       (fun r => exists new',
          match rest with
          | c1 :: c2 :: c3 :: c4 :: _ =>
              r = Done (Next (g (len pre) (x ++ bigIntToHex (set_string2 [c1; c2; c3; c4]))))
                       (State (h1 ++ new') rd (lg ++ [[c1; c2; c3; c4]]))
          | _ => r = Crash PIndex (State (h1 ++ new') rd lg)
          end)) ->
  (forall new' r,
     match snd (nibbles binary) with
     | Ret x => r = Done (Next (g (len binary) x)) (State (h ++ new') rd (lg ++ fst (nibbles binary)))
     | Panic p => r = Crash p (State (h ++ new') rd (lg ++ fst (nibbles binary)))
     end -> Q r) ->
  evt (fun n => for_loop n (C n) (P n) (B n) (g 0 []) (State (h ++ new) rd lg)) Q.
Proof.
  intros HC HP HB HQ.
  apply (evt2_evt (fun m n => for_loop m (C n) (P n) (B n) (g 0 []) (State (h ++ new) rd lg))).
  assert (forall k pre rest x new lg0, (length rest < k)%nat -> binary = pre ++ rest ->
    (forall new' r,
     match snd (nibbles rest) with
     | Ret y => r = Done (Next (g (len binary) (x ++ y))) (State (h ++ new') rd (lg0 ++ fst (nibbles rest)))
     | Panic p => r = Crash p (State (h ++ new') rd (lg0 ++ fst (nibbles rest)))
     end -> Q r) ->
    evt2 (fun m n => for_loop m (C n) (P n) (B n) (g (len pre) x) (State (h ++ new) rd lg0)) Q) as H.
  2: { apply (H (S (length binary)) [] binary [] new lg); [lia|reflexivity|exact HQ]. }
  clear HQ new lg. induction k as [|k IH]; intros pre rest x new lg Hk Hb HQ; [lia|].
  apply evt2_for.
  destruct rest as [|c1 rest1].
  { apply (evt_ext _ (fun _ => Done (Broken (g (len pre) x)) (State (h ++ new) rd lg))).
    - intros n. rewrite HC. cbn.
      replace (len pre <? len binary) with false; [reflexivity|].
      symmetry. apply Z.ltb_ge. subst binary. rewrite app_nil_r. lia.
    - apply evt_const. apply (HQ new). cbn [nibbles fst snd]. rewrite !app_nil_r.
      subst binary. now rewrite app_nil_r. }
  apply (evt_ext _ (fun n =>
     andthen (B n (g (len pre) x) (State (h ++ new) rd lg)) (fun c s =>
           match c with
           | Next e => andthen (P n e s) (fun c s => match c with Next e => Done (Next e) s | _ => Stuck end)
           | Broken e => Done (Broken e) s
           | Returned vs => Done (Returned vs) s
           end))).
  { intros n. rewrite HC. cbn.
    replace (len pre <? len binary) with true; [reflexivity|].
    symmetry. apply Z.ltb_lt. subst binary. unfold len. rewrite app_length. cbn [length]. lia. }
  apply evt_andthen. rewrite <- (app_nil_r (h ++ new)).
  eapply evt_weaken; [apply (HB (h ++ new) pre (c1 :: rest1)); [rewrite app_length; lia|exact Hb|discriminate]|].
  cbv beta. intros r (new' & Hr). rewrite <- app_assoc in Hr.
  destruct rest1 as [|c2 [|c3 [|c4 rest]]].
  1-3: subst r; cbn [andthen]; apply evt_const; apply (HQ (new ++ new')); cbn [nibbles fst snd]; now rewrite app_nil_r.
  subst r. cbn [andthen].
  eapply evt_ext;
    [intros n; rewrite HP by (subst binary; unfold len; rewrite app_length; lia); cbn [andthen]; reflexivity|].
  apply evt_const.
  replace (len pre + 4) with (len (pre ++ [c1; c2; c3; c4])) by (unfold len; rewrite app_length; cbn [length]; lia).
  apply (IH (pre ++ [c1; c2; c3; c4]) rest).
  - cbn [length] in Hk. lia.
  - subst binary. now rewrite <- app_assoc.
  - intros new'' r Hr. apply (HQ new''). cbn [nibbles].
    destruct (nibbles rest) as [log [y|q]]; cbn [fst snd bind] in *.
    + rewrite Hr, <- !app_assoc. reflexivity.
    + rewrite Hr, <- !app_assoc. reflexivity.
Qed.

Lemma index_at {A} (pre rest : list A) (j : nat) :
  index (pre ++ rest) (len pre + Z.of_nat j) = match nth_error rest j with Some c => Ret c | None => Panic PIndex end.
Proof.
  unfold index, len. replace (0 <=? _) with true by (symmetry; apply Z.leb_le; lia).
  rewrite <- Nat2Z.inj_add, Nat2Z.id, nth_error_app2 by lia. now rewrite Nat.add_comm, Nat.add_sub.
Qed.

Lemma firstn_more {A} (l : list A) j c : nth_error l j = Some c -> firstn j l ++ [c] = firstn (S j) l.
Proof.
  revert l. induction j as [|j IH]; intros [|x l]; cbn; try discriminate; [now intros [= ->]|].
  intros H. f_equal. now apply IH.
Qed.

Lemma string_of_bit b : string_of_byte (bitchar b) = [bitchar b].
Proof. now destruct b. Qed.

Ltac each_word l b :=
  lazymatch goal with
  | |- evt (fun n => range_loop ?wr ?ws ?i ?k ?v (@?B n) ?e ?s) ?Q =>
      let g := lazymatch eval pattern b in e with ?g _ => g end in
      refine (evt_words wr l g s B k v ws i b Q _ _); cbv beta
  end.
Ltac search word l :=
  lazymatch goal with
  | |- evt (fun n => range_loop ?wr ?ws 0 "i" "_" (@?B n) ?e ?s) ?Q =>
      let g := lazymatch eval pattern (-1) in e with ?g _ => g end in
      refine (evt_search wr word l g s B Q _ _ _); cbv beta
  end.

Lemma run_NewSeedFromMnemonic m p v wl h rd lg :
  roomy L (len (words_of wl)) ->
  (forall b, words_binary (split_space m) (words_of wl) = Some b -> roomy L (len b + 4)) ->
  is_words v wl ->
  (lowest L <= length h)%nat ->
  evt (fun n => run E L n "NewSeedFromMnemonic" [VStr m; VStr p; v] (State h rd lg))
    (fun r => gives h rd (lg ++ fst (NewSeedFromMnemonic m p wl)) (snd (NewSeedFromMnemonic m p wl))
       (or_err VNil (fun _ v (o : option (list byte)) => match o with None => v = VNil | Some b => v = VBytes b end)) r).
Proof.
  intros Hroom Hroom2 Hw. destruct wl as [l|]; cbn [is_words] in Hw; subst v; unfold NewSeedFromMnemonic; cbn [words_of] in *.
  - enter. each_word l (str "").
    + intros i w b. go. to_call. search w l.
      { intros z Hz. apply Hroom. lia. }
      { intros n j x Hj. cbn. rewrite Hj. cbn. now destruct (str_eqb w x). }
      destruct (find_word w l 0) as [j|] eqn:Hf; go.
      * assert (0 <= j) by (eapply find_word_range; eassumption).
        replace (j <? 0) with false by (symmetry; apply Z.ltb_ge; lia). go.
        to_call. pad 11%nat (sprintf_b j). go. reflexivity.
      * change (-1 <? 0) with true. go. reflexivity.
    + destruct (words_binary (split_space m) l) as [binary|] eqn:Hbin; [|go; cbn [fst snd]; rewrite app_nil_r; close].
      go. to_call.
      lazymatch goal with
      | |- evt (fun n => for_loop n (@?C n) (@?P n) (@?B n) ?e (State (?h ++ ?new) ?rd ?lg)) ?Q =>
          let e' := eval pattern (VInt 0), (VStr (str "")) in e in
          lazymatch e' with
          | ?g _ _ =>
              refine (evt_nibbles binary (fun i x => g (VInt i) (VStr x)) h rd C P B new lg Q _ _ _ _); cbv beta
          end
      end.
      * reflexivity.
      * intros n i x s Hi. cbn -[Z.add len]. now rewrite (Hroom2 _ eq_refl) by lia.
      * intros h1 pre rest x lg0 Hlong Hpre Hne. apply (Nat.le_trans _ _ _ Hfloor) in Hlong.
        assert (exists bits, binary = map bitchar bits) as (bits & Hbits).
        { apply words_binary_any in Hbin as (Bs & _ & ->). eauto. }
        assert (forall j c, nth_error rest j = Some c -> index binary (len pre + Z.of_nat j) = Ret c /\
                  string_of_byte c = [c]) as Hix.
        { intros j c Hc. rewrite Hpre, index_at, Hc. split; [reflexivity|].
          assert (In c binary) as Hin by (rewrite Hpre; apply in_or_app; right; eapply nth_error_In, Hc).
          rewrite Hbits in Hin. apply in_map_iff in Hin as (b & <- & _). apply string_of_bit. }
        assert (forall j, nth_error rest j = None -> index binary (len pre + Z.of_nat j) = Panic PIndex) as Hox.
        { intros j Hc. now rewrite Hpre, index_at, Hc. }
        assert (0 <= len pre <= len binary) as Hlen
          by (rewrite Hpre; unfold len; rewrite app_length; lia).
        go. to_call.
        lazymatch goal with
        | |- evt (fun n => for_loop n (@?C n) (@?P n) (@?B n) ([("j"%string, _)] :: [("n"%string, _)] :: ?e) ?s) ?Q =>
            refine (evt_count 4 (min 4 (length rest))
              (fun j => [("j"%string, SVal (VInt (len pre + Z.of_nat j)))] :: [("n"%string, SVal (VStr (firstn j rest)))] :: e)
              (fun j => [("j"%string, SVal (VInt (len pre + Z.of_nat j)))] :: [("n"%string, SVal (VStr (firstn (S j) rest)))] :: e)
              _ s C P B Q _ _ _ _ _ _ _); cbv beta
        end.
        -- cbn [Z.of_nat]. now rewrite Z.add_0_r.
        -- lia.
        -- intros n j Hj. cbn -[Z.add Z.of_nat len Z.sub Z.ltb Nat.ltb firstn].
           do 4 f_equal. rewrite Z.add_simpl_l, (Hroom2 _ eq_refl) by lia.
           destruct (Z.ltb_spec (Z.of_nat j) 4), (Nat.ltb_spec j 4); lia.
        -- intros n j Hj. destruct (nth_error rest j) as [c|] eqn:Hc; [|apply nth_error_None in Hc; lia].
           destruct (Hix _ _ Hc) as [Hi Hs].
           cbn -[Z.add Z.of_nat len index string_of_byte firstn]. rewrite Hi.
           cbn -[Z.add Z.of_nat len index string_of_byte firstn]. rewrite Hs.
           now rewrite (firstn_more _ _ _ Hc).
        -- intros n j Hj. cbn -[Z.add Z.of_nat len firstn].
           rewrite (Hroom2 _ eq_refl) by lia.
           replace (len pre + Z.of_nat j + 1) with (len pre + Z.of_nat (S j)) by lia. reflexivity.
        -- intros Hlt. exists PIndex.
           assert (nth_error rest (min 4 (length rest)) = None) as Hc by (apply nth_error_None; lia).
           split.
           ++ intros n. cbn -[Z.add Z.of_nat len index firstn Nat.min]. now rewrite (Hox _ Hc).
           ++ go. exists []. destruct rest as [|c1 [|c2 [|c3 [|c4 rest]]]]; try reflexivity.
              cbn in Hlt. lia.
        -- intros Hlt. destruct rest as [|c1 [|c2 [|c3 [|c4 rest]]]]; try discriminate.
           cbn [firstn]. go. fork; go.
           ++ calls (run_bigIntToHex E L _ (Some z)). { eexists; split; [reflexivity|]. apply get_new. }
              intros r ->. go. eexists. reflexivity.
           ++ calls (run_bigIntToHex E L _ None). { reflexivity. }
              intros r ->. go. eexists. reflexivity.
      * intros new r Hr.
        assert (forall hash, snd (nibbles binary) = Ret hash -> 0 <= len hash <= len binary) as Hlen.
        { intros hash Hh. apply words_binary_any in Hbin as (Bs & _ & ->). rewrite nibbles_bits in Hh. cbn [snd] in Hh.
          destruct (_ =? 0)%nat; [|discriminate]. injection Hh as <-. unfold len.
          rewrite !map_length, quads_length. pose proof (Nat.div_le_upper_bound (length (concat Bs)) 4 (length (concat Bs)) ltac:(lia) ltac:(lia)). lia. }
        assert (roomy L (len binary + 4)) as Hroom3 by (apply Hroom2; reflexivity). clear Hroom Hroom2.
        destruct (nibbles binary) as [log1 [hash|q]]; cbn [fst snd] in *; subst r; [specialize (Hlen _ eq_refl)|]; go; [|close].
        remember (h ++ new) as h1 eqn:Hh1. rewrite <- (app_nil_r h1).
        fork; go; [|cbn [fst snd]; exists new; now rewrite app_nil_r, Hh1].
        fork; go; [|cbn [fst snd]; eexists; rewrite Hh1, <- app_assoc; reflexivity].
        fork; go; [|cbn [fst snd]; eexists; eexists; rewrite Hh1, <- app_assoc; split; reflexivity].
        calls (run_bigIntToHex E L _ (Some (set_bytes (sha256 a1)))). { eexists; split; [reflexivity|]. apply get_new. }
        intros r ->. go. to_call. pad 64%nat (bigIntToHex (Some (set_bytes (sha256 a1)))). go.
        fork; go; [|cbn [fst snd]; eexists; rewrite Hh1, <- app_assoc; reflexivity].
        fork; go; unfold log_line; cbn [fst snd heap source logged]; eexists; eexists; rewrite Hh1, <- !app_assoc; (split; [reflexivity|]).
        -- reflexivity.
        -- eexists. split; reflexivity.
  - enter. each_word (@nil gostring) (str "").
    + intros i w b. go. cbn [range_loop]. go. change (-1 <? 0) with true. go. reflexivity.
    + destruct (split_space m) as [|w ws] eqn:Hs; [now apply split_space_nonempty in Hs|].
      cbn [words_binary find_word]. go. cbn [fst snd]; rewrite app_nil_r; close.
Qed.
End WithE.
