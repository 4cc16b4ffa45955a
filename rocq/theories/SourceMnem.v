(** * The source of NewMnemonic computes what [Model.v] says *)

From Coq Require Import String.
From Verif Require Import GoBase GoNum Sha256 Ripemd160 Base58 GoRand NumFacts HexFacts SpecFacts Model GoSyntax GoSource GoSem SpecSource SourceBase SourcePriv SourceSeed MnemFacts.
Local Open Scope Z_scope.
Local Opaque sha256 ripemd160 secp_A secp_B secp_P secp_Gx secp_Gy secp_N secp_H set_string16.

Section WithE.
Context (E : curve_params -> ecdsa_lib) (L : limits).

(** the loop over groups of eleven bits *)
Lemma evt_phrase (total binary : Z) l (g : Z -> list gostring -> env) h rd lg C P B k new (Q : res flow -> Prop) :
  (forall n i x s, C n (g i x) s = Done [VBool (i <? total)] s) ->
  (forall n i x s, 0 <= i < total -> P n (g i x) s = Done (Next (g (i + 11) x)) s) ->
  (forall new i x, 0 <= i < total ->
     evt (fun n => B n (g i x) (State (h ++ new) rd lg))
       (fun r => exists new',
          r = match set_string2 (bit_chars binary i) with
              | None => Crash PNil (State (h ++ new') rd lg)
              | Some z => match index l z with
                          | Ret w => Done (Next (g i (x ++ [w]))) (State (h ++ new') rd lg)
                          | Panic p => Crash p (State (h ++ new') rd lg)
                          end
              end)) ->
  (11 * Z.of_nat k - 11 < total <= 11 * Z.of_nat k) ->
  (forall new',
     Q match phrase_loop k 0 binary l with
       | Ret ws => Done (Next (g (11 * Z.of_nat k) ws)) (State (h ++ new') rd lg)
       | Panic p => Crash p (State (h ++ new') rd lg)
       end) ->
  evt (fun n => for_loop n (C n) (P n) (B n) (g 0 []) (State (h ++ new) rd lg)) Q.
Proof.
  intros HC HP HB Hk HQ.
  apply (evt2_evt (fun m n => for_loop m (C n) (P n) (B n) (g 0 []) (State (h ++ new) rd lg))).
  assert (forall d j x new, (d + j = k)%nat ->
    (forall new',
     Q match phrase_loop d (11 * Z.of_nat j) binary l with
       | Ret ws => Done (Next (g (11 * Z.of_nat k) (x ++ ws))) (State (h ++ new') rd lg)
       | Panic p => Crash p (State (h ++ new') rd lg)
       end) ->
    evt2 (fun m n => for_loop m (C n) (P n) (B n) (g (11 * Z.of_nat j) x) (State (h ++ new) rd lg)) Q) as H.
  2: { apply (H k O [] new); [lia|exact HQ]. }
  clear HQ new. induction d as [|d IH]; intros j x new Hj HQ; apply evt2_for; cbn [phrase_loop] in HQ.
  - apply (evt_ext _ (fun _ => Done (Broken (g (11 * Z.of_nat k) x)) (State (h ++ new) rd lg))).
    + intros n. rewrite HC. cbn [test one andthen].
      replace (11 * Z.of_nat j <? total) with false by (symmetry; apply Z.ltb_ge; lia).
      now replace j with k by lia.
    + apply evt_const. specialize (HQ new). now rewrite app_nil_r in HQ.
  - apply (evt_ext _ (fun n =>
     andthen (B n (g (11 * Z.of_nat j) x) (State (h ++ new) rd lg)) (fun c s =>
           match c with
           | Next e => andthen (P n e s) (fun c s => match c with Next e => Done (Next e) s | _ => Stuck end)
           | Broken e => Done (Broken e) s
           | Returned vs => Done (Returned vs) s
           end))).
    { intros n. rewrite HC. unfold test, one. cbn [andthen].
      now replace (11 * Z.of_nat j <? total) with true by (symmetry; apply Z.ltb_lt; lia). }
    apply evt_andthen. eapply evt_weaken; [apply HB; lia|].
    cbv beta. intros r (new' & ->).
    destruct (set_string2 (bit_chars binary (11 * Z.of_nat j))) as [z|]; [|cbn [andthen]; apply evt_const; exact (HQ new')].
    destruct (index l z) as [w|q]; cbn [bind] in HQ; [|cbn [andthen]; apply evt_const; exact (HQ new')].
    cbn [andthen].
    eapply evt_ext; [intros n; rewrite HP by lia; cbn [andthen]; reflexivity|].
    apply evt_const.
    replace (11 * Z.of_nat j + 11) with (11 * Z.of_nat (S j)) in * by lia.
    apply IH; [lia|]. intros new''. specialize (HQ new'').
    destruct (phrase_loop d (11 * Z.of_nat (S j)) binary l) as [ws|q]; cbn [bind] in HQ; [|exact HQ].
    now rewrite <- app_assoc.
Qed.

Lemma bit_chars_value z i : exists n, set_string2 (bit_chars z i) = Some n /\ wrap64 n = n.
Proof.
  exists (bval (map (fun j => Z.testbit z (i + Z.of_nat j)) (seq 0 11))). split.
  - rewrite <- set_string2_bits by discriminate. f_equal. unfold bit_chars. rewrite map_map.
    apply map_ext. intros j. unfold big_bit. now destruct (Z.testbit z (i + Z.of_nat j)).
  - pose proof (bval_bound (map (fun j => Z.testbit z (i + Z.of_nat j)) (seq 0 11))) as H.
    rewrite map_length, seq_length in H. change (2 ^ Z.of_nat 11) with 2048 in H.
    unfold wrap64. change (2 ^ 63) with 9223372036854775808. change (2 ^ 64) with 18446744073709551616.
    rewrite Z.mod_small by lia. lia.
Qed.

Lemma sprintf_b_len n k : 0 <= n < 2 ^ Z.of_nat k -> (0 < k)%nat -> (length (sprintf_b n) <= k)%nat.
Proof.
  intros Hn Hk. unfold sprintf_b. rewrite sprint_base_nonneg by lia. rewrite map_length.
  unfold unsigned_digits. destruct (Z.eqb_spec n 0); [cbn; lia|]. apply digits_length_le; lia.
Qed.

(** the entropy drawn has at most as many bits as asked for *)
Lemma drawn_len K rd entropy rest : In K [128; 160; 192; 224; 256] -> rand_int (2 ^ K) rd = Some (entropy, rest) ->
  (length (sprintf_b entropy) <= Z.to_nat K)%nat.
Proof.
  intros HK. assert (exists k, (0 < k)%nat /\ K = Z.of_nat (32 * k)) as (k & Hk & ->).
  { destruct HK as [<-|[<-|[<-|[<-|[<-|[]]]]]];
      [exists 4%nat|exists 5%nat|exists 6%nat|exists 7%nat|exists 8%nat]; (split; [lia|reflexivity]). }
  rewrite rand_int_pow by exact Hk. destruct (_ <? _)%nat eqn:Hl; [discriminate|]. intros [= <- _].
  apply Nat.ltb_ge in Hl. rewrite Nat2Z.id. apply sprintf_b_len; [|lia].
  pose proof (bytes_number_bound (firstn (4 * k) rd)) as H. rewrite firstn_length_le in H by exact Hl.
  replace (2 ^ Z.of_nat (32 * k)) with (256 ^ Z.of_nat (4 * k)); [exact H|].
  change 256 with (2 ^ 8). rewrite <- Z.pow_mul_r by lia. f_equal. lia.
Qed.

Definition phrase_value (ws : list gostring) : value := match ws with [] => VNil | _ => VStrs ws end.

Definition after_entropy := skipn 3 (f_body src_NewMnemonic).

Lemma run_after_entropy K words l h rd lg :
  roomy L 300 ->
  In K [128; 160; 192; 224; 256] ->
  (lowest L <= length h)%nat ->
  evt (fun n => exec_block E L (run E L n) n after_entropy
                  [[("entropyLength", SVal (VInt K)); ("wordlist", SVal (VStrs l)); ("words", SVal (VInt words))]]%string
                  (State (h ++ []) rd lg))
    (fun r => exists new,
       match rand_int (2 ^ K) rd with
       | None => r = Done (Returned [VStr []; VErr ERandRead]) (State (h ++ new) [] lg)
       | Some (entropy, rest) =>
           match mnemonic_of_entropy K entropy l with
           | Ret x => r = Done (Returned [VStr x; VNil]) (State (h ++ new) rest lg)
           | Panic p => r = Crash p (State (h ++ new) rest lg)
           end
       end).
Proof.
  intros Hroom HK Hfloor. assert (Hdraw := drawn_len K rd). specialize (fun e r => Hdraw e r HK).
  assert (0 < K <= 256) as HK0 by (cbn in HK; intuition lia). clear HK.
  assert (exists k, K = Z.of_nat k) as (k & ->) by (exists (Z.to_nat K); lia).
  unfold after_entropy. cbn [skipn f_body src_NewMnemonic]. go.
  replace (Z.of_nat k <? 0) with false by (symmetry; apply Z.ltb_ge; lia). go.
  replace (2 ^ Z.of_nat k <=? 0) with false by (symmetry; apply Z.leb_gt; apply Z.pow_pos_nonneg; lia). go.
  fork; go; [|exists [VBig (2 ^ Z.of_nat k); VBig (Z.of_nat k)]; reflexivity].
  destruct p as [entropy rest]. go.
  unfold mnemonic_of_entropy. rewrite Nat2Z.id.
  change (32 =? 0) with false. rewrite (Z.quot_div_nonneg (Z.of_nat k) 32) by lia. go.
  assert (0 <= Z.of_nat k / 32 <= 8) as Hdiv.
  { split; [apply Z.div_pos; lia|]. apply Z.div_le_upper_bound; lia. }
  fork; go; [|eexists; reflexivity].
  to_call. pad k (sprintf_b entropy). go.
  remember (pad_left k (sprintf_b entropy) ++ a) as b eqn:Hb.
  assert (0 < len b <= 264) as Hlen.
  { subst b. unfold len. rewrite app_length, pad_left_length.
    specialize (Hdraw _ _ eq_refl).
    match goal with H : slice _ 0 _ = Ret a |- _ => apply slice_zero in H end. unfold len in *. lia. }
  fork; go.
  - to_call.
    lazymatch goal with
    | |- evt (fun n => for_loop n _ _ _ _ (State ?H _ _)) _ =>
        remember H as h1 eqn:Hh1; rewrite <- (app_nil_r h1);
        assert (nth_error h1 (length h + 5) = Some (VBig z)) as Hz by (subst h1; apply get_new);
        remember (length h + 5)%nat as ab eqn:Hab; clear Hab
    end.
    lazymatch goal with
    | |- evt (fun n => for_loop n (@?C n) (@?P n) (@?B n) [[("i"%string, _)]; ("phrase"%string, _) :: ?fs] (State (?h ++ ?new) ?rd ?lg)) ?Q =>
        refine (evt_phrase (len b) z l
          (fun i ws => [[("i"%string, SVal (VInt i))]; ("phrase"%string, SVal (phrase_value ws)) :: fs])
          h rd lg C P B (Z.to_nat ((len b + 10) / 11)) new Q _ _ _ _ _); cbv beta
    end.
    + reflexivity.
    + intros n i x s Hi. cbn -[Z.add len]. now rewrite Hroom by lia.
    + intros new i x Hi.
      remember (h1 ++ new) as h2 eqn:Hh2.
      assert (nth_error h2 ab = Some (VBig z)) as Hz2 by (subst h2; now apply get_old).
      rewrite <- (app_nil_r h2).
      go. to_call.
      lazymatch goal with
      | |- evt (fun n => for_loop n (@?C n) (@?P n) (@?B n) ([("j"%string, _)] :: [("str"%string, _)] :: ?e) ?s) ?Q =>
            refine (evt_count 11 11
              (fun j => [("j"%string, SVal (VInt (i + Z.of_nat j)))] :: [("str"%string, SVal (VStr (firstn j (bit_chars z i))))] :: e)
              (fun j => [("j"%string, SVal (VInt (i + Z.of_nat j)))] :: [("str"%string, SVal (VStr (firstn (S j) (bit_chars z i))))] :: e)
              _ s C P B Q _ _ _ _ _ _ _); cbv beta
      end.
      * cbn [Z.of_nat firstn]. now rewrite Z.add_0_r.
      * lia.
      * intros n j Hj. cbn -[Z.add Z.of_nat len Z.sub Z.ltb Nat.ltb firstn].
        do 4 f_equal. rewrite Z.add_simpl_l, Hroom by lia.
        destruct (Z.ltb_spec (Z.of_nat j) 11), (Nat.ltb_spec j 11); lia.
      * intros n j Hj.
        assert (nth_error (bit_chars z i) j = Some (if big_bit z (i + Z.of_nat j) =? 0 then char0 else char1)) as Hc.
        { unfold bit_chars. rewrite nth_error_map, (nth_error_nth' _ O) by (rewrite seq_length; lia).
          now rewrite seq_nth by lia. }
        rewrite <- (firstn_more _ _ _ Hc).
        cbn -[Z.add Z.of_nat len firstn bit_chars big_bit cell].
        rewrite (cell_old h2 [] rest lg ab _ Hz2).
        cbn -[Z.add Z.of_nat len firstn bit_chars big_bit].
        replace (i + Z.of_nat j <? 0) with false by (symmetry; apply Z.ltb_ge; lia).
        cbn -[Z.add Z.of_nat len firstn bit_chars big_bit].
        now destruct (big_bit z (i + Z.of_nat j) =? 0).
      * intros n j Hj. cbn -[Z.add Z.of_nat len firstn bit_chars].
        rewrite Hroom by lia.
        replace (i + Z.of_nat j + 1) with (i + Z.of_nat (S j)) by lia. reflexivity.
      * lia.
      * intros _. change (firstn 11 (bit_chars z i)) with (bit_chars z i).
        destruct (bit_chars_value z i) as (v & Hv & Hw). rewrite Hv.
        go. rewrite Hv. go. rewrite Hw.
        destruct (index l v) as [w|q]; destruct x as [|x0 x]; go; cbn [phrase_value app]; try go; 
          (exists (new ++ [VBig v]); subst h2; now rewrite <- app_assoc).
    + pose proof (Z.div_mod (len b + 10) 11 ltac:(lia)) as H1.
      pose proof (Z.mod_pos_bound (len b + 10) 11 ltac:(lia)) as H2.
      rewrite Z2Nat.id by (apply Z.div_pos; lia). lia.
    + intros new'.
      destruct (phrase_loop (Z.to_nat ((len b + 10) / 11)) 0 z l) as [[|w ws]|q]; go; try (cbn [phrase_value]; go);
        (eexists; subst h1; rewrite <- app_assoc; reflexivity).
  - to_call.
    lazymatch goal with
    | |- evt (fun n => for_loop n (@?C n) (@?P n) (@?B n) ?e ?s) ?Q =>
        apply (evt2_evt (fun m n => for_loop m (C n) (P n) (B n) e s) Q);
        apply evt2_for
    end.
    go. replace (0 <? len b) with true by (symmetry; apply Z.ltb_lt; lia). go. to_call.
    lazymatch goal with
    | |- evt (fun n => for_loop n (@?C n) (@?P n) (@?B n) ?e ?s) ?Q =>
        apply (evt2_evt (fun m n => for_loop m (C n) (P n) (B n) e s) Q);
        apply evt2_for
    end.
    go. change (0 - 0 <? 11) with true. cbv iota. go.
    eexists. reflexivity.
Qed.

Lemma run_NewMnemonic words v wl h rd lg :
  roomy L 300 ->
  is_words v wl ->
  (lowest L <= length h)%nat ->
  evt (fun n => run E L n "NewMnemonic" [VInt words; v] (State h rd lg))
      (gives_reading h lg (NewMnemonic words wl rd) (fun _ => left_by_mnemonic words wl rd)
         (or_err (VStr []) (fun _ v x => v = VStr x))).
Proof.
  intros Hroom Hw. destruct wl as [l|]; cbn in Hw; subst v; enter.
  2: { exists [], [VStr []; VErr EInvalidWordlist]. now split. }
  assert (forall k, (0 < k)%nat -> words = 3 * Z.of_nat k -> In (Z.of_nat (32 * k)) [128; 160; 192; 224; 256] ->
    entropy_length words = Some (Z.of_nat (32 * k)) -> existsb (Z.eqb words) [12; 15; 18; 21; 24] = true ->
    evt (fun n => exec_block E L (run E L n) n after_entropy
           [[("entropyLength", SVal (VInt (Z.of_nat (32 * k)))); ("wordlist", SVal (VStrs l)); ("words", SVal (VInt words))]]%string
           (State (h ++ []) rd lg))
     (fun r => evt (fun _ => andthen r (fun c s => match c with Next _ => Done [] s | Broken _ => Stuck | Returned vs => Done vs s end))
        (gives_reading h lg (NewMnemonic words (Some l) rd)
             (fun _ : result gostring => left_by_mnemonic words (Some l) rd)
             (or_err (VStr []) (fun _ v x => v = VStr x))))) as H.
  { intros k Hk Hw HL He Hx. eapply evt_weaken; [now apply run_after_entropy|].
    cbv beta. intros r (new & Hr). unfold NewMnemonic, left_by_mnemonic. rewrite He, Hx.
    replace (Z.to_nat (words / 3 * 4)) with (4 * k)%nat
      by (subst words; rewrite (Z.mul_comm 3), Z.div_mul by lia; lia).
    rewrite rand_int_pow in * by exact Hk.
    destruct (length rd <? 4 * k)%nat eqn:Hlen.
    - subst r. apply evt_const. exists new, [VStr []; VErr ERandRead].
      apply Nat.ltb_lt in Hlen. rewrite skipn_all2 by lia. now split.
    - destruct (mnemonic_of_entropy _ _ l) as [x|p]; subst r; apply evt_const.
      + exists new, [VStr x; VNil]. split; [reflexivity|]. eexists. now split.
      + exists new, (skipn (4 * k) rd). reflexivity. }
  fork; [|fork; [|fork; [|fork; [|fork]]]].
  6: { go. unfold NewMnemonic, entropy_length, left_by_mnemonic. cbn [existsb].
       repeat match goal with H : (_ =? _) = _ |- _ => rewrite H; clear H end.
       exists [], [VStr []; VErr EUnsupportedLength]. now split. }
  all: unfold catch_break; cbn [andthen]; apply evt_const;
    lazymatch goal with H : (?w =? ?c) = true |- _ => apply Z.eqb_eq in H; rewrite H in * end;
    cbn [andthen].
  1: exact (H 4%nat ltac:(lia) eq_refl ltac:(cbn; tauto) eq_refl eq_refl).
  1: exact (H 5%nat ltac:(lia) eq_refl ltac:(cbn; tauto) eq_refl eq_refl).
  1: exact (H 6%nat ltac:(lia) eq_refl ltac:(cbn; tauto) eq_refl eq_refl).
  1: exact (H 7%nat ltac:(lia) eq_refl ltac:(cbn; tauto) eq_refl eq_refl).
  exact (H 8%nat ltac:(lia) eq_refl ltac:(cbn; tauto) eq_refl eq_refl).
Qed.
End WithE.
