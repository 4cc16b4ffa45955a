(** * Facts about single calls: crashes, misplaced addresses, spaces in phrases *)

From Verif Require Import GoBase GoNum Sha256 Ripemd160 Base58 GoRand Model SpecApi Spec SpecMore CurveSpec EcdsaContract.
From Verif Require Import NumFacts HexFacts SpecFacts PrivFacts GenFacts CombFacts PrivProps PubFacts EcFacts PubCurve.
From Verif Require Import MnemFacts MnemProps SeedFacts WordFacts WordsJapanese.
Local Open Scope Z_scope.
Local Opaque sha256 ripemd160 secp_P secp_N.

(** ** An address given where a WIF is expected *)

Lemma hash160_nonempty bs : exists b r, hash160 bs = b :: r.
Proof. pose proof (hash160_length bs) as L. destruct (hash160 bs) as [|b r]; [discriminate|eauto]. Qed.

Lemma address_is_a_wif p c a n v net : PNetwork p = Some n -> hex_text (PubKeyHashPrefix n) [v] ->
  Address p c = Ret (Ok a) ->
  CheckWIF a = Ret true /\
  exists s bs k, Format p c = Ret s /\ hex_text s bs /\ PrivateFromWIF a net = Ret (Ok k) /\
    Key k = Some (bytes_number (hash160 bs)) /\ hex_text (Hex k) (hash160 bs) /\ KNetwork k = net.
Proof.
  intros Hn Hv H. apply (Address_success p c a n Hn) in H as (v' & s & bs & Hv' & HF & Hs & HB).
  assert (v' = [v]) as -> by (apply hex_text_decode in Hv, Hv'; congruence). cbn [app] in HB.
  split; [apply CheckWIF_true_iff; eauto|].
  exists s, bs, (PrivateKey (Some (bytes_number (hash160 bs))) (hex_encode (hash160 bs)) a net).
  split; [exact HF|]. split; [exact Hs|]. split; [|cbn [Key Hex KNetwork]; repeat split; apply hex_text_decode, hex_decode_encode].
  apply PrivateFromWIF_exact. exists v, (hash160 bs). cbn [Key Hex WIF KNetwork].
  split; [exact HB|]. split; [reflexivity|]. split; [reflexivity|].
  split; [apply hex_text_decode, hex_decode_encode|]. split; [apply lower_case_hex_encode|].
  destruct (hash160_nonempty bs) as (b & r & ->). reflexivity.
Qed.

(** ** Exactly when the other calls crash *)

Lemma combine_panic_iff op a b : (exists e, combine op a b = Panic e) <->
  KNetwork a = KNetwork b /\ ~ equal_up_to_case (WIF a) (WIF b) /\
  (Key a = None \/ Key b = None \/ KNetwork a = None).
Proof.
  unfold combine. rewrite equal_up_to_case_lower.
  destruct (net_eqb (KNetwork a) (KNetwork b)) eqn:En; cbn [negb].
  2: { split; [intros [e H]; discriminate|]. intros (H & _). rewrite H, net_eqb_refl in En. discriminate. }
  apply net_eqb_eq in En.
  destruct (str_eqb (to_lower (WIF a)) (to_lower (WIF b))) eqn:Es.
  { split; [intros [e H]; discriminate|]. intros (_ & H & _). apply str_eqb_eq in Es. contradiction. }
  apply str_eqb_neq in Es.
  destruct (Key a) as [x|] eqn:Ka; [destruct (Key b) as [y|] eqn:Kb; [destruct (KNetwork a) as [n|] eqn:Kn|]|].
  - destruct (PrivateFromHex_total (sprintf_x (op x y mod secp_N)) n) as [r Hr]. rewrite Hr.
    split; [intros [e H]; discriminate|]. intros (_ & _ & [H|[H|H]]); discriminate.
  - split; [auto|]. intros _. exists PNil. reflexivity.
  - split; [auto|]. eauto.
  - split; [auto|]. eauto.
Qed.

Lemma GetPublicKey_panic_iff E k : (exists e, GetPublicKey E k = Panic e) <-> Key k = None.
Proof.
  unfold GetPublicKey. destruct (Key k) as [x|]; [|split; eauto].
  destruct (lib_ScalarMult E x (secp_Gx, secp_Gy)) as [[rx ry] []]; cbn [negb];
    (split; [intros [e H]; discriminate|discriminate]).
Qed.

Lemma Format_panic_iff p c : (exists e, Format p c = Panic e) <-> c = true /\ PY p = None.
Proof.
  unfold Format. destruct c; cbn [negb].
  - destruct (PY p) as [y|]; [|split; eauto]. split; [intros [e H]; discriminate|intros [_ H]; discriminate].
  - split; [intros [e H]; discriminate|intros [H _]; discriminate].
Qed.

Lemma AddPublicKeys_panic_iff E p q c : (exists e, AddPublicKeys E p q c = Panic e) <->
  PNetwork p = PNetwork q /\ (PX p = None \/ PY p = None \/ PX q = None \/ PY q = None).
Proof.
  unfold AddPublicKeys. destruct (net_eqb (PNetwork p) (PNetwork q)) eqn:En; cbn [negb].
  2: { split; [intros [e H]; discriminate|]. intros (H & _). rewrite H, net_eqb_refl in En. discriminate. }
  apply net_eqb_eq in En.
  destruct (PX p) as [x1|]; [|split; eauto]. destruct (PY p) as [y1|]; [|split; eauto 6].
  destruct (PX q) as [x2|]; [|split; eauto 6]. destruct (PY q) as [y2|]; [|split; eauto 7].
  destruct (lib_AddPoints E (x1, y1) (x2, y2)) as [[rx ry] []]; cbn [negb];
    (split; [intros [e H]; discriminate|intros (_ & [H|[H|[H|H]]]); discriminate]).
Qed.

(** The keys the package hands out have a nil number exactly when their hex is
    empty. *)
Lemma produced_nil_iff k : produced k -> (Key k = None <-> Hex k = []).
Proof.
  intros H. apply produced_cases in H as [(h & net & H)|(w & net & H)].
  - destruct net as [n|]; [|discriminate]. apply PrivateFromHex_success in H as (bs & _ & _ & Hh & _ & Hk). rewrite Hh.
    destruct (Key k) as [x|]; [|split; auto]. split; [discriminate|].
    intros ->. destruct Hk as [Hk _]. congruence.
  - apply PrivateFromWIF_exact in H as (v & bs & _ & _ & _ & Ht & _ & Hk). rewrite Hk.
    destruct bs as [|b bs]; inversion Ht; subst; split; congruence.
Qed.

(** ** Spaces in phrases *)

Lemma split_space_app a b : ~ In x20 a -> split_space (a ++ x20 :: b) = a :: split_space b.
Proof.
  intros H. pose proof (split_spaced b) as Sb.
  apply spaced_iff. constructor; assumption.
Qed.

Lemma space_dec (m : gostring) : ~ In x20 m \/ exists a b, m = a ++ x20 :: b /\ ~ In x20 a.
Proof.
  induction m as [|c m [IH|(a & b & -> & IH)]].
  - left. intros [].
  - destruct (Byte.byte_eq_dec c x20) as [->|N].
    + right. exists [], m. split; [reflexivity|intros []].
    + left. intros [E|E]; [congruence|contradiction].
  - right. destruct (Byte.byte_eq_dec c x20) as [->|N].
    + exists [], (a ++ x20 :: b). split; [reflexivity|intros []].
    + exists (c :: a), b. split; [reflexivity|]. intros [E|E]; [congruence|contradiction].
Qed.

Lemma empty_in_split k : forall m, (length m <= k)%nat -> (In [] (split_space m) <-> stray_space m).
Proof.
  induction k as [|k IH]; intros m Hm.
  - destruct m; [|cbn in Hm; lia]. split; [left; reflexivity|]. intros _. left. reflexivity.
  - destruct (space_dec m) as [N|(a & b & -> & N)].
    + assert (split_space m = [m]) as -> by (apply spaced_iff; constructor; exact N). split.
      * intros [->|[]]. left. reflexivity.
      * intros [->|[(t & ->)|[(t & ->)|(a & b & ->)]]]; [left; reflexivity|exfalso; apply N..].
        -- left. reflexivity.
        -- apply in_app_iff. right. left. reflexivity.
        -- apply in_app_iff. right. left. reflexivity.
    + rewrite split_space_app by exact N. rewrite app_length in Hm. cbn [length] in Hm.
      assert (In [] (split_space b) <-> stray_space b) as IHb by (apply IH; lia).
      cbn [In]. rewrite IHb. clear IHb IH. split.
      * intros [->|[->|[(t & ->)|[(t & ->)|(c & d & ->)]]]].
        -- right; left. exists b. reflexivity.
        -- right; right; left. exists a. reflexivity.
        -- right; right; right. exists a, t. reflexivity.
        -- right; right; left. exists (a ++ x20 :: t). rewrite <- app_assoc. reflexivity.
        -- right; right; right. exists (a ++ x20 :: c), d. rewrite <- app_assoc. reflexivity.
      * intros [E|[(t & E)|[(t & E)|(c & d & E)]]].
        -- destruct a; discriminate.
        -- destruct a as [|x a]; [left; reflexivity|]. injection E as -> _. exfalso. apply N. left. reflexivity.
        -- right. destruct (list_eq_dec Byte.byte_eq_dec b []) as [->|Nb]; [left; reflexivity|].
           apply exists_last in Nb as (b' & y & ->). right; right; left. exists b'.
           rewrite app_comm_cons, app_assoc in E. apply app_inj_tail in E as [_ ->]. reflexivity.
        -- right. apply app_eq_app in E as (l & [(-> & E)|(-> & E)]).
           ++ destruct l as [|y l]; cbn [app] in E.
              ** injection E as <-. right; left. eauto.
              ** injection E as <- _. exfalso. apply N, in_app_iff. right. left. reflexivity.
           ++ destruct l as [|y l]; cbn [app] in E.
              ** injection E as ->. right; left. eauto.
              ** injection E as _ ->. right; right; right. eauto.
Qed.

Lemma proper_no_empty l : proper_list l -> ~ In [] l.
Proof. intros (_ & _ & Hl) Hin. rewrite Forall_forall in Hl. apply Hl in Hin as [Hin _]. congruence. Qed.

Lemma stray_space_refused m p l : ~ In [] l -> stray_space m ->
  NewSeedFromMnemonic m p (Some l) = ([], Ret (Err EInvalidMnemonic)).
Proof.
  intros Hl H. apply NewSeed_unknown. exists [].
  split; [apply (empty_in_split (length m)); [lia|exact H]|exact Hl].
Qed.

(** Japanese phrases joined with the ideographic space (U+3000). *)
Fixpoint containsb (s t : gostring) : bool :=
  match t with
  | [] => match s with [] => true | _ => false end
  | _ :: t' => str_eqb s (firstn (length s) t) || containsb s t'
  end.
Lemma containsb_app s a b : containsb s (a ++ s ++ b) = true.
Proof.
  induction a as [|c a IH]; cbn [app].
  - assert (firstn (length s) (s ++ b) = s) as E.
    { rewrite firstn_app, Nat.sub_diag, firstn_all. cbn. apply app_nil_r. }
    destruct (s ++ b) as [|x r] eqn:Er.
    + destruct s; [reflexivity|discriminate].
    + cbn [containsb]. rewrite E, str_eqb_refl. reflexivity.
  - cbn [containsb]. rewrite IH. apply orb_true_r.
Qed.

Lemma japanese_no_ideographic_space : forallb (fun w => negb (containsb ideographic_space w)) JapaneseWordlist = true.
Proof. vm_compute. reflexivity. Qed.

Lemma ideographic_refused a b p : 
  NewSeedFromMnemonic (a ++ ideographic_space ++ b) p (Some JapaneseWordlist) = ([], Ret (Err EInvalidMnemonic)).
Proof.
  apply NewSeed_unknown. 
  assert (forall k m, (length m <= k)%nat -> (exists a b, m = a ++ ideographic_space ++ b) ->
    exists w, In w (split_space m) /\ exists a b, w = a ++ ideographic_space ++ b) as K.
  { clear a b. induction k as [|k IH]; intros m Hm (a & b & E).
    - destruct m; [destruct a; discriminate|cbn in Hm; lia].
    - destruct (space_dec m) as [N|(c & d & -> & N)].
      + exists m. split; [|eauto]. assert (split_space m = [m]) as -> by (apply spaced_iff; constructor; exact N).
        left. reflexivity.
      + rewrite split_space_app by exact N. rewrite app_length in Hm. cbn [length] in Hm.
        apply app_eq_app in E as (l & [(E1 & E2)|(E1 & E2)]).
        * (* c = a ++ l *)
          unfold ideographic_space in E2. cbn [app] in E2.
          destruct l as [|y0 [|y1 [|y2 l]]]; cbn [app] in E2; try discriminate.
          injection E2 as <- <- <- _. subst c. exists (a ++ xe3 :: x80 :: x80 :: l).
          split; [left; reflexivity|exists a, l; reflexivity].
        * destruct l as [|y l]; cbn [app] in E2; [discriminate|]. injection E2 as <- E2.
          destruct (IH d ltac:(lia)) as (w & Hw & Hc); [exists l, b; exact E2|].
          exists w. split; [right; exact Hw|exact Hc]. }
  destruct (K _ _ (le_n _) (ex_intro _ a (ex_intro _ b eq_refl))) as (w & Hw & c & d & ->).
  eexists. split; [exact Hw|]. cbn [words_of]. intros Hin.
  pose proof japanese_no_ideographic_space as J. rewrite forallb_forall in J. apply J in Hin.
  rewrite containsb_app in Hin. discriminate.
Qed.

(** ** Only the first 2048 words of a list are used to make phrases *)

Lemma nth_error_firstn {A} n i (l : list A) : (i < n)%nat -> nth_error (firstn n l) i = nth_error l i.
Proof.
  revert i l; induction n as [|n IH]; intros i l H; [lia|]. destruct l as [|x l]; [reflexivity|].
  destruct i as [|i]; [reflexivity|]. cbn. apply IH. lia.
Qed.

Lemma lookup_all_firstn l is : Forall (fun i => (i < 2048)%nat) is ->
  lookup_all (firstn 2048 l) is = lookup_all l is.
Proof.
  induction 1 as [|i is Hi _ IH]; [reflexivity|]. cbn [lookup_all]. rewrite IH.
  unfold index. rewrite Nat2Z.id, nth_error_firstn by exact Hi. reflexivity.
Qed.

Lemma NewMnemonic_firstn n l rd : NewMnemonic n (Some (firstn 2048 l)) rd = NewMnemonic n (Some l) rd.
Proof.
  destruct (in_dec Z.eq_dec n [12; 15; 18; 21; 24]) as [H|H].
  2: { rewrite !NewMnemonic_unsupported by exact H. reflexivity. }
  assert (exists k, (4 <= k <= 8)%nat /\ n = Z.of_nat (3 * k)) as (k & Hk & ->).
  { cbn in H. destruct H as [<-|[<-|[<-|[<-|[<-|[]]]]]]; [exists 4%nat|exists 5%nat|exists 6%nat|exists 7%nat|exists 8%nat]; split; lia. }
  rewrite !(NewMnemonic_eq k) by exact Hk. cbv zeta.
  destruct (Nat.ltb_spec (length rd) (4 * k)) as [|Hl]; [reflexivity|].
  destruct (Nat.ltb_spec (length (hash_bits (firstn (4 * k) rd))) k) as [|Hb]; [reflexivity|].
  rewrite lookup_all_firstn; [reflexivity|].
  apply (chunk_indices_bits (3 * k)). apply stream_bits_length; [rewrite firstn_length; lia|exact Hb].
Qed.

(** ** Compressed import and export *)

Lemma compressed_import_export E (HE : ecdsa_contract E) s net bs p : length s = 66%nat ->
  substring s 0 2 = str "02" \/ substring s 0 2 = str "03" -> hex_text s bs ->
  (forall x, hex_number (substring s 2 66) x -> x < p256k1) ->
  PublicFromHex E s net = Ret (Ok p) ->
  PNetwork p = net /\ curve_key p /\ exists s', Format p true = Ret s' /\ lower_case_hex s' /\ equal_up_to_case s' s.
Proof.
  intros Hl Hp Ht Hx H. apply hex_text_decode in Ht.
  assert (Hh : Forall is_hex s) by (apply (hex_decode_ok_iff s); eauto).
  assert (H1 : Forall is_hex (substring s 2 66)) by (apply substring_Forall, Hh).
  pose proof (substring_length s 2 66 ltac:(lia)) as L1. change (66 - 2)%nat with 64%nat in L1.
  destruct (set_string16_hex (substring s 2 66) ltac:(intros E0; rewrite E0 in L1; discriminate) H1) as (x & Ex & _).
  assert (Nx : hex_number (substring s 2 66) x).
  { apply hex_number_set_string. split; [intros E0; rewrite E0 in L1; discriminate|]. split; [exact H1|exact Ex]. }
  specialize (Hx x Nx).
  assert (exists b : bool, substring s 0 2 = str (if b then "02" else "03")) as [b Hb]
    by (destruct Hp; [exists true|exists false]; assumption).
  destruct (compressed_import E HE s net b x Hb ltac:(lia) Nx Hx) as [I1 I2].
  
  assert (exists y, curve_point (x, y) /\ Z.even y = b /\ p = PublicKey (Some x) (Some y) net) as (y & C & Py & ->).
  { destruct (PubCurve.import_x_point E HE (if b then 0 else 1) x net) as [(y & C & _)|[Nc _]].
    - destruct b; auto.
    - split; [eapply hex_number_nonneg; exact Nx|]. rewrite <- p256k1_P. exact Hx.
    - destruct I1 as (y' & C' & P' & H'); [exists y; apply curve_point_iff, C|].
      exists y'. rewrite H in H'. injection H' as ->. auto.
    - rewrite I2 in H; [discriminate|]. intros (y & C). apply Nc. exists y. apply curve_point_iff, C. }
  split; [reflexivity|]. split; [exists x, y; auto|]. rewrite Format_compressed. eexists. split; [reflexivity|].
  rewrite (hex64_to_lower _ _ L1 H1 Ex), Py, <- Hb.
  assert (Es : substring s 0 2 ++ to_lower (substring s 2 66) = to_lower s).
  { rewrite <- (substring_all s) at 3. rewrite Hl, (substring_split s 0 2 66), to_lower_app by lia. f_equal.
    destruct Hp as [-> | ->]; reflexivity. }
  rewrite Es. split; [apply lower_case_hex_to_lower, Hh|apply equal_up_to_case_lower, to_lower_idem].
Qed.
