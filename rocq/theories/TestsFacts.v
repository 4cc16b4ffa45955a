(** * Proofs about the repository's tests *)

From Coq Require Import Lia.
From Verif Require Import GoBase GoNum GoRand Sha256 Model Spec SpecGo ModelTests SpecTests.
From Verif Require Import GenFacts CombFacts PrivProps Uniform MnemFacts MnemProps MnemWitness WordFacts WordsEnglish.
Local Open Scope Z_scope.

Lemma check_true rd k rest net c : (net = MainNetwork /\ c = x35) \/ (net = TestNetwork /\ c = x39) ->
  GeneratePrivateKey (Some net) rd = Ret (k, rest) ->
  check (secp_N - 1) k [c] net = Ret (repeat true 6).
Proof.
  intros Hn H. destruct (generated_wellformed _ _ _ _ H) as (v & K & Hv & Hl & _ & _ & N & _).
  assert (S : length (WIF k) = 51%nat /\ hd_error (WIF k) = Some c).
  { destruct (generated_shape rd k rest) as [G1 G2]. destruct Hn as [[-> ->]|[-> ->]]; [apply G1|apply G2]; exact H. }
  destruct S as [L Hd]. unfold check. rewrite N, K.
  destruct (WIF k) as [|b w] eqn:E; [discriminate L|]. injection Hd as ->.
  unfold slice. cbn [length]. rewrite (proj2 (Z.leb_le 1 _)) by lia.
  assert (Ne : net_eqb (Some net) (Some net) = true) by (destruct Hn as [[-> _]|[-> _]]; reflexivity).
  rewrite Ne. cbn [Z.leb Z.compare andb bind]. unfold len. rewrite L, Hl.
  assert (C1 : (v ?= secp_N - 1) = Lt) by (apply Z.compare_lt_iff; lia).
  assert (C2 : (v ?= 1) = Gt).
  { apply Z.compare_gt_iff. assert (2 ^ 1 <= 2 ^ 252) by (apply Z.pow_le_mono_r; lia). change (2 ^ 1) with 2 in *. lia. }
  rewrite C1, C2. destruct Hn as [[_ ->]|[_ ->]]; reflexivity.
Qed.

Lemma prefix_hex net : net = MainNetwork \/ net = TestNetwork -> exists bs, hex_text (PrivKeyPrefix net) bs.
Proof.
  intros [-> | ->]; [exists [x80]; exact std_prefix_main|exists [xef]; exact std_prefix_test].
Qed.

Lemma std_first net rd z rest : net = MainNetwork \/ net = TestNetwork ->
  ((exists k, GeneratePrivateKey (Some net) rd = Ret (k, rest) /\ Key k = Some z) <-> first_block 32 usable rd z rest).
Proof. intros H. destruct (prefix_hex net H) as [bs Hb]. exact (generate_iff_first_block net bs rd z rest Hb). Qed.

Lemma key_rounds_pass net c : (net = MainNetwork /\ c = x35) \/ (net = TestNetwork /\ c = x39) ->
  forall n rd rest, draws n rd rest ->
  key_rounds n (secp_N - 1) [c] net rd = Ret (repeat true (6 * n), rest).
Proof.
  intros Hn n rd rest H. induction H as [rd|n rd z rd' rest Hf H IH]; [reflexivity|].
  assert (Hn' : net = MainNetwork \/ net = TestNetwork) by tauto.
  apply (std_first net) in Hf; [|exact Hn']. destruct Hf as (k & G & _).
  cbn [key_rounds]. rewrite G. cbn [bind]. rewrite (check_true rd k rd' net c Hn G). cbn [bind].
  rewrite IH. cbn [bind]. rewrite <- repeat_app. do 3 f_equal. lia.
Qed.

Lemma key_rounds_fail net c : (net = MainNetwork /\ c = x35) \/ (net = TestNetwork /\ c = x39) ->
  forall n rd, (~ exists rest, draws n rd rest) -> key_rounds n (secp_N - 1) [c] net rd = Panic PRand.
Proof.
  intros Hn n. assert (Hn' : net = MainNetwork \/ net = TestNetwork) by tauto.
  induction n as [|n IH]; intros rd H; [destruct H; eexists; constructor|].
  cbn [key_rounds]. destruct (GeneratePrivateKey (Some net) rd) as [[k rd']|p] eqn:G.
  - cbn [bind]. rewrite (check_true rd k rd' net c Hn G). cbn [bind]. rewrite IH; [reflexivity|].
    intros [rest D]. apply H. exists rest.
    destruct (generated_wellformed _ _ _ _ G) as (v & K & _).
    apply (draws_more n rd v rd' rest); [|exact D]. apply (std_first net); [exact Hn'|]. exists k. split; assumption.
  - destruct (generate_outcomes (Some net) rd) as [O1 O2].
    rewrite O2 in G; [injection G as <-; reflexivity|].
    intros X. specialize (O1 X). cbv beta iota in O1. destruct O1 as [O1 _]. destruct (O1 (prefix_hex net Hn')) as (k & rest & O).
    congruence.
Qed.

Lemma draws_split n m : forall rd rest, draws (n + m) rd rest <-> exists mid, draws n rd mid /\ draws m mid rest.
Proof.
  induction n as [|n IH]; intros rd rest.
  - split; [intros H; exists rd; split; [constructor|exact H]|]. intros (mid & H1 & H2). inversion H1; subst. exact H2.
  - cbn [Nat.add]. split.
    + intros H. inversion H as [|? ? z rd' ? Hf Hd]; subst. apply IH in Hd. destruct Hd as (mid & H1 & H2).
      exists mid. split; [econstructor; eassumption|exact H2].
    + intros (mid & H1 & H2). inversion H1 as [|? ? z rd' ? Hf Hd]; subst.
      apply (draws_more _ rd z rd' rest Hf). apply IH. exists mid. split; assumption.
Qed.

Lemma key_rounds_draws net c : (net = MainNetwork /\ c = x35) \/ (net = TestNetwork /\ c = x39) ->
  forall n rd a rest, key_rounds n (secp_N - 1) [c] net rd = Ret (a, rest) -> draws n rd rest.
Proof.
  intros Hn n. assert (Hn' : net = MainNetwork \/ net = TestNetwork) by tauto.
  induction n as [|n IH]; intros rd a rest H; cbn [key_rounds] in H.
  - injection H as _ <-. constructor.
  - destruct (GeneratePrivateKey (Some net) rd) as [[k rd']|p] eqn:G; [|discriminate H].
    cbn [bind] in H. rewrite (check_true rd k rd' net c Hn G) in H. cbn [bind] in H.
    destruct (key_rounds n _ _ net rd') as [[b r]|p] eqn:R; [|discriminate H]. cbn [bind] in H. injection H as _ <-.
    destruct (generated_wellformed _ _ _ _ G) as (v & K & _).
    apply (draws_more n rd v rd' r); [|exact (IH _ _ _ R)]. apply (std_first net); [exact Hn'|]. exists k. split; assumption.
Qed.

Lemma test_max : set_string16 (str "FFFFFFFFFFFFFFFFFFFFFFFFFFFFFFFEBAAEDCE6AF48A03BBFD25E8CD0364140") = Some (secp_N - 1).
Proof. vm_compute. reflexivity. Qed.

Lemma generate_test_passes n rd rest : draws (2 * n) rd rest ->
  TestGeneratePrivateKey n rd = Ret (repeat true (12 * n), rest).
Proof.
  intros H. replace (2 * n)%nat with (n + n)%nat in H by lia. apply draws_split in H. destruct H as (mid & H1 & H2).
  unfold TestGeneratePrivateKey. rewrite test_max.
  rewrite (key_rounds_pass MainNetwork x35 ltac:(auto) n rd mid H1 : key_rounds n (secp_N - 1) (str "5") _ rd = _). cbn [bind].
  rewrite (key_rounds_pass TestNetwork x39 ltac:(auto) n mid rest H2 : key_rounds n (secp_N - 1) (str "9") _ mid = _). cbn [bind].
  rewrite <- repeat_app. do 3 f_equal. lia.
Qed.

Lemma generate_test_crashes n rd : (~ exists rest, draws (2 * n) rd rest) -> TestGeneratePrivateKey n rd = Panic PRand.
Proof.
  intros H. replace (2 * n)%nat with (n + n)%nat in H by lia.
  assert (M : (MainNetwork = MainNetwork /\ x35 = x35) \/ (MainNetwork = TestNetwork /\ x35 = x39)) by auto.
  assert (T : (TestNetwork = MainNetwork /\ x39 = x35) \/ (TestNetwork = TestNetwork /\ x39 = x39)) by auto.
  unfold TestGeneratePrivateKey. rewrite test_max. change (str "5") with [x35]. change (str "9") with [x39].
  destruct (key_rounds n (secp_N - 1) [x35] MainNetwork rd) as [[a mid]|p] eqn:R.
  - cbn [bind]. rewrite (key_rounds_fail TestNetwork x39 T); [reflexivity|].
    intros [rest D]. apply H. exists rest. apply draws_split. exists mid. split; [|exact D].
    exact (key_rounds_draws MainNetwork x35 M n rd a mid R).
  - cbn [bind]. rewrite (key_rounds_fail MainNetwork x35 M n rd) in R; [exact (eq_sym R)|].
    intros [mid D]. rewrite (key_rounds_pass MainNetwork x35 M n rd mid D) in R. discriminate R.
Qed.

(** Sources for any number of rounds. *)
Lemma draws_exist n z rest b : length b = 32%nat -> bytes_number b = z -> usable z ->
  draws n (concat (repeat b n) ++ rest) rest.
Proof.
  intros L <- U. induction n as [|n IH]; [constructor|].
  cbn [repeat concat]. rewrite <- app_assoc. apply (draws_more n _ (bytes_number b) (concat (repeat b n) ++ rest)); [|exact IH].
  apply first_here; assumption.
Qed.

(** *** NewMnemonic *)

Lemma english_long : (2048 <= length EnglishWordlist)%nat.
Proof. pose proof english_proper as (H & _). rewrite H. exact (le_n _). Qed.
Lemma english_plain : Forall (fun w => ~ In x20 w) (firstn 2048 EnglishWordlist).
Proof.
  pose proof english_proper as (_ & _ & H). apply Forall_forall. intros w Hw.
  rewrite Forall_forall in H. apply (H w). rewrite <- (firstn_skipn 2048 EnglishWordlist). apply in_or_app. auto.
Qed.

Lemma entropy_words k : (4 <= k <= 8)%nat -> entropy_length (Z.of_nat (3 * k)) = Some (Z.of_nat (32 * k)).
Proof. intros H. assert (E : k = 4%nat \/ k = 5%nat \/ k = 6%nat \/ k = 7%nat \/ k = 8%nat) by lia.
  repeat (destruct E as [-> |E]; [reflexivity|]). subst k. reflexivity. Qed.

Lemma round_short k rd : (4 <= k <= 8)%nat -> (length rd < 4 * k)%nat ->
  mnemonic_round (Z.of_nat (3 * k)) rd = Ret ([false; false], []).
Proof.
  intros Hk Hl. unfold mnemonic_round. rewrite NewMnemonic_short by assumption. cbn [bind].
  rewrite (entropy_words k Hk), rand_int_pow by lia. rewrite (proj2 (Nat.ltb_lt _ _) Hl).
  change (len (split_space [])) with 1. rewrite (proj2 (Z.eqb_neq _ _)) by lia. reflexivity.
Qed.

Lemma enough_spec k rd : (4 * k <= length rd)%nat ->
  (enough_hash (firstn (4 * k) rd) <->
   (k <= length (drop_zero_bits (bits (sha256 (drop_zero_bytes (firstn (4 * k) rd))))))%nat).
Proof. intros H. unfold enough_hash. rewrite firstn_length, Nat.min_l by exact H. lia. Qed.

Lemma round_good k rd : (4 <= k <= 8)%nat -> (4 * k <= length rd)%nat -> enough_hash (firstn (4 * k) rd) ->
  mnemonic_round (Z.of_nat (3 * k)) rd = Ret ([true; true], skipn (4 * k) rd).
Proof.
  intros Hk Hl He. apply enough_spec in He; [|exact Hl].
  destruct (NewMnemonic_total k EnglishWordlist rd Hk english_long english_plain Hl He) as (s & ws & N & Sp & L & _).
  unfold mnemonic_round. replace (NewMnemonic _ _ rd) with (Ret (Ok s)). cbn [bind].
  rewrite (entropy_words k Hk), rand_int_pow by lia. rewrite (proj2 (Nat.ltb_ge _ _) Hl).
  rewrite (spaced_split ws s Sp). unfold len. rewrite L, Z.eqb_refl. reflexivity.
Qed.

Lemma round_bad k rd : (4 <= k <= 8)%nat -> (4 * k <= length rd)%nat -> ~ enough_hash (firstn (4 * k) rd) ->
  exists p, mnemonic_round (Z.of_nat (3 * k)) rd = Panic p.
Proof.
  intros Hk Hl He. destruct (proj2 (NewMnemonic_panic_long k EnglishWordlist rd Hk english_long Hl)) as [p P].
  { rewrite enough_spec in He by exact Hl. lia. }
  exists p. unfold mnemonic_round. replace (NewMnemonic _ _ rd) with (@Panic (result gostring) p). reflexivity.
Qed.

(** All rounds in one list. *)
Fixpoint run_rounds (ks : list nat) (rd : list byte) : outcome (list bool * list byte) :=
  match ks with
  | [] => Ret ([], rd)
  | k :: ks' =>
      let* (a, rd1) := mnemonic_round (Z.of_nat (3 * k)) rd in
      let* (b, rd2) := run_rounds ks' rd1 in
      Ret (a ++ b, rd2)
  end.

Lemma run_app ks ls : forall rd, run_rounds (ks ++ ls) rd =
  (let* (a, rd1) := run_rounds ks rd in let* (b, rd2) := run_rounds ls rd1 in Ret (a ++ b, rd2)).
Proof.
  induction ks as [|k ks IH]; intros rd.
  - cbn [app run_rounds bind]. destruct (run_rounds ls rd) as [[b r]|p]; reflexivity.
  - cbn [app run_rounds]. destruct (mnemonic_round _ rd) as [[a r]|p]; [|reflexivity]. cbn [bind].
    rewrite IH. destruct (run_rounds ks r) as [[b r']|p]; [|reflexivity]. cbn [bind].
    destruct (run_rounds ls r') as [[c r'']|p]; [|reflexivity]. cbn [bind]. rewrite app_assoc. reflexivity.
Qed.

Lemma run_repeat n k : forall rd, mnemonic_rounds n (Z.of_nat (3 * k)) rd = run_rounds (repeat k n) rd.
Proof.
  induction n as [|n IH]; intros rd; [reflexivity|]. cbn [mnemonic_rounds repeat run_rounds].
  destruct (mnemonic_round _ rd) as [[a r]|p]; [|reflexivity]. cbn [bind]. rewrite IH. reflexivity.
Qed.

Definition all_rounds (n : nat) : list nat := repeat 4%nat n ++ repeat 5%nat n ++ repeat 6%nat n ++ repeat 7%nat n ++ repeat 8%nat n.

Lemma run_test n rd : TestNewMnemonic n rd = run_rounds (all_rounds n) rd.
Proof.
  assert (E : forall ks rd, mnemonic_lengths n (map (fun k => Z.of_nat (3 * k)) ks) rd = run_rounds (flat_map (fun k => repeat k n) ks) rd).
  { induction ks as [|k ks IH]; intros r; [reflexivity|]. cbn [map mnemonic_lengths flat_map].
    rewrite run_app, run_repeat. destruct (run_rounds (repeat k n) r) as [[a r']|p]; [|reflexivity]. cbn [bind].
    rewrite IH. reflexivity. }
  unfold TestNewMnemonic, all_rounds. rewrite <- (app_nil_r (repeat 8%nat n)).
  exact (E [4; 5; 6; 7; 8]%nat rd).
Qed.

Definition total (ks : list nat) : nat := fold_right Nat.add 0%nat (map (Nat.mul 4) ks).
Definition in_range (ks : list nat) : Prop := Forall (fun k => 4 <= k <= 8)%nat ks.

Lemma run_good ks : in_range ks -> forall rd, (total ks <= length rd)%nat ->
  Forall enough_hash (pieces (map (Nat.mul 4) ks) rd) ->
  run_rounds ks rd = Ret (repeat true (2 * length ks), skipn (total ks) rd).
Proof.
  induction 1 as [|k ks Hk Hks IH]; intros rd Hl He; [reflexivity|].
  unfold total in *. cbn [map fold_right pieces] in *. apply Forall_cons_iff in He. destruct He as [He1 He2].
  cbn [run_rounds]. rewrite (round_good k rd Hk) by (lia || exact He1). cbn [bind].
  rewrite (IH (skipn (4 * k) rd)); [|rewrite skipn_length; lia|exact He2]. cbn [bind length].
  rewrite skipn_add. replace (2 * S (length ks))%nat with (2 + 2 * length ks)%nat by lia. reflexivity.
Qed.

Lemma run_bad ks : in_range ks -> forall rd, (total ks <= length rd)%nat ->
  ~ Forall enough_hash (pieces (map (Nat.mul 4) ks) rd) -> exists p, run_rounds ks rd = Panic p.
Proof.
  induction 1 as [|k ks Hk Hks IH]; intros rd Hl He; [destruct He; constructor|].
  unfold total in *. cbn [map fold_right pieces] in *. cbn [run_rounds].
  assert (D : enough_hash (firstn (4 * k) rd) \/ ~ enough_hash (firstn (4 * k) rd)) by (unfold enough_hash; lia).
  destruct D as [D|D].
  - rewrite (round_good k rd Hk) by (lia || exact D). cbn [bind].
    destruct (IH (skipn (4 * k) rd)) as [p P]; [rewrite skipn_length; lia| |exists p; rewrite P; reflexivity].
    intros F. apply He. constructor; assumption.
  - destruct (round_bad k rd Hk) as [p P]; [lia|exact D|]. exists p. rewrite P. reflexivity.
Qed.

Lemma run_short ks : in_range ks -> forall rd a rest, (length rd < total ks)%nat ->
  run_rounds ks rd = Ret (a, rest) -> In false a.
Proof.
  induction 1 as [|k ks Hk Hks IH]; intros rd a rest Hl H; [unfold total in Hl; cbn in Hl; lia|].
  unfold total in *. cbn [map fold_right] in *. cbn [run_rounds] in H.
  destruct (Nat.lt_ge_cases (length rd) (4 * k)) as [Hs|Hs].
  - rewrite (round_short k rd Hk Hs) in H. cbn [bind] in H.
    destruct (run_rounds ks []) as [[b r]|p]; [|discriminate H]. cbn [bind] in H. injection H as <- _. left. reflexivity.
  - assert (D : enough_hash (firstn (4 * k) rd) \/ ~ enough_hash (firstn (4 * k) rd)) by (unfold enough_hash; lia).
    destruct D as [D|D].
    + rewrite (round_good k rd Hk Hs D) in H. cbn [bind] in H.
      destruct (run_rounds ks (skipn (4 * k) rd)) as [[b r]|p] eqn:R; [|discriminate H]. cbn [bind] in H. injection H as <- _.
      right. right. apply (IH (skipn (4 * k) rd) b r); [rewrite skipn_length; lia|exact R].
    + destruct (round_bad k rd Hk Hs D) as [p P]. rewrite P in H. discriminate H.
Qed.

Lemma all_in_range n : in_range (all_rounds n).
Proof. unfold all_rounds, in_range. repeat (apply Forall_app; split); apply Forall_forall; intros k Hk; apply repeat_spec in Hk; lia. Qed.

Lemma all_sizes n : map (Nat.mul 4) (all_rounds n) = entropy_sizes n.
Proof.
  unfold all_rounds, entropy_sizes. rewrite !map_app.
  assert (E : forall k, map (Nat.mul 4) (repeat k n) = repeat (4 * k)%nat n) by (intros k; clear; induction n as [|n IH]; cbn; [reflexivity|]; f_equal; exact IH).
  rewrite !E. reflexivity.
Qed.

Lemma all_total n : total (all_rounds n) = (120 * n)%nat.
Proof.
  unfold total. rewrite all_sizes. unfold entropy_sizes.
  assert (A : forall l l', fold_right Nat.add 0%nat (l ++ l') = (fold_right Nat.add 0 l + fold_right Nat.add 0 l')%nat)
    by (induction l as [|x l IH]; intros l'; cbn; [reflexivity|rewrite IH; lia]).
  assert (B : forall x, fold_right Nat.add 0%nat (repeat x n) = (n * x)%nat) by (intros x; clear; induction n as [|n IH]; cbn; [reflexivity|]; rewrite IH; lia).
  rewrite !A, !B. lia.
Qed.
Lemma all_length n : length (all_rounds n) = (5 * n)%nat.
Proof. unfold all_rounds. rewrite !app_length, !repeat_length. lia. Qed.

Lemma mnemonic_test n rd : (120 * n <= length rd)%nat ->
  (Forall enough_hash (pieces (entropy_sizes n) rd) ->
   TestNewMnemonic n rd = Ret (repeat true (10 * n), skipn (120 * n) rd)) /\
  (~ Forall enough_hash (pieces (entropy_sizes n) rd) -> exists p, TestNewMnemonic n rd = Panic p).
Proof.
  intros H. rewrite <- all_total in H. rewrite run_test, <- all_sizes. split; intros F.
  - rewrite (run_good _ (all_in_range n) rd H F), all_length, all_total. do 3 f_equal. lia.
  - exact (run_bad _ (all_in_range n) rd H F).
Qed.

Lemma mnemonic_test_short n rd a rest : (length rd < 120 * n)%nat -> TestNewMnemonic n rd = Ret (a, rest) -> In false a.
Proof. intros H. rewrite <- all_total in H. rewrite run_test. apply run_short; [apply all_in_range|exact H]. Qed.
