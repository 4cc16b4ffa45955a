(** * Goroutines with ints of a machine (C106): proofs *)

From Coq Require Import String.
From Verif Require Import GoBase GoRand Model ModelPtr GoSem GoTree GoTreeSim SpecSource SourceBase SourceAll.
From Verif Require Import Spec CurveSpec EcdsaContract SpecSession Session SpecRun RunFacts SpecInts IntsFacts SpecRunInts RunInts.
From Verif Require Import SpecConc ConcFacts SpecCrew CrewFacts SpecMachine MachineEnds MachineCrew.
Local Open Scope Z_scope.

Section Machine.
Context (E : curve_params -> ecdsa_lib) (bits : Z) (L : limits) (HM : ints_of bits L) (Hb : 32 <= bits).
Notation E0 := (E secp256k1_params).
Notation wrap := (as_int L).

Definition short_api (h : list value) (f : string) (args : list value) : Prop := api_call h f args /\ short_call bits f args.

Lemma roomy_floor floor B : B < 2 ^ (bits - 1) -> roomy (Limits floor wrap) B.
Proof. exact (roomy_machine bits L B HM Hb). Qed.
Lemma half_room (w : gostring) : len w < 2 ^ (bits - 2) -> 2 * len w < 2 ^ (bits - 1).
Proof. replace (bits - 1) with (Z.succ (bits - 2)) by lia. rewrite Z.pow_succ_r by lia. lia. Qed.

Lemma ends_above_ints s f args : curve_ready (heap s) -> short_api (heap s) f args ->
  exists r, good r /\ ends_above E (Limits (length (heap s)) wrap) f args s r.
Proof.
  intros HC (H & Hs). set (M := Limits (length (heap s)) wrap).
  assert (lowest M <= length (heap s))%nat as Hl by apply Nat.le_refl.
  assert (forall A (o : outcome A) rep, answers_above E M f args s o rep ->
            exists r, good r /\ ends_above E M f args s r) as K1.
  { intros A o rep (new & Ha). destruct o; [destruct Ha as (vs & Ha & _)|]; eexists; (split; [|exact Ha]); exact I. }
  assert (forall A (o : outcome A) rest rep, answers_reading_above E M f args s o rest rep ->
            exists r, good r /\ ends_above E M f args s r) as K2.
  { intros A o rest rep (new & Ha).
    destruct o; [destruct Ha as (vs & Ha & _)|destruct Ha as (left & Ha)]; eexists; (split; [|exact Ha]); exact I. }
  assert (forall A (o : outcome A) log rep, answers_logging_above E M f args s log o rep ->
            exists r, good r /\ ends_above E M f args s r) as K3.
  { intros A o log rep (new & Ha). destruct o; [destruct Ha as (vs & Ha & _)|]; eexists; (split; [|exact Ha]); exact I. }
  destruct H; cbn [short_call] in Hs.
  - eapply K1, wide_CheckWIF; [|exact Hl]. apply roomy_floor, half_room, Hs. now left.
  - eapply K1, above_PrivateFromHex; eassumption.
  - eapply K1, wide_PrivateFromWIF; [|eassumption|exact Hl]. apply roomy_floor, half_room, Hs. now right.
  - eapply K2, above_Generate; eassumption.
  - eapply K1, above_AddPrivateKeys; eassumption.
  - eapply K1, above_MultiplyPrivateKeys; eassumption.
  - eapply K1, above_GetPublicKey; eassumption.
  - eapply K1, above_PublicFromHex; eassumption.
  - eapply K1, above_AddPublicKeys; eassumption.
  - eapply K1, above_Format; eassumption.
  - eapply K1, above_Address; eassumption.
  - eapply K2, wide_Mnemonic; [|eassumption|exact Hl]. apply roomy_floor.
    pose proof (Z.pow_le_mono_r 2 31 (bits - 1) ltac:(lia) ltac:(lia)). lia.
  - destruct Hs as (_ & Hs). destruct (Hs eq_refl) as (Hm & Hw).
    assert (len (words_of wl) < 2 ^ (bits - 1)) as Hlen.
    { destruct wl as [l|]; cbn [is_words words_of] in *; subst v.
      - apply Hw. right. now left.
      - change (len (A := gostring) []) with 0. apply Z.pow_pos_nonneg; lia. }
    eapply K3, wide_Seed; [| |eassumption|exact Hl].
    + now apply roomy_floor.
    + intros b Hbin. apply roomy_floor. apply (words_binary_len bits) in Hbin; [|lia|].
      * pose proof (split_space_len m). nia.
      * pose proof (Z.pow_le_mono_r 2 (bits - 1) bits ltac:(lia) ltac:(lia)). lia.
Qed.

Lemma machine_limits : Limits O wrap = L.
Proof. destruct HM as (H & _). destruct L as [lo w]. cbn in H |- *. now rewrite H. Qed.

(** what is kept from call to call *)
Definition in_range (q : list answer) (rs : list request) : Prop :=
  exists h, Forall2 stands_for h q /\ Forall fine h /\ Forall (few_bytes bits) h /\ Forall sensible rs /\ Forall (short_keys bits) rs.

Lemma short_reads h q r : Forall2 stands_for h q -> Forall (few_bytes bits) h -> short_keys bits r ->
  forall w, reads_wif q r w -> len w < 2 ^ (bits - 2).
Proof. exact (wif_short bits Hb h q r). Qed.

Lemma short_for q r k s c : Forall2 (shows (heap s)) k q -> (forall w, reads_wif q r w -> len w < 2 ^ (bits - 2)) ->
  call_for k (heap s) r = Some c -> short_call bits (name c) (arguments c).
Proof.
  intros HK HR. pose proof (fun i => held_at _ _ _ i HK) as HA.
  destruct r as [n|t n|t n|t n|i n|i n|i j|i j|i|i j b|i b|i n|i b]; cbn [call_for];
    try (pose proof (HA i) as Hi; destruct (nth_error k i) as [[]|]; try discriminate;
         destruct (nth_error q i) as [[]|] eqn:Hq; try contradiction; cbn [shows] in Hi);
    try (pose proof (HA j) as Hj; destruct (nth_error k j) as [[]|]; try discriminate;
         destruct (nth_error q j) as [[]|]; try contradiction; cbn [shows] in Hj);
    rewrite ?(text_hex _ _ _ Hi), ?(text_wif _ _ _ Hi);
    intros H; injection H as <-; cbn [made name arguments short_call]; try exact I;
    try (split; [intros [H|H]|intros H]; discriminate H).
  - split; [|discriminate]. intros _. apply HR. reflexivity.
  - split; [|discriminate]. intros _. apply HR. cbn [reads_wif]. eauto.
  - destruct Hi as (a & ? & ? & -> & _). exact I.
  - destruct Hi as (a & ? & ? & -> & _). exact I.
  - destruct Hi as (a & ? & ? & -> & _). exact I.
  - destruct Hi as (a & ? & ? & ? & -> & _). exact I.
  - destruct Hi as (a & ? & ? & ? & -> & _). exact I.
  - destruct Hi as (a & ? & ? & ? & -> & _). exact I.
Qed.

Lemma kept (HE : ecdsa_contract E0) q r rs : in_range q (r :: rs) ->
  (forall w, reads_wif q r w -> wif_works E (Limits O wrap) w) /\
  (forall k s c, Forall2 (shows (heap s)) k q -> call_for k (heap s) r = Some c -> short_api (heap s ++ made c) (name c) (arguments c)) /\
  (forall rd a rest, perform E0 q r rd = Ret (a, rest) -> in_range (q ++ [a]) rs).
Proof.
  intros (h & H1 & H2 & H3 & H4 & H5). apply Forall_cons_iff in H4 as [H4 H4'], H5 as [H5 H5']. split; [|split].
  - rewrite machine_limits. exact (wifs_work E bits L HM Hb h q r H1 H3 H5).
  - intros k s c HK Hc. split; [eapply call_for_api; eassumption|].
    eapply short_for; [exact HK| |exact Hc]. exact (short_reads h q r H1 H3 H5).
  - intros rd a rest Hp. destruct (perform_total E0 h q r rd H1 H2 H4) as [(m & rest' & M)|(Ep & _)].
    + destruct (perform_forward E0 HE _ _ _ _ _ _ H1 H2 H4 M) as (a' & Ea & Sa & Fa). rewrite Ea in Hp. injection Hp as <- <-.
      exists (h ++ [m]). split; [apply Forall2_app; auto|]. split; [apply Forall_app; auto|].
      split; [|auto]. apply Forall_app. split; [exact H3|]. constructor; [exact (meant_few bits Hb _ _ _ _ _ H3 H5 M)|constructor].
    + rewrite Ep in Hp. discriminate Hp.
Qed.

Definition short_member (m : member) : Prop := Forall (few_bytes bits) (knows m) /\ Forall (short_keys bits) (plan m).
Lemma members_able sh ms : Forall (ready sh) ms -> Forall short_member ms -> Forall (able in_range) ms.
Proof.
  intros HR HS. rewrite Forall_forall in *. intros m Hm q Hq. destruct (HR m Hm) as (_ & HP & HQ), (HS m Hm) as (HF & HK).
  exists (knows m). auto 8.
Qed.
Lemma workers_able sh ws : Forall (fit sh) ws ->
  Forall (fun w => Forall (few_bytes bits) (in_mind w) /\ Forall (short_keys bits) (to_do w)) ws -> Forall (able_worker in_range) ws.
Proof.
  intros HR HS. rewrite Forall_forall in *. intros m Hm q Hq. destruct (HR m Hm) as (_ & HP & HQ), (HS m Hm) as (HF & HK).
  exists (in_mind m). auto 8.
Qed.

Lemma ints_any_schedule sh jobs : curve_ready sh -> Forall (fun j => api_call sh (calls j) (with_args j) /\ short_call bits (calls j) (with_args j)) jobs ->
  exists N, forall n w, (N <= n)%nat -> reaches (start_on E wrap n sh jobs) w ->
    shared w = sh /\ length (threads w) = length jobs /\
    forall i j t, nth_error jobs i = Some j -> nth_error (threads w) i = Some t ->
      (forall a v k, code t = TWrite a v k -> (length sh <= a)%nat) /\ code t <> TStuck /\ code t <> TFuel /\
      (forall vs, code t = TRet vs ->
         ends_above E L (calls j) (with_args j) (State sh (will_get j) []) (Done vs (State (sh ++ own t) (bytes t) (said t)))) /\
      (forall p, code t = TCrash p ->
         ends_above E L (calls j) (with_args j) (State sh (will_get j) []) (Crash p (State (sh ++ own t) (bytes t) (said t)))).
Proof.
  intros HC Hj. pose proof (any_schedule_on E wrap short_api ends_above_ints sh jobs HC Hj) as H. rewrite machine_limits in H. exact H.
Qed.

Lemma ints_no_deadlock sh jobs : curve_ready sh -> Forall (fun j => api_call sh (calls j) (with_args j) /\ short_call bits (calls j) (with_args j)) jobs ->
  exists N, forall n w, (N <= n)%nat -> reaches (start_on E wrap n sh jobs) w ->
    Forall finished (threads w) \/ exists w', step w w'.
Proof.
  intros HC Hj. exact (no_deadlock_on E wrap short_api ends_above_ints sh jobs HC Hj).
Qed.

Lemma ints_any_crew sh ms : ecdsa_contract (E secp256k1_params) -> curve_ready sh -> Forall (ready sh) ms ->
  Forall (fun m => Forall (few_bytes bits) (knows m) /\ Forall (short_keys bits) (plan m)) ms ->
  exists N, forall n w, (N <= n)%nat -> reaches (crew_start_on E wrap n sh ms) w ->
    shared w = sh /\ length (threads w) = length ms /\
    forall i m t, nth_error ms i = Some m -> nth_error (threads w) i = Some t ->
      (forall a v k, code t = TWrite a v k -> (length sh <= a)%nat) /\ code t <> TStuck /\ code t <> TFuel /\
      (forall k, code t = TRet k -> exists l, meant_all (knows m) (plan m) (gets m) l (bytes t) /\
         Forall2 (carries (sh ++ own t)) k l /\ said t = []) /\
      (forall p, code t = TCrash p -> p = PRand /\ forall l rest, ~ meant_all (knows m) (plan m) (gets m) l rest).
Proof.
  intros HE HC HR HS.
  exact (crew_any_schedule_on E wrap short_api ends_above_ints in_range (kept HE) sh ms HE HC HR (members_able sh ms HR HS)).
Qed.

Lemma ints_crew_no_deadlock sh ms : ecdsa_contract (E secp256k1_params) -> curve_ready sh -> Forall (ready sh) ms ->
  Forall (fun m => Forall (few_bytes bits) (knows m) /\ Forall (short_keys bits) (plan m)) ms ->
  exists N, forall n w, (N <= n)%nat -> reaches (crew_start_on E wrap n sh ms) w ->
    Forall finished (threads w) \/ exists w', step w w'.
Proof.
  intros HE HC HR HS.
  exact (crew_no_deadlock_on E wrap short_api ends_above_ints in_range (kept HE) sh ms HE HC HR (members_able sh ms HR HS)).
Qed.

Lemma ints_one_machine sh rd jobs : curve_ready sh -> whole_heap sh -> Forall (fun j => api_call sh (fst j) (snd j) /\ short_call bits (fst j) (snd j)) jobs ->
  exists N, forall n m, (N <= n)%nat ->
    comes_to (machine_start sh rd (map (fun j => t_run_on E wrap n (fst j) (snd j)) jobs)) m ->
    firstn (length sh) (memory m) = sh /\ ~ race m /\ (Forall ended (routines m) \/ exists m', tick m m') /\
    length (routines m) = length jobs /\
    forall i f args ro, nth_error jobs i = Some (f, args) -> nth_error (routines m) i = Some ro ->
      keeps_apart m i (todo ro) /\ todo ro <> TStuck /\ todo ro <> TFuel /\
      (forall vs, todo ro = TRet vs -> exists ws h g,
         ends_above E L f args (State sh (got ro) []) (Done ws (State h [] (lines_of i (screen m)))) /\
         copied (length sh) g h (memory m) /\ vs = map (rename g) ws) /\
      (forall p, todo ro = TCrash p -> exists h,
         ends_above E L f args (State sh (got ro) []) (Crash p (State h [] (lines_of i (screen m))))).
Proof.
  intros HC HW Hj. pose proof (one_machine_on E wrap short_api ends_above_ints (fun _ _ _ H => proj1 H) sh rd jobs HC HW Hj) as H.
  rewrite machine_limits in H. exact H.
Qed.

Lemma ints_one_crew sh rd ws : ecdsa_contract (E secp256k1_params) -> curve_ready sh -> whole_heap sh -> Forall (fit sh) ws ->
  Forall (fun w => Forall (few_bytes bits) (in_mind w) /\ Forall (short_keys bits) (to_do w)) ws ->
  exists N, forall n m, (N <= n)%nat ->
    comes_to (machine_start sh rd (map (fun w => t_program_on E wrap n (in_hand w) (to_do w)) ws)) m ->
    firstn (length sh) (memory m) = sh /\ ~ race m /\ (Forall ended (routines m) \/ exists m', tick m m') /\
    length (routines m) = length ws /\
    forall i w ro, nth_error ws i = Some w -> nth_error (routines m) i = Some ro ->
      keeps_apart m i (todo ro) /\ todo ro <> TStuck /\ todo ro <> TFuel /\
      (forall k, todo ro = TRet k -> exists l,
         meant_all (in_mind w) (to_do w) (got ro) l [] /\ Forall2 (carries (memory m)) k l /\ lines_of i (screen m) = []) /\
      (forall p, todo ro = TCrash p -> p = PRand /\ forall l rest, ~ meant_all (in_mind w) (to_do w) (got ro) l rest).
Proof.
  intros HE HC HW HF HS.
  exact (one_crew_on E wrap short_api ends_above_ints in_range (kept HE) sh rd ws HE HC HW HF (workers_able sh ws HF HS)).
Qed.

End Machine.
