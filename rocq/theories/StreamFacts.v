(** * Facts about generation over endless random sources (C81) *)

From Coq Require Import ZifyNat.
From Verif Require Import GoBase GoNum Sha256 Base58 GoRand Model SpecStream ModelStream Spec SpecFacts.
From Verif Require Import NumFacts HexFacts PrivFacts GenFacts MnemFacts MnemProps.
Local Open Scope Z_scope.
Local Opaque sha256 secp_N secp_P.

Lemma block_length s pos k : length (block s pos k) = k.
Proof. unfold block. rewrite map_length. apply seq_length. Qed.

Lemma block_app s pos j k : block s pos (j + k) = block s pos j ++ block s (pos + j) k.
Proof. unfold block. rewrite seq_app, map_app. reflexivity. Qed.

Lemma block_split s pos k b r : block s pos k = b ++ r ->
  b = block s pos (length b) /\ r = block s (pos + length b) (k - length b) /\ (length b <= k)%nat.
Proof.
  intros E. assert (Hl : (length b <= k)%nat).
  { apply (f_equal (@length byte)) in E. rewrite block_length, app_length in E. lia. }
  replace k with (length b + (k - length b))%nat in E at 1 by lia. rewrite block_app in E.
  apply app_inj_1 in E as [E1 E2]; [|apply block_length]. auto.
Qed.

Lemma rand_bytes_max : rand_bytes rand_max = 32%nat.
Proof. reflexivity. Qed.

Lemma candidate_max s pos : candidate rand_max s pos = bytes_number (block s pos 32).
Proof.
  unfold candidate. rewrite rand_bytes_max. change (bit_len (rand_max - 1)) with (8 * Z.of_nat 32).
  apply rand_candidate_full, block_length.
Qed.

Lemma rand_run_fun max s pos v q : rand_run max s pos v q -> forall v' q', rand_run max s pos v' q' -> v' = v /\ q' = q.
Proof.
  induction 1 as [pos H|pos v q H H1 IH]; intros v' q' H'; inversion H'; subst; try lia; auto.
Qed.

(** Runs of rand.Int and blocks of a finite prefix. *)
Lemma rand_run_block s pos v q rest : rand_run rand_max s pos v q ->
  first_block 32 below_max (block s pos (q - pos) ++ rest) v rest /\ (pos + 32 <= q)%nat.
Proof.
  induction 1 as [pos H|pos v q H H1 [IH Hq]].
  - rewrite rand_bytes_max, candidate_max in *. split; [|lia].
    replace (pos + 32 - pos)%nat with 32%nat by lia. apply first_here; [apply block_length|].
    unfold below_max. rewrite <- rand_max_N. exact H.
  - rewrite rand_bytes_max, candidate_max in *. split; [|lia].
    replace (q - pos)%nat with (32 + (q - (pos + 32)))%nat by lia.
    rewrite block_app, <- app_assoc. apply first_skip; [apply block_length| |exact IH].
    unfold below_max. rewrite <- rand_max_N. lia.
Qed.

Lemma rand_run_range s pos v q : rand_run rand_max s pos v q -> 0 <= v < 2 ^ 256.
Proof.
  intros H. apply (rand_run_block _ _ _ _ []) in H as [H _]. apply first_block_range in H.
  change (256 ^ Z.of_nat 32) with (2 ^ 256) in H. exact H.
Qed.

Lemma block_rand_run s rd v rest : first_block 32 below_max rd v rest ->
  forall pos n, rd = block s pos n ->
  exists q, rand_run rand_max s pos v q /\ rest = block s q (pos + n - q) /\ (pos < q <= pos + n)%nat.
Proof.
  induction 1 as [b rest Hl Hg|b rd v rest Hl Hg H IH]; intros pos n E; symmetry in E;
    apply block_split in E as (Eb & Er & Hn); rewrite Hl in *.
  - exists (pos + 32)%nat. rewrite Eb. rewrite <- candidate_max. split; [|split; [|lia]].
    + change (pos + 32)%nat with (pos + rand_bytes rand_max)%nat. apply rand_hit.
      rewrite candidate_max, <- Eb, rand_max_N. exact Hg.
    + rewrite Er. f_equal. lia.
  - destruct (IH _ _ Er) as (q & Hq & Hr & Hp). exists q. split; [|split; [|lia]].
    + apply rand_retry; [|rewrite rand_bytes_max; exact Hq].
      rewrite candidate_max, <- Eb, rand_max_N. unfold below_max in Hg. lia.
    + rewrite Hr. f_equal. lia.
Qed.

Lemma rand_run_model s pos v q rest : rand_run rand_max s pos v q ->
  generateRandomBigInt (block s pos (q - pos) ++ rest) = Ret (v, rest).
Proof.
  intros H. apply (rand_run_block _ _ _ _ rest) in H as [H _].
  pose proof (generateRandomBigInt_spec (block s pos (q - pos) ++ rest)) as K.
  destruct (generateRandomBigInt _) as [[w r]|p].
  - destruct (first_block_fun _ _ _ _ _ _ _ H K) as [-> ->]. reflexivity.
  - destruct K as [_ K]. contradiction (K _ _ H).
Qed.

(** ** The model of [Model.v] on the bytes a run reads *)

Definition with_rest (r : outcome private_key) (rest : list byte) : outcome (private_key * list byte) :=
  match r with Ret k => Ret (k, rest) | Panic p => Panic p end.

Lemma generate_after net s pos r q d : generate net s pos r q d -> (pos < q)%nat.
Proof.
  induction 1 as [pos v p r q d H Hl G IH|pos v p e r q d H Hl He G IH|pos v p c H Hl He|pos v p k H Hl He];
    apply (rand_run_block _ _ _ _ []) in H as [_ H]; lia.
Qed.

Lemma generate_model_fuel net s pos r q d rest : generate net s pos r q d ->
  forall f, (length (block s pos (q - pos) ++ rest) < f)%nat ->
  generate_fuel f net (block s pos (q - pos) ++ rest) = with_rest r rest.
Proof.
  intros G. induction G as [pos v p r q d H Hl G IH|pos v p e r q d H Hl He G IH|pos v p c H Hl He|pos v p k H Hl He];
    intros f Hf; (destruct f as [|f]; [lia|]); cbn [generate_fuel].
  1,2: pose proof (generate_after _ _ _ _ _ _ G) as Hpq;
    pose proof (proj2 (rand_run_block _ _ _ _ [] H)) as Hp;
    assert (E : block s pos (q - pos) ++ rest = block s pos (p - pos) ++ block s p (q - p) ++ rest)
      by (replace (q - pos)%nat with ((p - pos) + (q - p))%nat by lia; rewrite block_app, <- app_assoc;
          replace (pos + (p - pos))%nat with p by lia; reflexivity);
    rewrite E in Hf |- *; rewrite app_length, block_length in Hf;
    rewrite (rand_run_model _ _ _ _ _ H); cbn [bind].
  - destruct (Z.eqb_spec (len (bigIntToHex (Some v))) 64); [contradiction|]. cbn [negb]. apply IH. lia.
  - destruct (Z.eqb_spec (len (bigIntToHex (Some v))) 64); [|contradiction]. cbn [negb].
    rewrite He. cbn [bind]. apply IH. lia.
  - rewrite (rand_run_model _ _ _ _ _ H). cbn [bind].
    destruct (Z.eqb_spec (len (bigIntToHex (Some v))) 64); [|contradiction]. cbn [negb].
    rewrite He. reflexivity.
  - rewrite (rand_run_model _ _ _ _ _ H). cbn [bind].
    destruct (Z.eqb_spec (len (bigIntToHex (Some v))) 64); [|contradiction]. cbn [negb].
    rewrite He. reflexivity.
Qed.

Lemma generate_model net s r q d rest : generate net s 0 r q d ->
  GeneratePrivateKey net (block s 0 q ++ rest) = with_rest r rest.
Proof.
  intros G. pose proof (generate_model_fuel _ _ _ _ _ _ rest G) as K. rewrite Nat.sub_0_r in K.
  apply K. lia.
Qed.

(** Anything but running out of bytes happens on the endless source too. *)
Lemma model_generate_fuel net s f : forall pos n o, generate_fuel f net (block s pos n) = o ->
  o <> Panic PRand -> o <> Panic PFuel ->
  exists r q d, generate net s pos r q d /\ (q <= pos + n)%nat /\
    o = with_rest r (block s q (pos + n - q)).
Proof.
  induction f as [|f IH]; intros pos n o E NR NF; [cbn in E; congruence|]. cbn [generate_fuel] in E.
  pose proof (generateRandomBigInt_spec (block s pos n)) as Hr.
  destruct (generateRandomBigInt (block s pos n)) as [[v rd]|p];
    [|destruct Hr as [-> _]; cbn [bind] in E; congruence].
  cbn [bind] in E. destruct (block_rand_run s _ _ _ Hr _ _ eq_refl) as (p & Hp & Erd & Hpn).
  destruct (Z.eqb_spec (len (bigIntToHex (Some v))) 64) as [El|El]; cbn [negb] in E.
  - destruct (PrivateFromHex (bigIntToHex (Some v)) net) as [[k|e]|c] eqn:Ek; cbn [bind] in E.
    + exists (Ret (PrivateKey (Some v) (Hex k) (WIF k) (KNetwork k))), p, 0%nat.
      split; [apply (gen_key _ _ _ v); assumption|]. split; [lia|]. rewrite <- E, Erd. reflexivity.
    + rewrite Erd in E. destruct (IH _ _ _ E NR NF) as (r & q & d & G & Hq & Eo).
      exists r, q, (S d). split; [apply (gen_error _ _ _ v p e); assumption|]. split; [lia|].
      rewrite Eo. do 2 f_equal. lia.
    + exists (Panic c), p, 0%nat. split; [apply (gen_panic _ _ _ v); assumption|]. split; [lia|].
      rewrite <- E. reflexivity.
  - rewrite Erd in E. destruct (IH _ _ _ E NR NF) as (r & q & d & G & Hq & Eo).
    exists r, q, (S d). split; [apply (gen_short _ _ _ v p); assumption|]. split; [lia|].
    rewrite Eo. do 2 f_equal. lia.
Qed.

Lemma with_rest_ret r rest k rest' : with_rest r rest = Ret (k, rest') -> r = Ret k /\ rest = rest'.
Proof. destruct r; cbn; intros H; [|discriminate]. injection H as -> ->. auto. Qed.

(** The runs that return are exactly those of [Model.v] on what they read. *)
Lemma generate_returns_model net s k q :
  (exists d, generate net s 0 (Ret k) q d) <-> GeneratePrivateKey net (block s 0 q) = Ret (k, []).
Proof.
  split.
  - intros [d G]. apply (generate_model _ _ _ _ _ []) in G. rewrite app_nil_r in G. exact G.
  - intros E. destruct (model_generate_fuel _ _ _ _ _ _ E ltac:(discriminate) ltac:(discriminate)) as (r & q' & d & G & Hq & Eo).
    symmetry in Eo. apply with_rest_ret in Eo as [-> Eb].
    apply (f_equal (@length byte)) in Eb. rewrite block_length in Eb. cbn [length] in Eb.
    exists d. replace q with q' by lia. exact G.
Qed.

Lemma generate_panics_model net s c q d : generate net s 0 (Panic c) q d ->
  GeneratePrivateKey net (block s 0 q) = Panic c.
Proof. intros G. apply (generate_model _ _ _ _ _ []) in G. rewrite app_nil_r in G. exact G. Qed.

Lemma generate_fun net s pos r q d : generate net s pos r q d ->
  forall r' q' d', generate net s pos r' q' d' -> r' = r /\ q' = q /\ d' = d.
Proof.
  induction 1 as [pos v p r q d H Hl G IH|pos v p e r q d H Hl He G IH|pos v p c H Hl He|pos v p k H Hl He];
    intros r' q' d' K; inversion K as [? v' p' ? ? d'' H' Hl' G'|? v' p' e' ? ? d'' H' Hl' He' G'|? v' p' c' H' Hl' He'|? v' p' k' H' Hl' He']; subst;
    destruct (rand_run_fun _ _ _ _ _ H _ _ H') as [-> ->]; try contradiction; try congruence;
    try (destruct (IH _ _ _ G') as (-> & -> & ->); auto).
  - assert (c' = c) as -> by congruence. auto.
  - assert (k' = k) as -> by congruence. auto.
Qed.

(** ** Which streams give a key *)

Lemma first_block_in_range rd v rest : first_block 32 gen_range rd v rest <-> first_block 32 in_range rd v rest.
Proof. split; apply first_block_ext; intros z; unfold gen_range, in_range; lia. Qed.

Lemma in_range_dec v : {in_range v} + {~ in_range v}.
Proof.
  unfold in_range. destruct (Z_le_dec (2 ^ 252) v); [|right; lia]. destruct (Z_lt_dec v (secp_N - 1)); [left|right]; lia.
Qed.

Lemma first_good_exists s m : in_range (bytes_number (block s (32 * m) 32)) -> exists j, first_good s j.
Proof.
  induction m as [m IH] using (well_founded_induction Wf_nat.lt_wf). intros H.
  assert (D : (exists j, (j < m)%nat /\ in_range (bytes_number (block s (32 * j) 32))) \/
              forall j, (j < m)%nat -> ~ in_range (bytes_number (block s (32 * j) 32))).
  { clear. induction m as [|m IHm]; [right; lia|]. destruct IHm as [(j & Hj & E)|N].
    - left. exists j. split; [lia|exact E].
    - destruct (in_range_dec (bytes_number (block s (32 * m) 32))) as [E|E].
      + left. exists m. split; [lia|exact E].
      + right. intros j Hj. destruct (Nat.eq_dec j m) as [->|]; [exact E|apply N; lia]. }
  destruct D as [(j & Hj & E)|N]; [apply (IH j Hj E)|]. exists m. split; assumption.
Qed.

Lemma first_good_block s m : forall i, (forall j, (i <= j < i + m)%nat -> ~ in_range (bytes_number (block s (32 * j) 32))) ->
  in_range (bytes_number (block s (32 * (i + m)) 32)) ->
  first_block 32 in_range (block s (32 * i) (32 * S m)) (bytes_number (block s (32 * (i + m)) 32)) [].
Proof.
  induction m as [|m IH]; intros i N G.
  - rewrite Nat.add_0_r in *. change (32 * 1)%nat with 32%nat. rewrite <- (app_nil_r (block s (32 * i) 32)) at 1.
    apply first_here; [apply block_length|exact G].
  - replace (32 * S (S m))%nat with (32 + 32 * S m)%nat by lia. rewrite block_app.
    apply first_skip; [apply block_length|apply N; lia|].
    replace (32 * i + 32)%nat with (32 * S i)%nat by lia.
    replace (i + S m)%nat with (S i + m)%nat in * by lia. apply IH; [|exact G]. intros j Hj. apply N. lia.
Qed.

Lemma block_first_good s rd v rest : first_block 32 in_range rd v rest -> forall i n, rd = block s (32 * i) n ->
  exists m, in_range (bytes_number (block s (32 * m) 32)).
Proof.
  induction 1 as [b rest Hl Hg|b rd v rest Hl Hg H IH]; intros i n E; symmetry in E;
    apply block_split in E as (Eb & Er & Hn); rewrite Hl in *.
  - exists i. rewrite <- Eb. exact Hg.
  - apply (IH (S i) (n - 32)%nat). rewrite Er. f_equal. lia.
Qed.

Section Good.
Context (n : network) (bs : list byte) (Hbs : hex_text (PrivKeyPrefix n) bs).

Lemma generate_at s m : first_good s m ->
  exists k d, generate (Some n) s 0 (Ret k) (32 * S m) d /\ Key k = Some (bytes_number (block s (32 * m) 32)).
Proof.
  intros [G N]. pose proof (first_good_block s m 0 ltac:(intros j Hj; apply N; lia) G) as F.
  change (32 * 0)%nat with 0%nat in F. change (0 + m)%nat with m in F.
  pose proof (GeneratePrivateKey_spec n bs (block s 0 (32 * S m)) Hbs) as K.
  destruct (GeneratePrivateKey (Some n) (block s 0 (32 * S m))) as [[k rest]|p] eqn:E.
  - destruct K as (v & F' & Kk & _). apply first_block_in_range in F'.
    destruct (first_block_fun _ _ _ _ _ _ _ F F') as [Ev Er]. subst rest.
    apply generate_returns_model in E as [d E]. exists k, d. split; [exact E|]. rewrite Kk. f_equal. congruence.
  - destruct K as [_ K]. apply first_block_in_range in F. contradiction (K _ _ F).
Qed.

Lemma generate_good s pos r q d : generate (Some n) s pos r q d -> exists k, r = Ret k.
Proof.
  induction 1 as [pos v p r q d H Hl G IH|pos v p e r q d H Hl He G IH|pos v p c H Hl He|pos v p k H Hl He]; eauto.
  destruct (PrivateFromHex_total (bigIntToHex (Some v)) n) as [r Hr]. congruence.
Qed.

Lemma generate_ends_iff s : (exists r q d, generate (Some n) s 0 r q d) <->
  exists m, in_range (bytes_number (block s (32 * m) 32)).
Proof.
  split.
  - intros (r & q & d & G). destruct (generate_good _ _ _ _ _ G) as [k ->].
    assert (E : GeneratePrivateKey (Some n) (block s 0 q) = Ret (k, [])) by (apply generate_returns_model; eauto).
    pose proof (GeneratePrivateKey_spec n bs (block s 0 q) Hbs) as K. rewrite E in K.
    destruct K as (v & F & _). apply first_block_in_range in F. apply (block_first_good s _ _ _ F 0 q). reflexivity.
  - intros [m H]. destruct (first_good_exists s m H) as [j Hj].
    destruct (generate_at s j Hj) as (k & d & G & _). eauto.
Qed.

Lemma key_at s k q d : generate (Some n) s 0 (Ret k) q d <->
  exists m, first_good s m /\ q = (32 * S m)%nat /\
    generate (Some n) s 0 (Ret k) q d /\ Key k = Some (bytes_number (block s (32 * m) 32)).
Proof.
  split; [|intros (m & _ & _ & G & _); exact G]. intros G.
  destruct (proj1 (generate_ends_iff s) (ex_intro _ _ (ex_intro _ _ (ex_intro _ _ G)))) as [m H].
  destruct (first_good_exists s m H) as [j Hj]. exists j. split; [exact Hj|].
  destruct (generate_at s j Hj) as (k' & d' & G' & Hk).
  destruct (generate_fun _ _ _ _ _ _ G _ _ _ G') as (E & -> & ->). injection E as ->. auto.
Qed.

End Good.

(** ** Which streams never give one *)

Lemma hex_64 s pos : len (bigIntToHex (Some (candidate rand_max s pos))) = 64 <-> 2 ^ 252 <= candidate rand_max s pos.
Proof.
  rewrite candidate_max. cbn [bigIntToHex]. unfold len.
  assert (R : 0 <= bytes_number (block s pos 32) < 2 ^ 256).
  { pose proof (bytes_number_bound (block s pos 32)) as R. rewrite block_length in R. exact R. }
  pose proof (sprintf_x_64 _ R) as K. unfold gen_big in K. lia.
Qed.

(** Coinduction: a set of positions each of which fails and leads to the set. *)
Definition fails (net : option network) (s : stream) (pos : nat) : Prop :=
  rand_max <= candidate rand_max s pos \/
  candidate rand_max s pos < rand_max /\ len (bigIntToHex (Some (candidate rand_max s pos))) <> 64 \/
  candidate rand_max s pos < rand_max /\ len (bigIntToHex (Some (candidate rand_max s pos))) = 64 /\
    exists e, PrivateFromHex (bigIntToHex (Some (candidate rand_max s pos))) net = Ret (Err e).

Lemma spins_coind net s (P : nat -> Prop) :
  (forall pos, P pos -> fails net s pos /\ P (pos + rand_bytes rand_max)%nat) -> forall pos, P pos -> spins net s pos.
Proof.
  intros H. cofix IH. intros pos Hp. destruct (H pos Hp) as [[A|[[A B]|(A & B & e & C)]] N].
  - apply spin_rand; [exact A|]. apply IH, N.
  - apply spin_short; [exact A|exact B|]. apply IH, N.
  - apply (spin_error _ _ _ e); [exact A|exact B|exact C|]. apply IH, N.
Qed.

Lemma spins_blocks net s : (forall m, fails net s (32 * m)) -> forall m, spins net s (32 * m).
Proof.
  intros H m. apply (spins_coind net s (fun pos => exists m, pos = (32 * m)%nat)); [|exists m; reflexivity].
  intros pos [j ->]. split; [apply H|]. exists (S j). rewrite rand_bytes_max. lia.
Qed.

Lemma never_spins net s : (forall m, ~ in_range (bytes_number (block s (32 * m) 32))) -> forall m, spins net s (32 * m).
Proof.
  intros N. apply spins_blocks. intros m. specialize (N m). rewrite <- candidate_max in N. unfold in_range in N.
  rewrite <- rand_max_N in N. pose proof (hex_64 s (32 * m)) as L. unfold fails.
  destruct (Z_lt_dec (candidate rand_max s (32 * m)) rand_max) as [Lt|Ge].
  - right. left. split; [exact Lt|intros K; apply L in K; lia].
  - left. lia.
Qed.

Lemma rand_run_here s pos v q : candidate rand_max s pos < rand_max -> rand_run rand_max s pos v q ->
  v = candidate rand_max s pos /\ q = (pos + rand_bytes rand_max)%nat.
Proof. intros H R. inversion R; subst; [auto|lia]. Qed.

Lemma rand_run_spins net s pos v p : rand_run rand_max s pos v p -> spins net s pos ->
  (len (bigIntToHex (Some v)) <> 64 \/
   len (bigIntToHex (Some v)) = 64 /\ exists e, PrivateFromHex (bigIntToHex (Some v)) net = Ret (Err e)) /\
  spins net s p.
Proof.
  induction 1 as [pos H|pos v q H H1 IH]; intros S; inversion S as [? Hm S'|? Hm Hl S'|? e Hm Hl He S']; subst; try lia; eauto.
Qed.

Lemma spins_no_result net s pos r q d : generate net s pos r q d -> ~ spins net s pos.
Proof.
  induction 1 as [pos v p r q d H Hl G IH|pos v p e r q d H Hl He G IH|pos v p c H Hl He|pos v p k H Hl He];
    intros S; destruct (rand_run_spins _ _ _ _ _ H S) as [[N|[L [e' E]]] S']; try (exact (IH S')); congruence.
Qed.

Lemma spins_iff n bs s : hex_text (PrivKeyPrefix n) bs ->
  (spins (Some n) s 0 <-> forall m, ~ in_range (bytes_number (block s (32 * m) 32))).
Proof.
  intros Hbs. split.
  - intros S m H. destruct (proj2 (generate_ends_iff n bs Hbs s) (ex_intro _ m H)) as (r & q & d & G).
    apply (spins_no_result _ _ _ _ _ _ G S).
  - intros N. exact (never_spins (Some n) s N 0).
Qed.

(** With an unusable prefix nothing is ever returned. *)
Lemma bad_prefix_refuses n v : (~ exists bs, hex_text (PrivKeyPrefix n) bs) -> 0 <= v ->
  len (bigIntToHex (Some v)) = 64 -> exists e, PrivateFromHex (bigIntToHex (Some v)) (Some n) = Ret (Err e).
Proof.
  unfold bigIntToHex. intros Hbs H0 El. destruct (PrivateFromHex_total (sprintf_x v) n) as [[k|e] Hk]; [|exists e; exact Hk].
  exfalso. apply Hbs.
  assert (Hev : Nat.even (length (sprintf_x v)) = true).
  { unfold len in El. replace (length (sprintf_x v)) with 64%nat by lia. reflexivity. }
  apply (proj1 (PrivateFromHex_prefix_even n _ Hev (sprintf_x_is_hex v H0))). exists k. exact Hk.
Qed.

Lemma bad_prefix_spins n s : (~ exists bs, hex_text (PrivKeyPrefix n) bs) -> forall m, spins (Some n) s (32 * m).
Proof.
  intros Hbs. apply spins_blocks. intros m. unfold fails.
  assert (H0 : 0 <= candidate rand_max s (32 * m)) by (rewrite candidate_max; apply bytes_number_bound).
  revert H0. generalize (candidate rand_max s (32 * m)). intros v H0.
  destruct (Z_lt_dec v rand_max) as [Lt|Ge]; [|left; lia].
  destruct (Z.eq_dec (len (bigIntToHex (Some v))) 64) as [El|El]; [|right; left; auto].
  right. right. split; [exact Lt|]. split; [exact El|]. apply bad_prefix_refuses; assumption.
Qed.

(** Every call ends or does not. *)
Lemma generate_ends_or_spins n s : ~ (exists r q d, generate (Some n) s 0 r q d) <-> spins (Some n) s 0.
Proof.
  split; [|intros S (r & q & d & G); apply (spins_no_result _ _ _ _ _ _ G S)].
  intros N. destruct (hex_decode (PrivKeyPrefix n)) as [bs|e] eqn:E.
  - apply hex_text_decode in E. apply (spins_iff n bs s E). intros m H. apply N.
    apply (generate_ends_iff n bs E). eauto.
  - apply (bad_prefix_spins n s) with (m := 0%nat). intros [bs H]. apply hex_text_decode in H. congruence.
Qed.

(** The nil network: nil pointer dereference, once a block is in range. *)
Lemma generate_nil_ends s pos r q d : generate None s pos r q d -> r = Panic PNil.
Proof.
  induction 1 as [pos v p r q d H Hl G IH|pos v p e r q d H Hl He G IH|pos v p c H Hl He|pos v p k H Hl He];
    [exact IH|exact IH| |]; cbn [PrivateFromHex] in He; [congruence|discriminate].
Qed.

Lemma generate_retry net s pos r q d : rand_max <= candidate rand_max s pos ->
  generate net s (pos + rand_bytes rand_max) r q d -> generate net s pos r q d.
Proof.
  intros H G. remember (pos + rand_bytes rand_max)%nat as pos' eqn:E.
  destruct G as [pos' v p r q d R Hl G'|pos' v p e r q d R Hl He G'|pos' v p c R Hl He|pos' v p k R Hl He]; rewrite E in R.
  - apply (gen_short _ _ _ v p); [apply rand_retry; assumption|exact Hl|exact G'].
  - apply (gen_error _ _ _ v p e); [apply rand_retry; assumption|exact Hl|exact He|exact G'].
  - apply (gen_panic _ _ _ v p); [apply rand_retry; assumption|exact Hl|exact He].
  - apply (gen_key _ _ _ v p); [apply rand_retry; assumption|exact Hl|exact He].
Qed.

Lemma generate_skip net s pos r q d : ~ in_range (bytes_number (block s pos 32)) ->
  generate net s (pos + 32) r q d -> exists d', generate net s pos r q d'.
Proof.
  intros N G. rewrite <- candidate_max in N. unfold in_range in N. rewrite <- rand_max_N in N.
  pose proof (hex_64 s pos) as L. destruct (Z_lt_dec (candidate rand_max s pos) rand_max) as [Lt|Ge].
  - exists (S d). apply (gen_short _ _ _ (candidate rand_max s pos) (pos + 32)%nat); [|intros K; apply L in K; lia|exact G].
    change (pos + 32)%nat with (pos + rand_bytes rand_max)%nat. apply rand_hit. exact Lt.
  - exists d. apply generate_retry; [lia|exact G].
Qed.

Lemma generate_skips net s r q m : (forall j, (j < m)%nat -> ~ in_range (bytes_number (block s (32 * j) 32))) ->
  (exists d, generate net s (32 * m) r q d) -> exists d, generate net s 0 r q d.
Proof.
  induction m as [|m IH]; intros N [d G]; [exists d; exact G|].
  apply IH; [intros j Hj; apply N; lia|]. apply (generate_skip net s _ r q d); [apply N; lia|].
  replace (32 * m + 32)%nat with (32 * S m)%nat by lia. exact G.
Qed.

Lemma generate_nil s :
  ((exists r q d, generate None s 0 r q d) <-> exists m, in_range (bytes_number (block s (32 * m) 32))) /\
  (spins None s 0 <-> forall m, ~ in_range (bytes_number (block s (32 * m) 32))) /\
  forall r q d, generate None s 0 r q d -> r = Panic PNil.
Proof.
  assert (A : forall m, in_range (bytes_number (block s (32 * m) 32)) -> exists r q d, generate None s 0 r q d).
  { intros m0 H0. destruct (first_good_exists s m0 H0) as (m & H & N).
    exists (Panic PNil), (32 * m + rand_bytes rand_max)%nat. apply (generate_skips None s _ _ m N).
    exists 0%nat. apply (gen_panic _ _ _ (candidate rand_max s (32 * m))).
    - apply rand_hit. rewrite candidate_max, rand_max_N. apply H.
    - apply hex_64. rewrite candidate_max. apply H.
    - reflexivity. }
  split; [|split].
  - split; [|intros [m H]; exact (A m H)]. intros (r & q & d & G).
    assert (K : forall pos r q d, generate None s pos r q d -> forall i, pos = (32 * i)%nat ->
      exists m, (32 * m < q)%nat /\ in_range (bytes_number (block s (32 * m) 32))).
    { clear. intros pos r q d G.
      assert (RR : forall pos v p, rand_run rand_max s pos v p -> forall i, pos = (32 * i)%nat ->
        exists m, p = (32 * S m)%nat /\ v = bytes_number (block s (32 * m) 32) /\ v < rand_max).
      { clear. induction 1 as [pos H|pos v q H R IH]; intros i ->.
        - exists i. rewrite rand_bytes_max, candidate_max in *. split; [lia|]. split; [reflexivity|exact H].
        - apply (IH (S i)). rewrite rand_bytes_max. lia. }
      induction G as [pos v p r q d H Hl G IH|pos v p e r q d H Hl He G IH|pos v p c H Hl He|pos v p k H Hl He]; intros i Hi;
        destruct (RR _ _ _ H i Hi) as (m & Hp & Hv & Hlt).
      1,2: exact (IH (S m) Hp).
      all: exists m; split; [lia|]; rewrite Hv in Hl, Hlt; rewrite <- candidate_max in *; split;
        [apply hex_64; exact Hl|rewrite <- rand_max_N; exact Hlt]. }
    destruct (K _ _ _ _ G 0%nat eq_refl) as (m & _ & H). exists m. exact H.
  - split.
    + intros S m H. destruct (A m H) as (r & q & d & G). apply (spins_no_result _ _ _ _ _ _ G S).
    + intros N. exact (never_spins None s N 0).
  - intros r q d G. exact (generate_nil_ends _ _ _ _ _ G).
Qed.

(** ** Nested calls *)

Definition late (d : nat) : stream := fun i => if (i <? 32 * d)%nat then x00 else x42.

Lemma late_zero d m : (m < d)%nat -> block (late d) (32 * m) 32 = repeat x00 32.
Proof.
  intros H. unfold block. cbn [seq map repeat]. unfold late.
  repeat (match goal with |- context [(?x <? ?y)%nat] => destruct (Nat.ltb_spec x y); [|lia] end). reflexivity.
Qed.
Lemma late_good d : block (late d) (32 * d) 32 = repeat x42 32.
Proof.
  unfold block. cbn [seq map repeat]. unfold late.
  repeat (match goal with |- context [(?x <? ?y)%nat] => destruct (Nat.ltb_spec x y); [lia|] end). reflexivity.
Qed.

Lemma zero_run d m : (m < d)%nat -> rand_run rand_max (late d) (32 * m) 0 (32 * S m).
Proof.
  intros H. pose proof (candidate_max (late d) (32 * m)) as E. rewrite (late_zero d m H) in E.
  change (bytes_number (repeat x00 32)) with 0 in E. rewrite <- E.
  replace (32 * S m)%nat with (32 * m + rand_bytes rand_max)%nat by (rewrite rand_bytes_max; lia).
  apply rand_hit. rewrite E. reflexivity.
Qed.

Lemma nested_calls n bs : hex_text (PrivKeyPrefix n) bs -> forall d,
  exists k, generate (Some n) (late d) 0 (Ret k) (32 * S d) d.
Proof.
  intros Hbs d.
  assert (B : in_range (bytes_number (block (late d) (32 * d) 32))).
  { rewrite late_good. unfold in_range. vm_compute. split; [discriminate|reflexivity]. }
  assert (R : rand_run rand_max (late d) (32 * d) (bytes_number (block (late d) (32 * d) 32)) (32 * S d)).
  { rewrite <- candidate_max. replace (32 * S d)%nat with (32 * d + rand_bytes rand_max)%nat by (rewrite rand_bytes_max; lia).
    apply rand_hit. rewrite candidate_max, rand_max_N. apply B. }
  assert (L : len (bigIntToHex (Some (bytes_number (block (late d) (32 * d) 32)))) = 64).
  { rewrite <- candidate_max. apply hex_64. rewrite candidate_max. apply B. }
  assert (H0 : 0 <= bytes_number (block (late d) (32 * d) 32)) by apply bytes_number_bound.
  destruct (proj2 (PrivateFromHex_prefix_even n (bigIntToHex (Some (bytes_number (block (late d) (32 * d) 32))))
     ltac:(unfold len in L; replace (length _) with 64%nat by lia; reflexivity) (sprintf_x_is_hex _ H0)) (ex_intro _ _ Hbs)) as [k0 Hk].
  assert (K : forall j m, (m + j = d)%nat ->
    generate (Some n) (late d) (32 * m) (Ret (PrivateKey (Some (bytes_number (block (late d) (32 * d) 32))) (Hex k0) (WIF k0) (KNetwork k0))) (32 * S d) j).
  { induction j as [|j IH]; intros m Hm.
    - replace m with d by lia. apply (gen_key _ _ _ _ _ _ R L Hk).
    - apply (gen_short _ _ _ 0 (32 * S m)%nat); [apply zero_run; lia|discriminate|]. apply IH. lia. }
  eexists. exact (K d 0%nat eq_refl).
Qed.

(** ** NewMnemonic *)

Lemma rand_run_pow s pos k : (0 < k)%nat ->
  rand_run (2 ^ Z.of_nat (32 * k)) s pos (bytes_number (block s pos (4 * k))) (pos + 4 * k).
Proof.
  intros Hk.
  assert (B : rand_bytes (2 ^ Z.of_nat (32 * k)) = (4 * k)%nat).
  { unfold rand_bytes. rewrite bit_len_pow by lia.
    replace ((Z.of_nat (32 * k) + 7) / 8) with (Z.of_nat (4 * k)); [lia|]. apply Z.div_unique with 7; lia. }
  assert (C : candidate (2 ^ Z.of_nat (32 * k)) s pos = bytes_number (block s pos (4 * k))).
  { unfold candidate. rewrite B, bit_len_pow by lia.
    replace (Z.of_nat (32 * k)) with (8 * Z.of_nat (4 * k)) by lia. apply rand_candidate_full, block_length. }
  rewrite <- C, <- B. apply rand_hit. rewrite C.
  pose proof (bytes_number_bound (block s pos (4 * k))) as H. rewrite block_length in H.
  replace (2 ^ Z.of_nat (32 * k)) with (256 ^ Z.of_nat (4 * k)); [lia|].
  change 256 with (2 ^ 8). rewrite <- Z.pow_mul_r by lia. f_equal. lia.
Qed.

Lemma five_counts words : (exists k, (4 <= k <= 8)%nat /\ words = Z.of_nat (3 * k)) \/ ~ In words [12; 15; 18; 21; 24].
Proof.
  destruct (in_dec Z.eq_dec words [12; 15; 18; 21; 24]) as [H|H]; [left|right; exact H]. cbn [In] in H.
  assert (W : words = 12 \/ words = 15 \/ words = 18 \/ words = 21 \/ words = 24) by (clear -H; intuition lia).
  exists (Z.to_nat (words / 3)). split; [|]; destruct W as [->|[->|[->|[->| ->]]]]; cbn; lia.
Qed.

(** NewMnemonic always ends, after at most 32 bytes, with the model's result. *)
Lemma mnemonic_ends words wl s :
  (exists r q, mnemonic_run words wl s 0 r q) /\
  forall r q, mnemonic_run words wl s 0 r q ->
    (q <= 32)%nat /\ r = NewMnemonic words wl (block s 0 q) /\
    forall rest, NewMnemonic words wl (block s 0 q ++ rest) = r.
Proof.
  destruct wl as [l|].
  - destruct (five_counts words) as [(k & Hk & ->)|H].
    + split.
      * do 2 eexists. exact (mn_phrase _ _ _ _ l _ _ _ eq_refl (entropy_length_words k Hk) (rand_run_pow s 0 k ltac:(lia))).
      * intros r q R. inversion R as [E|l' El' E|l' el e q' El' E G]; subst; try discriminate.
        -- rewrite (entropy_length_words k Hk) in E. discriminate.
        -- injection El' as <-. rewrite (entropy_length_words k Hk) in E. injection E as <-.
           destruct (rand_run_fun _ _ _ _ _ (rand_run_pow s 0 k ltac:(lia)) _ _ G) as [-> ->].
           rewrite Nat.add_0_l. split; [lia|].
           assert (K : forall rest, NewMnemonic (Z.of_nat (3 * k)) (Some l) (block s 0 (4 * k) ++ rest) =
             (let* phrase := mnemonic_of_entropy (Z.of_nat (32 * k)) (bytes_number (block s 0 (4 * k))) l in Ret (Ok phrase))).
           { intros rest. unfold NewMnemonic. rewrite (entropy_length_words k Hk), rand_int_pow by lia.
             rewrite app_length, block_length.
             destruct (Nat.ltb_spec (4 * k + length rest) (4 * k)); [lia|].
             rewrite firstn_app, block_length, Nat.sub_diag, firstn_all2 by (rewrite block_length; lia).
             cbn [firstn]. rewrite app_nil_r. reflexivity. }
           split; [|exact K]. specialize (K []). rewrite app_nil_r in K. symmetry. exact K.
    + split.
      * do 2 eexists. apply (mn_length _ _ _ _ l eq_refl (entropy_length_none _ H)).
      * intros r q R. inversion R as [E|l' El' E|l' el e q' El' E G]; subst; try discriminate.
        -- split; [lia|]. split; [|intros rest]; rewrite NewMnemonic_unsupported by exact H; reflexivity.
        -- rewrite (entropy_length_none _ H) in E. discriminate.
  - split.
    + do 2 eexists. apply mn_nil. reflexivity.
    + intros r q R. inversion R as [E|l' El' E|l' el e q' El' E G]; subst; try discriminate.
      split; [lia|]. split; reflexivity.
Qed.

(** ** For the property file *)

Lemma bad_prefix_never n s : (~ exists bs, hex_text (PrivKeyPrefix n) bs) ->
  spins (Some n) s 0 /\ forall r q d, ~ generate (Some n) s 0 r q d.
Proof.
  intros H. pose proof (bad_prefix_spins n s H 0) as S. split; [exact S|].
  intros r q d G. exact (spins_no_result _ _ _ _ _ _ G S).
Qed.

Lemma nested_any n bs : hex_text (PrivKeyPrefix n) bs -> forall d, exists s k q, generate (Some n) s 0 (Ret k) q d.
Proof. intros H d. destruct (nested_calls n bs H d) as [k G]. exists (late d), k, (32 * S d)%nat. exact G. Qed.

Lemma not_in_range v : (v <? 2 ^ 252) || (secp_N - 1 <=? v) = true -> ~ in_range v.
Proof. unfold in_range. intros H. apply orb_prop in H as [H|H]; lia. Qed.

Lemma stream_examples :
  hex_text (PrivKeyPrefix MainNetwork) [x80] /\ first_good (late 3) 3 /\
  (forall m, ~ in_range (bytes_number (block (fun _ => x00) (32 * m) 32))) /\
  ~ in_range (bytes_number (block (fun i => if (i <? 32)%nat then xff else x42) 0 32)) /\
  in_range (bytes_number (block (fun i => if (i <? 32)%nat then xff else x42) 32 32)).
Proof.
  assert (Z0 : ~ in_range (bytes_number (repeat x00 32))) by (apply not_in_range; vm_compute; reflexivity).
  assert (G : in_range (bytes_number (repeat x42 32))) by (unfold in_range; vm_compute; split; [discriminate|reflexivity]).
  split; [apply hex_text_decode; vm_compute; reflexivity|]. split; [split|split; [|split]].
  - rewrite late_good. exact G.
  - intros j Hj. rewrite late_zero by exact Hj. exact Z0.
  - intros m. replace (block (fun _ => x00) (32 * m) 32) with (repeat x00 32); [exact Z0|].
    unfold block. generalize (32 * m)%nat. intros p. reflexivity.
  - apply not_in_range. vm_compute. reflexivity.
  - exact G.
Qed.

Lemma bad_prefix_example : ~ exists bs, hex_text (PrivKeyPrefix (Network (str "8x") (str "00"))) bs.
Proof. intros [bs H]. apply hex_text_decode in H. vm_compute in H. discriminate H. Qed.
