(** * Concrete goroutines for the theorems about concurrency *)

From Coq Require Import String.
From Verif Require Import GoBase GoNum GoRand Model HexFacts GoSem GoTree SpecSource SourceWitness EcRef Spec SpecFacts.
From Verif Require Import SpecSession Session SessionWitness SpecRun SpecConc SpecCrew.
Local Open Scope Z_scope.

(** a scheduler: the numbers of the goroutines to move *)
Definition move {A} (sh : list value) (t : thread A) : option (list value * thread A) :=
  let '(Thread c ow rd lg) := t in
  match c with
  | TRead a k => Some (sh, Thread (k (nth_error (sh ++ ow) a)) ow rd lg)
  | TWrite a v k => if (a <? length sh)%nat then Some (hset sh a v, Thread k ow rd lg)
                    else Some (sh, Thread k (hset ow (a - length sh) v) rd lg)
  | TAlloc v k => Some (sh, Thread (k (length sh + length ow)%nat) (ow ++ [v]) rd lg)
  | TRandom m k => match rand_int m rd with
                   | Some (z, rest) => Some (sh, Thread (k (Some z)) ow rest lg)
                   | None => Some (sh, Thread (k None) ow [] lg)
                   end
  | TLog l k => Some (sh, Thread k ow rd (lg ++ [l]))
  | _ => None
  end.
Definition turn {A} (i : nat) (w : world A) : world A :=
  match nth_error (threads w) i with
  | Some t => match move (shared w) t with
              | Some (sh', t') => World sh' (firstn i (threads w) ++ t' :: skipn (S i) (threads w))
              | None => w
              end
  | None => w
  end.
Definition play {A} (w : world A) (schedule : list nat) : world A := fold_left (fun w i => turn i w) schedule w.

Lemma move_step {A} sh (t : thread A) sh' t' : move sh t = Some (sh', t') -> thread_step sh t sh' t'.
Proof.
  destruct t as [c ow rd lg]. destruct c; cbn [move]; try discriminate.
  - intros [= <- <-]. constructor.
  - destruct (Nat.ltb_spec a (length sh)); intros [= <- <-]; now constructor.
  - intros [= <- <-]. constructor.
  - destruct (rand_int max rd) as [[z rest]|] eqn:R; intros [= <- <-]; now constructor.
  - intros [= <- <-]. constructor.
Qed.

Lemma turn_reaches {A} i (w : world A) : reaches w (turn i w).
Proof.
  unfold turn. destruct (nth_error (threads w) i) as [t|] eqn:Ht; [|constructor].
  destruct (move (shared w) t) as [[sh' t']|] eqn:Hm; [|constructor].
  eapply reaches_more; [constructor|]. destruct w as [sh ts]. cbn [threads shared] in *.
  pose proof (nth_error_split ts i Ht) as (l1 & l2 & -> & <-).
  rewrite firstn_app, firstn_all, Nat.sub_diag, firstn_O, app_nil_r.
  replace (S (length l1)) with (length l1 + 1)%nat by lia. rewrite skipn_app, skipn_all2 by lia.
  replace (length l1 + 1 - length l1)%nat with 1%nat by lia. cbn [skipn app].
  constructor. now apply move_step.
Qed.

Lemma reaches_trans {A} (a b c : world A) : reaches a b -> reaches b c -> reaches a c.
Proof. intros H. induction 1; [exact H|]. econstructor; [now apply IHreaches|eassumption]. Qed.

Lemma play_reaches {A} schedule : forall w : world A, reaches w (play w schedule).
Proof.
  unfold play. induction schedule as [|i l IH]; intros w; [constructor|]. cbn [fold_left].
  eapply reaches_trans; [apply turn_reaches|apply IH].
Qed.

(** Two goroutines export the same key, a third one makes a mistake. *)
Definition example_jobs : list job :=
  [ Job "PublicKey.Format" [VPtr 16; VBool true] [];
    Job "PublicKey.Format" [VPtr 16; VBool false] [];
    Job "AddPrivateKeys" [VPtr 13; VNil] [] ]%string.

Lemma example_jobs_api : Forall (fun j => api_call (heap example_state) (calls j) (with_args j)) example_jobs.
Proof.
  repeat constructor; cbn [calls with_args].
  - exact (call_Format _ _ _ true example_is_pub).
  - exact (call_Format _ _ _ false example_is_pub).
  - exact (call_AddPrivateKeys _ _ _ VNil None example_priv eq_refl).
Qed.

(** they take turns *)
Definition in_turn : list nat := flat_map (fun _ => [0; 1; 2]%nat) (repeat tt 40).
Definition results (w : world (list value)) : list (option (list value) * option panic) :=
  map (fun t => match code t with TRet vs => (Some vs, None) | TCrash p => (None, Some p) | _ => (None, None) end) (threads w).

(** Two goroutines hold the same private key; one publishes it and makes the
    address, the other adds a random key to it. *)
Definition one_bytes : list byte := repeat x00 31 ++ [x01].
Definition example_crew : list member :=
  [ Member [HPrivate (VPtr 13)] [MPrivate MainNetwork x80 one_bytes] [Publish 0; AddressOf 1 true] [];
    Member [HPrivate (VPtr 13)] [MPrivate MainNetwork x80 one_bytes] [Generate MainNetwork; Add 0 1] random_bytes ].

Lemma example_carries : carries (heap example_state) (HPrivate (VPtr 13)) (MPrivate MainNetwork x80 one_bytes).
Proof.
  exists (APrivate example_key). split; [|exact example_priv].
  destruct (private_of_hex (Hex example_key) MainNetwork x80 one_bytes) as (k & Hk & S).
  - exact main_version.
  - apply hex_text_decode. vm_compute. reflexivity.
  - vm_compute. split; congruence.
  - replace example_key with k; [exact S|].
    assert (PrivateFromHex (Hex example_key) (Some MainNetwork) = Ret (Ok example_key)) as K by (vm_compute; reflexivity).
    rewrite K in Hk. now injection Hk as ->.
Qed.

Lemma example_crew_ready : Forall (ready (heap example_state)) example_crew.
Proof.
  assert (Forall2 (carries (heap example_state)) [HPrivate (VPtr 13)] [MPrivate MainNetwork x80 one_bytes]) as C
    by (repeat constructor; exact example_carries).
  assert (Forall proper [MPrivate MainNetwork x80 one_bytes]) as P by (constructor; [exact main_whole|constructor]).
  constructor; [|constructor; [|constructor]]; (split; [exact C|split; [exact P|]]); cbn [plan].
  - repeat constructor.
  - constructor; [exact main_whole|repeat constructor].
Qed.
