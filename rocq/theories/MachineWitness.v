(** * Concrete goroutines on one machine *)

From Coq Require Import String.
From Verif Require Import GoBase GoNum GoRand Model GoSyntax GoSource GoSem GoTree SpecSource SourceWitness EcRef.
From Verif Require Import SpecConc SpecSession SpecRun SpecCrew ConcWitness SessionWitness SpecMachine MachineFacts.
Local Open Scope Z_scope.

(** a scheduler; the reader hands out its bytes in order *)
Definition mmove {A} (i : nat) (ro : routine A) (m : machine A) : option (routine A * machine A) :=
  let '(Machine mem mk rd sc ros) := m in
  let '(Routine c g d) := ro in
  match c with
  | TRead a k => Some (Routine (k (nth_error mem a)) g d, m)
  | TWrite a v k => Some (Routine k g d, Machine (hset mem a v) mk rd sc ros)
  | TAlloc v k => Some (Routine (k (length mem)) g d, Machine (mem ++ [v]) (mk ++ [Some i]) rd sc ros)
  | TRandom max k =>
      if d then None
      else match rand_int max rd with
           | Some (z, rest) => Some (Routine (k (Some z)) (g ++ firstn (length rd - length rest) rd) d, Machine mem mk rest sc ros)
           | None => Some (Routine (k None) (g ++ rd) true, Machine mem mk [] sc ros)
           end
  | TLog l k => Some (Routine k g d, Machine mem mk rd (sc ++ [(i, l)]) ros)
  | _ => None
  end.
Definition mturn {A} (i : nat) (m : machine A) : machine A :=
  match nth_error (routines m) i with
  | Some ro => match mmove i ro m with
               | Some (ro', Machine mem mk rd sc ros) => Machine mem mk rd sc (firstn i ros ++ ro' :: skipn (S i) ros)
               | None => m
               end
  | None => m
  end.
Definition mplay {A} (m : machine A) (schedule : list nat) : machine A := fold_left (fun m i => mturn i m) schedule m.

Lemma mmove_moves {A} i (ro : routine A) mem mk rd sc ros ro' mem' mk' rd' sc' ros' :
  mmove i ro (Machine mem mk rd sc ros) = Some (ro', Machine mem' mk' rd' sc' ros') ->
  ros' = ros /\ moves i ro mem mk rd sc ro' mem' mk' rd' sc'.
Proof.
  destruct ro as [c g d]. destruct c; cbn [mmove]; try discriminate.
  - intros [= <- <- <- <- <- <-]. split; [reflexivity|constructor].
  - intros [= <- <- <- <- <- <-]. split; [reflexivity|constructor].
  - intros [= <- <- <- <- <- <-]. split; [reflexivity|constructor].
  - destruct d; [discriminate|]. destruct (rand_int max rd) as [[z rest]|] eqn:R.
    + apply rand_int_split in R as (used & -> & R). rewrite app_length.
      replace (length used + length rest - length rest)%nat with (length used) by lia.
      rewrite firstn_app, firstn_all, Nat.sub_diag, firstn_O, app_nil_r.
      intros [= <- <- <- <- <- <-]. split; [reflexivity|]. eapply moves_random; [apply shuffle_app|discriminate|exact R].
    + intros [= <- <- <- <- <- <-]. split; [reflexivity|]. eapply moves_no_random; [|discriminate|exact R].
      rewrite <- (app_nil_r rd) at 2. apply shuffle_app.
  - intros [= <- <- <- <- <- <-]. split; [reflexivity|constructor].
Qed.
Lemma mturn_comes {A} i (m : machine A) : comes_to m (mturn i m).
Proof.
  unfold mturn. destruct (nth_error (routines m) i) as [ro|] eqn:Hi; [|constructor].
  destruct m as [mem mk rd sc ros]. cbn [routines] in Hi.
  destruct (mmove i ro (Machine mem mk rd sc ros)) as [[ro' [mem' mk' rd' sc' ros']]|] eqn:Hm; [|constructor].
  apply mmove_moves in Hm as [-> Hm]. eapply comes_more; [constructor|].
  pose proof (nth_error_split ros i Hi) as (l1 & l2 & -> & <-).
  rewrite firstn_app, firstn_all, Nat.sub_diag, firstn_O, app_nil_r.
  replace (S (length l1)) with (length l1 + 1)%nat by lia. rewrite skipn_app, skipn_all2 by lia.
  replace (length l1 + 1 - length l1)%nat with 1%nat by lia. cbn [skipn app].
  constructor. exact Hm.
Qed.
Lemma comes_trans {A} (a b c : machine A) : comes_to a b -> comes_to b c -> comes_to a c.
Proof. intros H. induction 1; [exact H|]. econstructor; [now apply IHcomes_to|eassumption]. Qed.
Lemma mplay_comes {A} schedule : forall m : machine A, comes_to m (mplay m schedule).
Proof.
  unfold mplay. induction schedule as [|i l IH]; intros m; [constructor|]. cbn [fold_left].
  eapply comes_trans; [apply mturn_comes|apply IH].
Qed.

Lemma global_bound x a : global x = Some a -> (a < length source_vars)%nat.
Proof.
  unfold global. assert (forall l n, global_from x l n = Some a -> (a < n + length l)%nat) as K.
  { induction l as [|[y t] l IH]; intros n H; [discriminate|]. cbn [global_from length] in *.
    destruct (String.eqb x y); [injection H as <-; lia|]. apply IH in H. lia. }
  intros H. apply K in H. exact H.
Qed.
Lemma example_whole : whole_heap (heap example_state).
Proof.
  split.
  - assert (heap example_state = ltac:(let x := eval vm_compute in (heap example_state) in exact x)) as -> by (vm_compute; reflexivity).
    cbn [length]. repeat (apply Forall_cons; [cbn; repeat split; lia|]). apply Forall_nil.
  - intros x a H. apply global_bound in H. eapply Nat.lt_le_trans; [exact H|].
    apply Nat.leb_le. vm_compute. reflexivity.
Qed.

(** Two goroutines export the same key, one passes nil, one finds the reader empty. *)
Definition example_calls : list (string * list value) :=
  [ ("PublicKey.Format", [VPtr 16; VBool true]); ("PublicKey.Format", [VPtr 16; VBool false]);
    ("AddPrivateKeys", [VPtr 13; VNil]); ("GeneratePrivateKey", [VPtr 10]) ]%string.
Lemma example_calls_api : Forall (fun j => api_call (heap example_state) (fst j) (snd j)) example_calls.
Proof.
  repeat constructor; cbn [fst snd].
  - exact (call_Format _ _ _ true example_is_pub).
  - exact (call_Format _ _ _ false example_is_pub).
  - exact (call_AddPrivateKeys _ _ _ VNil None example_priv eq_refl).
  - exact (call_GeneratePrivateKey _ _ _ example_net).
Qed.
Definition example_machine : machine (list value) :=
  machine_start (heap example_state) (repeat x07 8)
    (map (fun j => t_run (fun _ => ref_lib) 30 (fst j) (snd j)) example_calls).
Definition in_turn4 : list nat := flat_map (fun _ => [0; 1; 2; 3]%nat) (repeat tt 40).
Definition mresults (m : machine (list value)) : list (option (list value) * option panic) :=
  map (fun ro => match todo ro with TRet vs => (Some vs, None) | TCrash p => (None, Some p) | _ => (None, None) end) (routines m).

Definition example_workers : list worker :=
  map (fun m => Worker (holds m) (knows m) (plan m)) example_crew.
Lemma example_workers_fit : Forall (fit (heap example_state)) example_workers.
Proof. apply Forall_map. exact example_crew_ready. Qed.
