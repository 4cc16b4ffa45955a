(** * Aliasing, histories and concurrency (C51-C53, C56-C59)

    Theorems only; each is closed by an existing lemma. The functions on
    pointers are in [Heap.v]; what they mean, sequentially and under any
    schedule, and the views [slot_at], [globals_at] from pointers to the values
    of [Model.v], are in [HeapSem.v].

    [hlib_meets L g E]: the elliptic-curve library [L] on pointers returns what
    the library [E] on values does, and writes only objects it created.
    [fresh_lib_meets] shows that the hypothesis can be met for every [E]. *)

From Verif Require Import GoBase GoNum Sha256 Ripemd160 Base58 GoRand Model EcRef Heap HeapSem.
From Verif Require Import HeapCalls HeapProps HeapLib Witness PropertiesPublic.
Local Open Scope Z_scope.

(** ** C51 *)

(** Any sequence of calls ends, and every object that existed has its old
    contents. *)
Theorem C51_nothing_is_modified : forall L g E, hlib_meets L g E ->
  forall fuel h src env venv cs, globals_at (lookup h) g -> Forall2 (slot_at (lookup h)) env venv ->
  exists h' src' l env', run (p_script L g fuel env cs) h src = (h', src', l, Ret env') /\ preserves h h'.
Proof. exact script_preserves. Qed.
Print Assumptions C51_nothing_is_modified.

(** Its results are those of the value model, call by call, each call on the
    random bytes it drew. *)
Theorem C51_results_are_the_values : forall L g E, hlib_meets L g E ->
  forall fuel h src env venv cs, globals_at (lookup h) g -> Forall2 (slot_at (lookup h)) env venv ->
  (length src < fuel)%nat ->
  exists h' src' l env' ds venv', run (p_script L g fuel env cs) h src = (h', src', l, Ret env') /\
    src = concat ds ++ src' /\ v_script E venv cs ds = Some (l, venv') /\
    Forall2 (slot_at (lookup h')) env' venv'.
Proof. exact script_values. Qed.
Print Assumptions C51_results_are_the_values.

(** A call on objects that existed at the start gives, after any other calls,
    what it gives at once. *)
Theorem C51_history_independent : forall L g E, hlib_meets L g E ->
  forall fuel h src1 src2 env venv cs c h1 h2 s1 s2 l1 l2 env1 env2,
  globals_at (lookup h) g -> Forall2 (slot_at (lookup h)) env venv ->
  in_scope (length env) c -> reads_random c = false -> (length src1 < fuel)%nat -> (length src2 < fuel)%nat ->
  run (p_script L g fuel env [c]) h src1 = (h1, s1, l1, Ret env1) ->
  run (p_script L g fuel env (cs ++ [c])) h src2 = (h2, s2, l2, Ret env2) ->
  exists r1 before r2 l0 v, env1 = env ++ [r1] /\ env2 = before ++ [r2] /\ l2 = l0 ++ l1 /\
    slot_at (lookup h1) r1 v /\ slot_at (lookup h2) r2 v.
Proof. exact last_call_same. Qed.
Print Assumptions C51_history_independent.

(** The same for the calls that read random bytes: the value they have alone on
    the bytes they drew. *)
Theorem C51_history_independent_random : forall L g E, hlib_meets L g E ->
  forall fuel h src env venv cs c h' src' l env',
  globals_at (lookup h) g -> Forall2 (slot_at (lookup h)) env venv ->
  in_scope (length env) c -> (length src < fuel)%nat ->
  run (p_script L g fuel env (cs ++ [c])) h src = (h', src', l, Ret env') ->
  exists earlier d before r lc v l0, src = earlier ++ d ++ src' /\ env' = before ++ [r] /\ l = l0 ++ lc /\
    v_call E venv c d = Some (lc, v) /\ slot_at (lookup h') r v.
Proof. exact last_call. Qed.
Print Assumptions C51_history_independent_random.

(** The hypotheses hold of the heap after the package is loaded, and a sequence
    of five calls really runs: two keys, their sum, a public key, its text. *)
Definition hex_1 : gostring := str "0000000000000000000000000000000000000000000000000000000000000001".
Definition calls1 : list call :=
  [CPrivateFromHex (Lit hex_1) 0; CPrivateFromHex (Lit hex1) 0; CAddPrivateKeys 1 2;
   CPublicFromHex (Lit pub1) 0; CFormat 4 true].
Definition main0 : list pslot := [SNet (Some (gMain g0))].
Definition vmain0 : list vslot := [SNet (Some MainNetwork)].

Example C51_hypotheses : hlib_meets (fresh_lib ref_lib) g0 ref_lib /\ globals_at (lookup h0) g0 /\
  Forall2 (slot_at (lookup h0)) main0 vmain0 /\ in_scope (length main0) (CPrivateFromHex (Lit hex1) 0).
Proof.
  split; [apply fresh_lib_meets|]. split; [apply h0_globals|]. split; [|cbn; lia].
  constructor; [|constructor]. exists MainNetwork. split; reflexivity.
Qed.
Example C51_example :
  match run (p_script (fresh_lib ref_lib) g0 9 main0 calls1) h0 [x01; x02] with
  | (h', src', l, Ret [SNet (Some n); SPriv a; SPriv b; SPriv c; SPub q; SStr s]) =>
      firstn (length h0) h' = h0 /\ src' = [x01; x02] /\ l = [] /\
      (length h0 < length h')%nat /\ n = gMain g0 /\
      network_of h' c = Some (Some (gMain g0)) /\
      s = str "0279be667ef9dcbbac55a06295ce870b07029bfcdb2dce28d959f2815b16f81798"
  | _ => False
  end.
Proof. vm_compute. repeat split; repeat constructor. Qed.

(** ** C52 *)

(** In every state that any schedule reaches, what existed at the start is
    unchanged, no goroutine has panicked, and a goroutine that has finished has
    logged the lines and has in its variables the values it gets alone, each
    call on the random bytes it drew. *)
Theorem C52_any_schedule : forall L g E, hlib_meets L g E ->
  forall fuel h src jobs venvs w, globals_at (lookup h) g -> jobs_ok h jobs venvs ->
  (length src < fuel)%nat -> steps (jobs_start L g fuel h src jobs) w ->
  preserves h (wheap w) /\
  forall i t env cs venv, nth_error (wthreads w) i = Some t -> nth_error jobs i = Some (env, cs) ->
    nth_error venvs i = Some venv ->
    (forall e, code t <> PPanic e) /\
    (forall env', code t = PRet env' ->
       exists ds venv', drawn t = concat ds /\
         v_script E venv cs ds = Some (lines t, venv') /\ Forall2 (slot_at (lookup (wheap w))) env' venv').
Proof. exact concurrent_results. Qed.
Print Assumptions C52_any_schedule.

(** If it makes no call that reads random bytes, that is what its calls give
    when it runs alone. *)
Theorem C52_same_as_alone : forall L g E, hlib_meets L g E ->
  forall fuel h src jobs venvs w, globals_at (lookup h) g -> jobs_ok h jobs venvs ->
  (length src < fuel)%nat -> steps (jobs_start L g fuel h src jobs) w ->
  forall i t env cs env', nth_error (wthreads w) i = Some t -> nth_error jobs i = Some (env, cs) ->
    Forall (fun c => reads_random c = false) cs -> code t = PRet env' ->
    exists h1 l1 env1 venv', run (p_script L g fuel env cs) h src = (h1, src, l1, Ret env1) /\
      lines t = l1 /\ Forall2 (slot_at (lookup h1)) env1 venv' /\ Forall2 (slot_at (lookup (wheap w))) env' venv'.
Proof. exact concurrent_alone. Qed.
Print Assumptions C52_same_as_alone.

(** Two goroutines that share the network object, and an interleaving of them:
    one makes and adds keys, the other draws a key and formats a point. *)
Definition jobs1 : list job :=
  [(main0, [CPrivateFromHex (Lit hex_1) 0; CPrivateFromHex (Lit hex1) 0; CAddPrivateKeys 1 2]);
   (main0, [CGeneratePrivateKey 0; CPublicFromHex (Lit pub1) 0; CFormat 2 true])].
Definition world1 : world (list pslot) := jobs_start (fresh_lib ref_lib) g0 70 h0 (repeat x42 40) jobs1.
Definition turns (n : nat) : list nat := concat (repeat [0; 1; 1; 0; 0; 0; 1] n)%nat.

Example C52_hypotheses : jobs_ok h0 jobs1 [vmain0; vmain0] /\
  steps world1 (sched (turns 4) world1) /\ steps world1 (sched (turns 20) world1).
Proof.
  split; [|split; apply sched_ok].
  repeat (constructor; cbn [fst]); exists MainNetwork; split; reflexivity.
Qed.
Example C52_example :
  match sched (turns 4) world1 with   (* both are in the middle *)
  | World _ _ _ [t; u] => next_access (code t) = Some (9%nat, false) /\ length (drawn u) = 32%nat
  | _ => False
  end /\
  match sched (turns 20) world1 with (* both have finished *)
  | World h src _ [Thread (PRet [_; _; _; SPriv c]) [] []; Thread (PRet [_; SPriv k; _; SStr s]) d []] =>
      length d = 32%nat /\ src = repeat x42 8 /\
      match lookup h c, lookup h k with
      | Some (OPriv (Some x) _ _ n), Some (OPriv (Some y) _ _ m) =>
          lookup h x = Some (OInt 0xef95df82b52ef5c2aac2acafa42bac95ec2ac0bb7044a1f6eb7408b06f1d2774) /\
          lookup h y = Some (OInt good_value) /\ n = m
      | _, _ => False
      end /\
      s = str "0279be667ef9dcbbac55a06295ce870b07029bfcdb2dce28d959f2815b16f81798"
  | _ => False
  end.
Proof. vm_compute. repeat split. Qed.

(** ** C53 *)

(** The constructors keep the caller's pointer. *)
Theorem C53_private_from_hex_shares : forall h src s p v h' src' l a, net_at (lookup h) p v ->
  run (h_PrivateFromHex s p) h src = (h', src', l, Ret (Ok a)) -> network_of h' a = Some p.
Proof. exact PrivateFromHex_net. Qed.
Print Assumptions C53_private_from_hex_shares.

Theorem C53_private_from_wif_shares : forall h src s p v h' src' l a, net_at (lookup h) p v ->
  run (h_PrivateFromWIF s p) h src = (h', src', l, Ret (Ok a)) -> network_of h' a = Some p.
Proof. exact PrivateFromWIF_net. Qed.
Print Assumptions C53_private_from_wif_shares.

Theorem C53_generate_shares : forall fuel h src p v h' src' l a, net_at (lookup h) p v ->
  run (h_GeneratePrivateKey fuel p) h src = (h', src', l, Ret a) -> network_of h' a = Some p.
Proof. exact GeneratePrivateKey_net. Qed.
Print Assumptions C53_generate_shares.

Theorem C53_public_from_hex_shares : forall L g E, hlib_meets L g E ->
  forall h src s p v h' src' l a, globals_at (lookup h) g -> net_at (lookup h) p v ->
  run (h_PublicFromHex L g s p) h src = (h', src', l, Ret (Ok a)) ->
  network_of h' a = Some p /\ exists w, PublicFromHex E s v = Ret (Ok w) /\ pub_at (lookup h') a w.
Proof. exact PublicFromHex_net. Qed.
Print Assumptions C53_public_from_hex_shares.

(** Derived keys have the network object of the key they come from, the first
    one if there are two. *)
Theorem C53_add_private_shares : forall h src g p1 p2 v1 v2 h' src' l a, globals_at (lookup h) g ->
  priv_at (lookup h) p1 v1 -> priv_at (lookup h) p2 v2 ->
  run (h_AddPrivateKeys g p1 p2) h src = (h', src', l, Ret (Ok a)) -> network_of h' a = network_of h p1.
Proof. exact (combine_net Z.add). Qed.
Print Assumptions C53_add_private_shares.

Theorem C53_multiply_private_shares : forall h src g p1 p2 v1 v2 h' src' l a, globals_at (lookup h) g ->
  priv_at (lookup h) p1 v1 -> priv_at (lookup h) p2 v2 ->
  run (h_MultiplyPrivateKeys g p1 p2) h src = (h', src', l, Ret (Ok a)) -> network_of h' a = network_of h p1.
Proof. exact (combine_net Z.mul). Qed.
Print Assumptions C53_multiply_private_shares.

Theorem C53_get_public_key_shares : forall L g E, hlib_meets L g E ->
  forall h src p v h' src' l q, globals_at (lookup h) g -> priv_at (lookup h) p v ->
  run (h_GetPublicKey L g p) h src = (h', src', l, Ret (Some q)) -> network_of h' q = network_of h p.
Proof. exact GetPublicKey_net. Qed.
Print Assumptions C53_get_public_key_shares.

Theorem C53_add_public_shares : forall L g E, hlib_meets L g E ->
  forall h src p1 p2 c v1 v2 h' src' l q, globals_at (lookup h) g ->
  pub_at (lookup h) p1 v1 -> pub_at (lookup h) p2 v2 ->
  run (h_AddPublicKeys L g p1 p2 c) h src = (h', src', l, Ret (Ok q)) -> network_of h' q = network_of h p1.
Proof. exact AddPublicKeys_net. Qed.
Print Assumptions C53_add_public_shares.

(** The address of a key follows its network object, and no other. *)
Theorem C53_address_follows_the_object : forall h src a c v n o m, pub_at (lookup h) a v ->
  network_of h a = Some (Some n) -> lookup h n = Some (ONet o) ->
  snd (run (h_Address a c) (update h n (ONet m)) src) = Address (PublicKey (PX v) (PY v) (Some m)) c.
Proof. exact address_follows. Qed.
Print Assumptions C53_address_follows_the_object.

Theorem C53_address_ignores_other_objects : forall h src a c v b o m, pub_at (lookup h) a v ->
  network_of h a <> Some (Some b) -> lookup h b = Some (ONet o) ->
  snd (run (h_Address a c) (update h b (ONet m)) src) = Address v c /\
  snd (run (h_Address a c) h src) = Address v c.
Proof. exact address_ignores. Qed.
Print Assumptions C53_address_ignores_other_objects.

(** Two networks with equal contents at addresses 9 and 10, a key on the first. *)
Definition h2 : heap := h0 ++ [ONet MainNetwork; ONet MainNetwork].
Definition after_pub : heap * option addr :=
  match run (h_PublicFromHex (fresh_lib ref_lib) g0 pub1 (Some 9%nat)) h2 [] with
  | (h, _, _, Ret (Ok a)) => (h, Some a)
  | (h, _, _, _) => (h, None)
  end.
Example C53_example :
  match after_pub with
  | (h, Some a) =>
      let addr h := snd (run (h_Address a true) h []) in
      network_of h a = Some (Some 9%nat) /\
      addr h = Ret (Ok (str "1BgGZ9tcN4rm9KBzDn7KprQz87SZ26SAMH")) /\
      addr (update h 10%nat (ONet TestNetwork)) = Ret (Ok (str "1BgGZ9tcN4rm9KBzDn7KprQz87SZ26SAMH")) /\
      addr (update h 9%nat (ONet TestNetwork)) = Ret (Ok (str "mrCDrCybB6J1vRfbwM5hemdJz73FwDBC8r"))
  | _ => False
  end.
Proof. vm_compute. repeat split. Qed.
Example C53_hypotheses : net_at (lookup h2) (Some 9%nat) (Some MainNetwork) /\
  (exists o, lookup h2 10%nat = Some (ONet o)) /\ globals_at (lookup h2) g0 /\
  priv_at (lookup (h2 ++ [OInt 5; OPriv (Some 11%nat) (str "05") [] (Some 9%nat)])) 12%nat
    (PrivateKey (Some 5) (str "05") [] (Some MainNetwork)).
Proof.
  split; [exists MainNetwork; split; reflexivity|]. split; [eexists; reflexivity|]. split; [repeat split|].
  exists (Some 11%nat), (Some 9%nat). split; [reflexivity|].
  split; eexists; split; reflexivity.
Qed.

(** ** C56 *)

(** In no reachable state are two goroutines about to access the same object,
    one of them writing it. *)
Theorem C56_no_data_race : forall L g E, hlib_meets L g E ->
  forall fuel h src jobs venvs w, globals_at (lookup h) g -> jobs_ok h jobs venvs ->
  steps (jobs_start L g fuel h src jobs) w ->
  forall i j t u a b c, i <> j -> nth_error (wthreads w) i = Some t -> nth_error (wthreads w) j = Some u ->
  next_access (code t) = Some (a, b) -> next_access (code u) = Some (a, c) -> b = false /\ c = false.
Proof. exact concurrent_no_race. Qed.
Print Assumptions C56_no_data_race.

(** Nobody ever writes an object that existed at the start. *)
Theorem C56_shared_objects_are_read_only : forall L g E, hlib_meets L g E ->
  forall fuel h src jobs venvs w, globals_at (lookup h) g -> jobs_ok h jobs venvs ->
  steps (jobs_start L g fuel h src jobs) w ->
  forall i t a, nth_error (wthreads w) i = Some t -> next_access (code t) = Some (a, true) -> lookup h a = None.
Proof. exact concurrent_writes. Qed.
Print Assumptions C56_shared_objects_are_read_only.

(** The calls do write: the first goroutine above is about to write, after one round of
    turns, an object that did not exist at the start. *)
Example C56_example :
  map (fun t => next_access (code t)) (wthreads (sched (turns 1) world1)) = [Some (9, true); Some (10, false)]%nat /\
  lookup h0 9%nat = None /\
  map (fun t => next_access (code t)) (wthreads (sched [0; 0; 0; 0; 0]%nat world1)) = [Some (gMain g0, false); None].
Proof. vm_compute. repeat split. Qed.

(** ** C57 *)

(** A goroutine that has not finished can always move, whatever the others do. *)
Theorem C57_no_goroutine_is_stuck : forall L g E, hlib_meets L g E ->
  forall fuel h src jobs venvs w, globals_at (lookup h) g -> jobs_ok h jobs venvs ->
  steps (jobs_start L g fuel h src jobs) w ->
  forall ts1 t ts2, wthreads w = ts1 ++ t :: ts2 ->
  (exists env, code t = PRet env) \/
  exists h' src' lg' t', tstep (wheap w) (wsource w) (wlog w) t h' src' lg' t'.
Proof. exact concurrent_progress. Qed.
Print Assumptions C57_no_goroutine_is_stuck.

(** No schedule is infinite. *)
Theorem C57_every_schedule_ends : forall L g fuel h src jobs (f : nat -> world (list pslot)),
  f O = jobs_start L g fuel h src jobs -> ~ (forall n, step (f n) (f (S n))).
Proof. exact schedule_ends. Qed.
Print Assumptions C57_every_schedule_ends.

Example C57_example : (* the schedule above ends with nobody left to move *)
  existsb (fun t => match code t with PRet _ => false | _ => true end) (wthreads (sched (turns 20) world1)) = false /\
  existsb (fun t => match code t with PRet _ => false | _ => true end) (wthreads (sched (turns 4) world1)) = true.
Proof. vm_compute. split; reflexivity. Qed.

(** ** C58 *)

(** Loading the package into any heap succeeds, reads no random byte, logs
    nothing, disturbs nothing, and leaves the package variables pointing to new
    objects that hold the constants. *)
Theorem C58_package_initialisation : forall h src,
  exists h' g, run init h src = (h', src, [], Ret g) /\ preserves h h' /\ globals_at (lookup h') g.
Proof. exact init_run. Qed.
Print Assumptions C58_package_initialisation.

(** The package variables still hold the constants in every reachable state. *)
Theorem C58_constants_never_change : forall L g E, hlib_meets L g E ->
  forall fuel h src jobs venvs w, globals_at (lookup h) g -> jobs_ok h jobs venvs ->
  (length src < fuel)%nat -> steps (jobs_start L g fuel h src jobs) w -> globals_at (lookup (wheap w)) g.
Proof. exact globals_stay. Qed.
Print Assumptions C58_constants_never_change.

Example C58_example : globals_at (lookup h0) g0 /\ length h0 = 9%nat.
Proof. split; [apply h0_globals|reflexivity]. Qed.

(** ** C59 *)

(** The bytes taken from the random source are dealt out to the goroutines, each
    byte to exactly one, and the log is a merge of what they logged. *)
Theorem C59_random_bytes_and_log_lines_are_dealt_once : forall A h src (ps : list (prog A)) w,
  steps (start h src ps) w ->
  (exists given, src = given ++ wsource w /\ merge (map drawn (wthreads w)) given) /\
  merge (map lines (wthreads w)) (wlog w).
Proof. exact @steps_merge. Qed.
Print Assumptions C59_random_bytes_and_log_lines_are_dealt_once.

(** Two goroutines that draw a key each get different bytes. *)
Example C59_example :
  let w := jobs_start (fresh_lib ref_lib) g0 70 h0 (repeat x42 32 ++ repeat x43 32)
             [(main0, [CGeneratePrivateKey 0]); (main0, [CGeneratePrivateKey 0])] in
  map drawn (wthreads (sched (turns 20) w)) = [repeat x42 32; repeat x43 32].
Proof. vm_compute. reflexivity. Qed.
