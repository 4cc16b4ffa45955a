(** * A session that uses every kind of request: witness for C93 *)

From Verif Require Import GoBase GoNum Sha256 Base58 GoRand Model HexFacts PrivFacts NumFacts Spec SpecFacts CurveSpec EcdsaContract EcRef EcFacts.
From Verif Require Import SpecSession PubCurve.
Local Open Scope Z_scope.

(** A session with every kind of request. *)
Definition random_bytes : list byte := repeat xff 32 ++ repeat x42 32 ++ [x07].
Definition last_number : gostring := str "FFFFFFFFFFFFFFFFFFFFFFFFFFFFFFFEBAAEDCE6AF48A03BBFD25E8CD0364140".
Definition generator : gostring := str "0279BE667EF9DCBBAC55A06295CE870B07029BFCDB2DCE28D959F2815B16F81798".
Definition one_wif : gostring := b58encode ([x80; x01] ++ checksum4 [x80; x01]).
Definition program : list request :=
  [ EnterHex (str "01") MainNetwork; EnterHex last_number MainNetwork; Generate MainNetwork;  (* 0-2 *)
    Multiply 0 2; Add 0 2; Publish 0; Publish 1; AddPublished 5 6 true;                       (* 3-7 *)
    Publish 2; AddPublished 5 8 false; Export 9 true; Import 10 TestNetwork; AddressOf 11 true;  (* 8-12 *)
    Add 2 2; Add 0 9; SaveWIF 4 TestNetwork; Add 0 15; EnterHex (str "0f") MainNetwork;       (* 13-17 *)
    Multiply 17 0; AddPublished 11 9 true; EnterPublic generator MainNetwork;                 (* 18-20 *)
    SaveHex 0 TestNetwork; EnterWIF one_wif TestNetwork ].                                    (* 21-22 *)
Definition meanings : list meaning :=
  let z := bytes_number (repeat x42 32) in
  [ MPrivate MainNetwork x80 [x01];
    MPrivate MainNetwork x80 (match hex_decode last_number with Ok b => b | _ => [] end);
    MPrivate MainNetwork x80 (repeat x42 32);
    MPrivate MainNetwork x80 (repeat x42 32); MPrivate MainNetwork x80 (repeat x42 31 ++ [x43]);
    MPublic MainNetwork 1; MPublic MainNetwork (n256k1 - 1); MError ENotOnCurve;
    MPublic MainNetwork z; MPublic MainNetwork (z + 1); MText true (z + 1); MPublic TestNetwork (z + 1);
    MAddress TestNetwork true (z + 1);
    MError EIdentical; MUnfit; MPrivate TestNetwork x80 (repeat x42 31 ++ [x43]); MError EDifferentNetwork;
    MPrivate MainNetwork x80 [x0f];
    MError EHexLength; MError EDifferentNetwork; MPublic MainNetwork 1;
    MPrivate TestNetwork xef [x01]; MPrivate TestNetwork x80 [x01] ].

Lemma main_version : hex_text (PrivKeyPrefix MainNetwork) [x80].
Proof. apply hex_text_decode. vm_compute. reflexivity. Qed.
Lemma test_version : hex_text (PrivKeyPrefix TestNetwork) [xef].
Proof. apply hex_text_decode. vm_compute. reflexivity. Qed.
Lemma main_whole : whole_bytes MainNetwork.
Proof. split; [exists x80; exact main_version|exists [x00]; apply hex_text_decode; vm_compute; reflexivity]. Qed.
Lemma test_whole : whole_bytes TestNetwork.
Proof. split; [exists xef; exact test_version|exists [x6f]; apply hex_text_decode; vm_compute; reflexivity]. Qed.
Lemma generator_text : exists bs, hex_text generator bs /\ sec1 true (fst G256k1) (snd G256k1) bs.
Proof.
  destruct (hex_decode generator) as [bs|] eqn:D; [|exfalso; vm_compute in D; discriminate]. exists bs.
  split; [apply hex_text_decode; exact D|]. exists (tl bs). vm_compute in D. injection D as <-. split; [split; vm_compute; reflexivity|].
  vm_compute. reflexivity.
Qed.
Lemma one_times_G : point_of 1 G256k1.
Proof. split; [vm_compute; split; congruence|]. change 1 with (0 + 1). econstructor; [lia|constructor|constructor]. Qed.
Lemma look_apart v1 b1 v2 b2 :
  str_eqb (to_lower (b58encode ((v1 :: b1) ++ checksum4 (v1 :: b1)))) (to_lower (b58encode ((v2 :: b2) ++ checksum4 (v2 :: b2)))) = false ->
  ~ look_alike v1 b1 v2 b2.
Proof.
  intros N (s & t & S & T & Q). apply base58check_encode in S, T. apply equal_up_to_case_lower in Q.
  rewrite S, T in Q. rewrite Q in N. rewrite (proj2 (str_eqb_eq _ _) eq_refl) in N. discriminate.
Qed.
Lemma spelled_evenly z bs : 0 <= z -> hex_decode (sprintf_x z) = Ok bs -> even_bytes z bs.
Proof. intros Hz D. exists (sprintf_x z). split; [apply shortest_hex_sprintf; auto|apply hex_text_decode; exact D]. Qed.

Lemma program_sensible : Forall sensible program.
Proof.
  pose proof main_whole as Wm. pose proof test_whole as Wt.
  unfold program. repeat apply Forall_cons; try apply Forall_nil; cbn [sensible];
    try exact I; try exact Wm; try exact Wt; (split; [assumption|]).
  - exists [x01]. split; [apply hex_text_decode; vm_compute; reflexivity|vm_compute; split; congruence].
  - eexists. split; [apply hex_text_decode; vm_compute; reflexivity|vm_compute; split; congruence].
  - exists [x0f]. split; [apply hex_text_decode; vm_compute; reflexivity|vm_compute; split; congruence].
  - destruct generator_text as (bs & T & S). exists true, (fst G256k1), (snd G256k1), bs.
    split; [exact G_point|auto].
  - exists x80, [x01]. split; [apply base58check_encode; reflexivity|vm_compute; split; congruence].
Qed.

Ltac next m := eapply (meant_step _ _ _ _ m); [split; [reflexivity|cbn [app meant nth_error]]|cbn [app]].

Lemma program_meanings : meant_all [] program random_bytes meanings [x07].
Proof.
  unfold program.
  next (MPrivate MainNetwork x80 [x01]).
  { exists x80, [x01]. split; [exact main_version|]. split; [apply hex_text_decode; vm_compute; reflexivity|reflexivity]. }
  next (MPrivate MainNetwork x80 (match hex_decode last_number with Ok b => b | _ => [] end)).
  { eexists x80, _. split; [exact main_version|]. split; [apply hex_text_decode; vm_compute; reflexivity|vm_compute; reflexivity]. }
  eapply (meant_step _ _ _ _ (MPrivate MainNetwork x80 (repeat x42 32))); cbn [app].
  { exists x80, (repeat x42 32). split; [|split; [reflexivity|split; [exact main_version|reflexivity]]].
    apply (first_skip 32 _ (repeat xff 32) (repeat x42 32 ++ [x07])); [reflexivity|vm_compute; intros [_ H]; apply H; reflexivity|].
    apply (first_here 32 _ (repeat x42 32) [x07]); [reflexivity|vm_compute; split; congruence]. }
  next (MPrivate MainNetwork x80 (repeat x42 32)).
  { right. right. right. split; [reflexivity|]. split; [apply look_apart; vm_compute; reflexivity|].
    exists x80, (repeat x42 32). split; [exact main_version|]. split; [|reflexivity].
    apply spelled_evenly; [vm_compute; congruence|vm_compute; reflexivity]. }
  next (MPrivate MainNetwork x80 (repeat x42 31 ++ [x43])).
  { right. right. right. split; [reflexivity|]. split; [apply look_apart; vm_compute; reflexivity|].
    exists x80, (repeat x42 31 ++ [x43]). split; [exact main_version|]. split; [|reflexivity].
    apply spelled_evenly; [vm_compute; congruence|vm_compute; reflexivity]. }
  next (MPublic MainNetwork 1). { reflexivity. }
  next (MPublic MainNetwork (n256k1 - 1)). { vm_compute. reflexivity. }
  next (MError ENotOnCurve). { right. left. split; [reflexivity|]. split; [vm_compute; reflexivity|reflexivity]. }
  next (MPublic MainNetwork (bytes_number (repeat x42 32))). { reflexivity. }
  next (MPublic MainNetwork (bytes_number (repeat x42 32) + 1)).
  { right. right. split; [reflexivity|]. split; [vm_compute; congruence|vm_compute; reflexivity]. }
  next (MText true (bytes_number (repeat x42 32) + 1)). { reflexivity. }
  next (MPublic TestNetwork (bytes_number (repeat x42 32) + 1)). { reflexivity. }
  next (MAddress TestNetwork true (bytes_number (repeat x42 32) + 1)). { reflexivity. }
  next (MError EIdentical).
  { right. left. split; [reflexivity|]. split; [|reflexivity].
    eexists _, _. split; [apply base58check_encode; reflexivity|]. split; [apply base58check_encode; reflexivity|].
    apply equal_up_to_case_lower. reflexivity. }
  next MUnfit. { reflexivity. }
  next (MPrivate TestNetwork x80 (repeat x42 31 ++ [x43])). { reflexivity. }
  next (MError EDifferentNetwork). { left. split; [discriminate|reflexivity]. }
  next (MPrivate MainNetwork x80 [x0f]).
  { exists x80, [x0f]. split; [exact main_version|]. split; [apply hex_text_decode; vm_compute; reflexivity|reflexivity]. }
  next (MError EHexLength).
  { right. right. left. split; [reflexivity|]. split; [apply look_apart; vm_compute; reflexivity|]. split; [|reflexivity].
    intros (bs & s & S & T). apply shortest_hex_sprintf in S as [_ S]. vm_compute in S. subst s. inversion T. }
  next (MError EDifferentNetwork). { left. split; [discriminate|reflexivity]. }
  next (MPublic MainNetwork 1).
  { destruct generator_text as (bs & T & S). exists true, (fst G256k1), (snd G256k1), bs, 1.
    split; [exact T|]. split; [exact S|]. split; [exact one_times_G|reflexivity]. }
  next (MPrivate TestNetwork xef [x01]). { exists xef. split; [exact test_version|reflexivity]. }
  next (MPrivate TestNetwork x80 [x01]).
  { exists x80, [x01]. split; [apply base58check_encode; reflexivity|reflexivity]. }
  apply meant_end.
Qed.
