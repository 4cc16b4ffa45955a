(** * A program that uses the package, and what its keys stand for (C93)

    The first part is the program: a list of requests, each naming earlier
    answers by their position. The second part says in numbers what every
    answer must be; it does not use the package. *)

From Verif Require Import GoBase Model Spec CurveSpec.
Local Open Scope Z_scope.

(** ** Requests and answers *)

Inductive request :=
| Generate (n : network)                  (* GeneratePrivateKey(n), private_key.go:117 *)
| EnterHex (h : gostring) (n : network)   (* PrivateFromHex of a text typed in, private_key.go:71 *)
| EnterWIF (w : gostring) (n : network)   (* PrivateFromWIF of a text typed in, private_key.go:44 *)
| EnterPublic (s : gostring) (n : network)  (* PublicFromHex of a text typed in, public_key.go:17 *)
| SaveHex (i : nat) (n : network)         (* PrivateFromHex of key i's Hex *)
| SaveWIF (i : nat) (n : network)         (* PrivateFromWIF of key i's WIF *)
| Add (i j : nat)                         (* AddPrivateKeys, private_key.go:136 *)
| Multiply (i j : nat)                    (* MultiplyPrivateKeys, private_key.go:157 *)
| Publish (i : nat)                       (* GetPublicKey, public_key.go:60 *)
| AddPublished (i j : nat) (c : bool)     (* AddPublicKeys, public_key.go:168 *)
| Export (i : nat) (c : bool)             (* Format, public_key.go:76 *)
| Import (i : nat) (n : network)          (* PublicFromHex of the text of answer i *)
| AddressOf (i : nat) (c : bool).         (* Address, public_key.go:108 *)

Inductive answer :=
| APrivate (k : private_key) | APublic (p : public_key) | AText (s : gostring) | AAddress (s : gostring)
| AError (e : goerror) | ANoKey | AUnfit.

Section Program.
Context (E : ecdsa_lib).

(** The answer to one request; [AUnfit] when an operand is not of the kind the
    request needs, in which case no call is made. *)
Definition private_answer (o : outcome (result private_key)) : outcome answer :=
  match o with Ret (Ok k) => Ret (APrivate k) | Ret (Err e) => Ret (AError e) | Panic p => Panic p end.
Definition public_answer (o : outcome (result public_key)) : outcome answer :=
  match o with Ret (Ok k) => Ret (APublic k) | Ret (Err e) => Ret (AError e) | Panic p => Panic p end.
Definition address_answer (o : outcome (result gostring)) : outcome answer :=
  match o with Ret (Ok s) => Ret (AAddress s) | Ret (Err e) => Ret (AError e) | Panic p => Panic p end.

Definition reply (h : list answer) (r : request) : outcome answer :=
  match r with
  | Generate _ => Ret AUnfit   (* see [perform] *)
  | EnterHex t n => private_answer (PrivateFromHex t (Some n))
  | EnterWIF t n => private_answer (PrivateFromWIF t (Some n))
  | EnterPublic t n => public_answer (PublicFromHex E t (Some n))
  | SaveHex i n => match nth_error h i with Some (APrivate k) => private_answer (PrivateFromHex (Hex k) (Some n)) | _ => Ret AUnfit end
  | SaveWIF i n => match nth_error h i with Some (APrivate k) => private_answer (PrivateFromWIF (WIF k) (Some n)) | _ => Ret AUnfit end
  | Add i j => match nth_error h i, nth_error h j with
               | Some (APrivate a), Some (APrivate b) => private_answer (AddPrivateKeys a b)
               | _, _ => Ret AUnfit
               end
  | Multiply i j => match nth_error h i, nth_error h j with
                    | Some (APrivate a), Some (APrivate b) => private_answer (MultiplyPrivateKeys a b)
                    | _, _ => Ret AUnfit
                    end
  | Publish i => match nth_error h i with
                 | Some (APrivate k) => match GetPublicKey E k with
                                        | Ret (Some p) => Ret (APublic p) | Ret None => Ret ANoKey | Panic p => Panic p
                                        end
                 | _ => Ret AUnfit
                 end
  | AddPublished i j c => match nth_error h i, nth_error h j with
                          | Some (APublic p), Some (APublic q) => public_answer (AddPublicKeys E p q c)
                          | _, _ => Ret AUnfit
                          end
  | Export i c => match nth_error h i with
                  | Some (APublic p) => match Format p c with Ret s => Ret (AText s) | Panic e => Panic e end
                  | _ => Ret AUnfit
                  end
  | Import i n => match nth_error h i with Some (AText s) => public_answer (PublicFromHex E s (Some n)) | _ => Ret AUnfit end
  | AddressOf i c => match nth_error h i with Some (APublic p) => address_answer (Address p c) | _ => Ret AUnfit end
  end.

Definition perform (h : list answer) (r : request) (rd : list byte) : outcome (answer * list byte) :=
  match r with
  | Generate n => match GeneratePrivateKey (Some n) rd with
                  | Ret (k, rest) => Ret (APrivate k, rest)
                  | Panic p => Panic p
                  end
  | _ => match reply h r with Ret a => Ret (a, rd) | Panic p => Panic p end
  end.

(** All requests one after the other; [h] holds the answers so far. *)
Fixpoint session (h : list answer) (rs : list request) (rd : list byte) : outcome (list answer * list byte) :=
  match rs with
  | [] => Ret (h, rd)
  | r :: rs' => match perform h r rd with
                | Ret (a, rest) => session (h ++ [a]) rs' rest
                | Panic p => Panic p
                end
  end.
End Program.

(** ** Meanings *)

(** A private key is the bytes of its number with the network it belongs to and
    the version byte of its WIF; a public key is the number [z] of which it is
    the multiple of G. *)
Inductive meaning :=
| MPrivate (n : network) (v : byte) (bs : list byte)
| MPublic (n : network) (z : Z)
| MText (c : bool) (z : Z)
| MAddress (n : network) (c : bool) (z : Z)
| MError (e : goerror)
| MUnfit.

Definition point_of (z : Z) (q : Z * Z) : Prop := 1 <= z < n256k1 /\ multiple (Some G256k1) z (Some q).

(** The answer [a] is what the meaning [m] says. *)
Definition stands_for (m : meaning) (a : answer) : Prop :=
  match m with
  | MPrivate n v bs => exists k, a = APrivate k /\ Key k = Some (bytes_number bs) /\ 1 <= bytes_number bs < n256k1 /\
      hex_text (Hex k) bs /\ base58check (v :: bs) (WIF k) /\ KNetwork k = Some n
  | MPublic n z => exists x y, a = APublic (PublicKey (Some x) (Some y) (Some n)) /\ point_of z (x, y)
  | MText c z => exists x y bs s, a = AText s /\ point_of z (x, y) /\ sec1 c x y bs /\ hex_text s bs
  | MAddress n c z => exists x y bs p s, a = AAddress s /\ point_of z (x, y) /\ sec1 c x y bs /\
      hex_text (PubKeyHashPrefix n) p /\ base58check (p ++ hash160 bs) s
  | MError e => a = AError e
  | MUnfit => a = AUnfit
  end.

(** Two private keys whose WIFs differ in letter case at most. *)
Definition look_alike (v1 : byte) (b1 : list byte) (v2 : byte) (b2 : list byte) : Prop :=
  exists s t, base58check (v1 :: b1) s /\ base58check (v2 :: b2) t /\ equal_up_to_case s t.

(** The number [z] written in as few hex digits as possible, when these are
    whole bytes. *)
Definition even_bytes (z : Z) (bs : list byte) : Prop := exists s, shortest_hex s z /\ hex_text s bs.

Definition combined (f : Z -> Z -> Z) (n1 : network) (v1 : byte) (b1 : list byte) (n2 : network) (v2 : byte) (b2 : list byte)
  (m : meaning) : Prop :=
  let z := f (bytes_number b1) (bytes_number b2) mod n256k1 in
  (n1 <> n2 /\ m = MError EDifferentNetwork) \/
  (n1 = n2 /\ look_alike v1 b1 v2 b2 /\ m = MError EIdentical) \/
  (n1 = n2 /\ ~ look_alike v1 b1 v2 b2 /\ (~ exists bs, even_bytes z bs) /\ m = MError EHexLength) \/
  (n1 = n2 /\ ~ look_alike v1 b1 v2 b2 /\
     exists v bs, hex_text (PrivKeyPrefix n1) [v] /\ even_bytes z bs /\ m = MPrivate n1 v bs).

(** What the next answer must mean, given the meanings [h] of the earlier ones.
    Only [Generate] takes bytes from the random source. *)
Definition meant (h : list meaning) (r : request) (m : meaning) : Prop :=
  match r with
  | Generate _ => False   (* see [meant_next] *)
  | EnterHex t n => exists v bs, hex_text (PrivKeyPrefix n) [v] /\ hex_text t bs /\ m = MPrivate n v bs
  | EnterWIF t n => exists v bs, base58check (v :: bs) t /\ m = MPrivate n v bs
  | EnterPublic t n => exists c x y bs z, hex_text t bs /\ sec1 c x y bs /\ point_of z (x, y) /\ m = MPublic n z
  | SaveHex i n => match nth_error h i with
                   | Some (MPrivate _ _ bs) => exists v, hex_text (PrivKeyPrefix n) [v] /\ m = MPrivate n v bs
                   | _ => m = MUnfit
                   end
  | SaveWIF i n => match nth_error h i with Some (MPrivate _ v bs) => m = MPrivate n v bs | _ => m = MUnfit end
  | Add i j => match nth_error h i, nth_error h j with
               | Some (MPrivate n1 v1 b1), Some (MPrivate n2 v2 b2) => combined Z.add n1 v1 b1 n2 v2 b2 m
               | _, _ => m = MUnfit
               end
  | Multiply i j => match nth_error h i, nth_error h j with
                    | Some (MPrivate n1 v1 b1), Some (MPrivate n2 v2 b2) => combined Z.mul n1 v1 b1 n2 v2 b2 m
                    | _, _ => m = MUnfit
                    end
  | Publish i => match nth_error h i with Some (MPrivate n _ bs) => m = MPublic n (bytes_number bs) | _ => m = MUnfit end
  | AddPublished i j _ => match nth_error h i, nth_error h j with
                          | Some (MPublic n1 x), Some (MPublic n2 y) =>
                              (n1 <> n2 /\ m = MError EDifferentNetwork) \/
                              (n1 = n2 /\ (x + y) mod n256k1 = 0 /\ m = MError ENotOnCurve) \/
                              (n1 = n2 /\ (x + y) mod n256k1 <> 0 /\ m = MPublic n1 ((x + y) mod n256k1))
                          | _, _ => m = MUnfit
                          end
  | Export i c => match nth_error h i with Some (MPublic _ z) => m = MText c z | _ => m = MUnfit end
  | Import i n => match nth_error h i with Some (MText _ z) => m = MPublic n z | _ => m = MUnfit end
  | AddressOf i c => match nth_error h i with Some (MPublic n z) => m = MAddress n c z | _ => m = MUnfit end
  end.

Definition meant_next (h : list meaning) (r : request) (rd : list byte) (m : meaning) (rest : list byte) : Prop :=
  match r with
  | Generate n => exists v bs, first_block 32 (fun z => 2 ^ 252 <= z <= n256k1 - 2) rd (bytes_number bs) rest /\
                    length bs = 32%nat /\ hex_text (PrivKeyPrefix n) [v] /\ m = MPrivate n v bs
  | _ => rest = rd /\ meant h r m
  end.

(** The meanings of all answers of a session. *)
Inductive meant_all : list meaning -> list request -> list byte -> list meaning -> list byte -> Prop :=
| meant_end h rd : meant_all h [] rd h rd
| meant_step h r rs rd m rest h' rest' :
    meant_next h r rd m rest -> meant_all (h ++ [m]) rs rest h' rest' -> meant_all h (r :: rs) rd h' rest'.

(** Networks with a version byte for WIFs and an address prefix of whole bytes. *)
Definition whole_bytes (n : network) : Prop :=
  (exists v, hex_text (PrivKeyPrefix n) [v]) /\ exists p, hex_text (PubKeyHashPrefix n) p.

(** What may be typed in: keys in range, in any letter case and with any number
    of leading zeros, and exported points of the curve. *)
Definition sensible (r : request) : Prop :=
  match r with
  | Generate n | SaveHex _ n | SaveWIF _ n | Import _ n => whole_bytes n
  | EnterHex t n => whole_bytes n /\ exists bs, hex_text t bs /\ 1 <= bytes_number bs < n256k1
  | EnterWIF t n => whole_bytes n /\ exists v bs, base58check (v :: bs) t /\ 1 <= bytes_number bs < n256k1
  | EnterPublic t n => whole_bytes n /\ exists c x y bs, curve_point (x, y) /\ sec1 c x y bs /\ hex_text t bs
  | _ => True
  end.
