(** * The package github.com/aureleoules/btc, function by function

    Every definition cites the Go lines it models. Conventions are those of
    [GoBase.v]: [outcome] = the call returns or panics, [result] = (T, error). *)

From Verif Require Import GoBase GoNum Sha256 Ripemd160 Base58 GoRand.
Local Open Scope Z_scope.

(** ** struct.go *)

(** struct.go:8-11 *)
Record network := Network { PrivKeyPrefix : gostring; PubKeyHashPrefix : gostring }.

(** struct.go:14-20. [Key] is a *big.Int ([None] = nil); [KNetwork] is the
    *Network pointer ([None] = nil), modelled by the value it points to
    (pointer identity is the business of [Heap.v]). *)
Record private_key := PrivateKey {
  Key : option Z; Hex : gostring; WIF : gostring; KNetwork : option network }.

(** struct.go:23-28 *)
Record public_key := PublicKey { PX : option Z; PY : option Z; PNetwork : option network }.

(** ** btc.go *)

(** btc.go:18-25: the secp256k1 parameters. A and B are the coefficients, P the
    field prime, N the order of G. (The cofactor H of btc.go:26 is never read.) *)
Definition secp_A : Z := 0.
Definition secp_B : Z := 7.
Definition secp_Gx : Z := 0x79BE667EF9DCBBAC55A06295CE870B07029BFCDB2DCE28D959F2815B16F81798.
Definition secp_Gy : Z := 0x483ADA7726A3C4655DA4FBFC0E1108A8FD17B448A68554199C47D08FFB10D4B8.
Definition secp_P : Z := 0xFFFFFFFFFFFFFFFFFFFFFFFFFFFFFFFFFFFFFFFFFFFFFFFFFFFFFFFEFFFFFC2F.
Definition secp_N : Z := 0xFFFFFFFFFFFFFFFFFFFFFFFFFFFFFFFEBAAEDCE6AF48A03BBFD25E8CD0364141.
Definition secp_H : Z := 1.

(** btc.go:28-31 *)
Definition MainNetwork : network := Network (str "80") (str "00").
(** btc.go:33-36 *)
Definition TestNetwork : network := Network (str "EF") (str "6F").

(** ** The ecdsa dependency (github.com/aureleoules/ecdsa, not in /repo)

    The four methods of ecdsa.Curve the package calls, on the curve value that
    btc.go:18-26 builds. Their behaviour is not assumed here; see
    [EcdsaContract.v]. A nil *big.Int never reaches these functions in the
    model: the model panics first, because every method of a nil *big.Int
    dereferences it. *)
Definition point := (Z * Z)%type.
Record ecdsa_lib := EcdsaLib {
  lib_GetY : Z -> Z * bool;
  lib_MultMod : Z -> Z -> Z;
  lib_ScalarMult : Z -> point -> point * bool;
  lib_AddPoints : point -> point -> point * bool }.

(** ** util.go *)

(** util.go:9-17. The bound is N - 1. The error of rand.Int becomes a panic. *)
Definition rand_max : Z := 0xFFFFFFFFFFFFFFFFFFFFFFFFFFFFFFFEBAAEDCE6AF48A03BBFD25E8CD0364140.
Definition generateRandomBigInt (rd : list byte) : outcome (Z * list byte) :=
  match rand_int rand_max rd with
  | Some r => Ret r
  | None => Panic PRand
  end.

(** util.go:19-21. fmt prints a nil *big.Int as "<nil>". *)
Definition bigIntToHex (n : option Z) : gostring :=
  match n with Some z => sprintf_x z | None => str "<nil>" end.

(** ** private_key.go *)

(** private_key.go:15-41 *)
Definition CheckWIF (wif : gostring) : outcome bool :=
  match b58decode wif with                                   (* 16-19 *)
  | Err _ => Ret false
  | Ok bytes =>
      let hexa := hex_encode bytes in                        (* 21 *)
      let* checksum := slice hexa (len hexa - 8) (len hexa) in  (* 22 *)
      let* hexa := slice hexa 0 (len hexa - 8) in            (* 23 *)
      match hex_decode hexa with                             (* 25-28 *)
      | Err _ => Ret false
      | Ok hexBytes =>
          let hash := sha256 hexBytes in                     (* 30-32 *)
          let hash2 := sha256 hash in                        (* 34-36 *)
          let hash2Hex := hex_encode hash2 in                (* 38 *)
          let* h8 := slice hash2Hex 0 8 in                   (* 40 *)
          Ret (str_eqb h8 checksum)
      end
  end.

(** private_key.go:44-68 *)
Definition PrivateFromWIF (wif : gostring) (net : option network) : outcome (result private_key) :=
  let* valid := CheckWIF wif in                              (* 46 *)
  if negb valid then Ret (Err EWifInvalid)                   (* 47-49 *)
  else
    let? bytes := b58decode wif in                           (* 51-54 *)
    let hexa := hex_encode bytes in                          (* 56 *)
    let* hexa := slice hexa 2 (len hexa) in                  (* 58 *)
    let* hexa := slice hexa 0 (len hexa - 8) in              (* 59 *)
    Ret (Ok (PrivateKey (set_string16 hexa) hexa wif net)).  (* 61-67 *)

(** private_key.go:71-114. The first statement that needs the network is line
    77: a nil network panics there. *)
Definition PrivateFromHex (hexa0 : gostring) (net : option network) : outcome (result private_key) :=
  let key := set_string16 hexa0 in                           (* 74 *)
  match net with
  | None => Panic PNil
  | Some n =>
      let hexa := PrivKeyPrefix n ++ hexa0 in                (* 77 *)
      let? hexaB := hex_decode hexa in                       (* 79-83 *)
      let hash := sha256 hexaB in                            (* 85-88 *)
      let doubleHash := sha256 hash in                       (* 91-93 *)
      let checksum := hex_encode doubleHash in               (* 96 *)
      let* checksum := slice checksum 0 8 in                 (* 98 *)
      let hexa := hexa ++ checksum in                        (* 101 *)
      let? hexaB := hex_decode hexa in                       (* 103-107 *)
      let wif := b58encode hexaB in                          (* 109 *)
      Ret (Ok (PrivateKey key hexa0 wif net))                (* 75, 111-113 *)
  end.

(** private_key.go:117-133, with the random source made explicit. Both retries
    are the recursive call. [fuel] bounds the number of calls; each one consumes
    at least 32 bytes of the source, so [GeneratePrivateKey] below supplies
    enough (theorem [GeneratePrivateKey_fuel]). *)
Fixpoint generate_fuel (fuel : nat) (net : option network) (rd : list byte)
  : outcome (private_key * list byte) :=
  match fuel with
  | O => Panic PFuel
  | S f =>
      let* (key, rd') := generateRandomBigInt rd in          (* 120 *)
      let hexa := bigIntToHex (Some key) in                  (* 122 *)
      if negb (len hexa =? 64) then generate_fuel f net rd'  (* 123-125 *)
      else
        let* r := PrivateFromHex hexa net in                 (* 126 *)
        match r with
        | Err _ => generate_fuel f net rd'                   (* 127-129 *)
        | Ok k => Ret (PrivateKey (Some key) (Hex k) (WIF k) (KNetwork k), rd')  (* 130-132 *)
        end
  end.
Definition GeneratePrivateKey (net : option network) (rd : list byte)
  : outcome (private_key * list byte) :=
  generate_fuel (S (length rd)) net rd.

(** reflect.DeepEqual on two *Network: both nil, or both non-nil with equal
    fields (private_key.go:138, 159, public_key.go:170). *)
Definition net_eqb (a b : option network) : bool :=
  match a, b with
  | None, None => true
  | Some m, Some n =>
      str_eqb (PrivKeyPrefix m) (PrivKeyPrefix n) &&
      str_eqb (PubKeyHashPrefix m) (PubKeyHashPrefix n)
  | _, _ => false
  end.

(** private_key.go:136-154. Arguments are non-nil *PrivateKey; a nil number inside
    panics in big.Int's Add. *)
Definition AddPrivateKeys (p1 p2 : private_key) : outcome (result private_key) :=
  if negb (net_eqb (KNetwork p1) (KNetwork p2)) then Ret (Err EDifferentNetwork)  (* 138-140 *)
  else if str_eqb (to_lower (WIF p1)) (to_lower (WIF p2)) then Ret (Err EIdentical)  (* 142-144 *)
  else match Key p1, Key p2 with
       | Some k1, Some k2 =>
           let pKey := k1 + k2 in                           (* 146-147 *)
           let pKey := big_mod pKey secp_N in                (* 148 *)
           let hexa := bigIntToHex (Some pKey) in            (* 150 *)
           PrivateFromHex hexa (KNetwork p1)                 (* 152-153 *)
       | _, _ => Panic PNil
       end.

(** private_key.go:157-175. Arguments are non-nil *PrivateKey; a nil number inside
    panics in big.Int's Mul. *)
Definition MultiplyPrivateKeys (p1 p2 : private_key) : outcome (result private_key) :=
  if negb (net_eqb (KNetwork p1) (KNetwork p2)) then Ret (Err EDifferentNetwork)  (* 159-161 *)
  else if str_eqb (to_lower (WIF p1)) (to_lower (WIF p2)) then Ret (Err EIdentical)  (* 163-165 *)
  else match Key p1, Key p2 with
       | Some k1, Some k2 =>
           let pKey := k1 * k2 in                           (* 167-168 *)
           let pKey := big_mod pKey secp_N in                (* 169 *)
           let hexa := bigIntToHex (Some pKey) in            (* 171 *)
           PrivateFromHex hexa (KNetwork p1)                 (* 173-174 *)
       | _, _ => Panic PNil
       end.

(** ** public_key.go *)

Section WithEcdsa.
Context (E : ecdsa_lib).

(** public_key.go:17-57 *)
Definition PublicFromHex (hexa : gostring) (net : option network) : outcome (result public_key) :=
  let* prefix := slice hexa 0 2 in                           (* 21 *)
  if str_eqb prefix (str "04") then                          (* 23 *)
    let* x := slice hexa 2 66 in                             (* 25 *)
    let* y := slice hexa 66 130 in                           (* 26 *)
    Ret (Ok (PublicKey (set_string16 x) (set_string16 y) net))   (* 27-28 *)
  else if str_eqb prefix (str "03") || str_eqb prefix (str "02") then   (* 30 *)
    let* x := slice hexa 2 66 in                             (* 31 *)
    match set_string16 x with                                (* 32 *)
    | None => Panic PNil                                     (* 34: GetY(nil) *)
    | Some px =>
        let '(y, onCurve) := lib_GetY E px in                (* 34 *)
        if negb onCurve then Ret (Err ENotOnSecp)            (* 35-37 *)
        else
          let parity := if str_eqb prefix (str "02") then 0 else 1 in   (* 39-44 *)
          let y := if negb (big_mod y 2 =? parity)           (* 47-48 *)
                   then lib_MultMod E y (-1) else y in       (* 49 *)
          Ret (Ok (PublicKey (Some px) (Some y) net))        (* 52 *)
    end
  else Ret (Err EUnsupportedFormat).                         (* 53-55 *)

(** public_key.go:60-73. The boolean result is the [option]: [None] = (nil, false). *)
Definition GetPublicKey (p : private_key) : outcome (option public_key) :=
  match Key p with
  | None => Panic PNil
  | Some k =>
      let '((rx, ry), valid) := lib_ScalarMult E k (secp_Gx, secp_Gy) in  (* 63 *)
      if negb valid then Ret None                            (* 64-66 *)
      else Ret (Some (PublicKey (Some rx) (Some ry) (KNetwork p)))  (* 67-72 *)
  end.

(** public_key.go:76-105. [p.Y.Bit(0)] panics on a nil Y; it is only evaluated
    for the compressed form. *)
Definition Format (p : public_key) (compressed : bool) : outcome gostring :=
  let pXHex := pad_left 64 (bigIntToHex (PX p)) in           (* 80, 84-86 *)
  let pYHex := pad_left 64 (bigIntToHex (PY p)) in           (* 81, 87-89 *)
  if negb compressed then
    Ret (str "04" ++ pXHex ++ pYHex)                         (* 91-95 *)
  else
    match PY p with
    | None => Panic PNil
    | Some y =>
        Ret ((if big_bit y 0 =? 0 then str "02" else str "03") ++ pXHex)  (* 97-102 *)
    end.

(** public_key.go:108-165 *)
Definition Address (p : public_key) (compressed : bool) : outcome (result gostring) :=
  let* hexa := Format p compressed in                        (* 109 *)
  let? bytes := hex_decode hexa in                           (* 110-113 *)
  let hash := sha256 bytes in                                (* 116-119 *)
  let ripemdHash := ripemd160 hash in                        (* 122-125 *)
  let hexa := hex_encode ripemdHash in                       (* 129 *)
  match PNetwork p with
  | None => Panic PNil                                       (* 130: nil network *)
  | Some n =>
      let extendedRipemd := PubKeyHashPrefix n ++ hexa in    (* 130 *)
      let? bytes := hex_decode extendedRipemd in             (* 133-136 *)
      let hash := sha256 bytes in                            (* 137-140 *)
      let hash := sha256 hash in                             (* 143-146 *)
      let hexa := hex_encode hash in                         (* 149 *)
      let* checksum := slice hexa 0 8 in                     (* 152 *)
      let extendedRipemd := extendedRipemd ++ checksum in    (* 155 *)
      let? extendedRipeMd := hex_decode extendedRipemd in    (* 158-161 *)
      Ret (Ok (b58encode extendedRipeMd))                    (* 164 *)
  end.

(** public_key.go:168-194. [compressed] is not used by the code. *)
Definition AddPublicKeys (p1 p2 : public_key) (compressed : bool) : outcome (result public_key) :=
  if negb (net_eqb (PNetwork p1) (PNetwork p2)) then Ret (Err EDifferentNetwork)  (* 170-172 *)
  else match PX p1, PY p1, PX p2, PY p2 with
       | Some x1, Some y1, Some x2, Some y2 =>
           let '((rx, ry), onCurve) := lib_AddPoints E (x1, y1) (x2, y2) in   (* 174-183 *)
           if negb onCurve then Ret (Err ENotOnCurve)        (* 184-186 *)
           else Ret (Ok (PublicKey (Some rx) (Some ry) (PNetwork p1)))  (* 187-193 *)
       | _, _, _, _ => Panic PNil
       end.

End WithEcdsa.

(** ** mnemonic.go *)

Definition wordlist := option (list gostring).   (* wordlists.go:3; [None] = nil *)
Definition words_of (wl : wordlist) : list gostring :=
  match wl with Some l => l | None => [] end.

(** mnemonic.go:19-25: position of the first equal word. *)
Fixpoint find_word (word : gostring) (l : list gostring) (i : Z) : option Z :=
  match l with
  | [] => None
  | w :: l' => if str_eqb word w then Some i else find_word word l' (i + 1)
  end.

(** mnemonic.go:18-36: the concatenated binary indices, [None] when a word is
    missing. *)
Fixpoint words_binary (ws : list gostring) (l : list gostring) : option gostring :=
  match ws with
  | [] => Some []
  | w :: ws' =>
      match find_word w l 0 with
      | None => None
      | Some i =>
          match words_binary ws' l with
          | None => None
          | Some rest => Some (pad_left 11 (sprintf_b i) ++ rest)    (* 30-35 *)
          end
      end
  end.

(** mnemonic.go:39-48: four binary digits at a time become one hex digit; an
    incomplete last group indexes past the end. Each group is logged first.
    The result is (log lines, hex string or panic). *)
Fixpoint nibbles (b : gostring) : list gostring * outcome gostring :=
  match b with
  | [] => ([], Ret [])
  | c1 :: c2 :: c3 :: c4 :: b' =>
      let n := [c1; c2; c3; c4] in
      let '(log, r) := nibbles b' in
      (n :: log,
       let* hash := r in
       Ret (bigIntToHex (set_string2 n) ++ hash))
  | _ => ([], Panic PIndex)
  end.

(** mnemonic.go:15-74. The result is the log the call writes (one entry per
    log.Println) and its outcome; the returned []byte is an [option], [None]
    being nil. The passphrase is not used by the code. *)
Definition NewSeedFromMnemonic (mnemonic passphrase : gostring) (wl : wordlist)
  : list gostring * outcome (result (option (list byte))) :=
  let words := split_space mnemonic in                       (* 16 *)
  match words_binary words (words_of wl) with                (* 17-36 *)
  | None => ([], Ret (Err EInvalidMnemonic))
  | Some binary =>
      let '(log1, r) := nibbles binary in                    (* 38-48 *)
      match r with
      | Panic p => (log1, Panic p)
      | Ret hash =>
          let early (o : outcome (result (option (list byte)))) := (log1, o) in
          match slice hash (len hash - 2) (len hash) with    (* 50 *)
          | Panic p => early (Panic p)
          | Ret checksum =>
              match slice hash 0 (len hash - 2) with         (* 53 *)
              | Panic p => early (Panic p)
              | Ret body =>
                  match hex_decode body with                 (* 53-56 *)
                  | Err e => early (Ret (Err e))
                  | Ok decoded =>
                      let shaHash := sha256 decoded in       (* 52, 57-58 *)
                      let shaHashBig := set_bytes shaHash in (* 60 *)
                      let shaHashHex := pad_left 64 (bigIntToHex (Some shaHashBig)) in  (* 61-65 *)
                      match slice shaHashHex 0 2 with        (* 67 *)
                      | Panic p => early (Panic p)
                      | Ret h2 =>
                          if negb (str_eqb h2 checksum)
                          then early (Ret (Err EInvalidChecksum))   (* 67-69 *)
                          else (log1 ++ [shaHashHex ++ space :: sprintf_d (len shaHashHex);
                                         hash ++ space :: checksum],  (* 71-72 *)
                                Ret (Ok None))               (* 73 *)
                      end
                  end
              end
          end
      end
  end.

(** mnemonic.go:83-102 *)
Definition entropy_length (words : Z) : option Z :=
  if words =? 12 then Some 128
  else if words =? 15 then Some 160
  else if words =? 18 then Some 192
  else if words =? 21 then Some 224
  else if words =? 24 then Some 256
  else None.

(** mnemonic.go:134-141: the eleven characters for [j = i .. i+10]. *)
Definition bit_chars (binary i : Z) : gostring :=
  map (fun k => if big_bit binary (i + Z.of_nat k) =? 0 then char0 else char1) (seq 0 11).

(** mnemonic.go:132-144: [ngroups] is the number of iterations of
    [for i := 0; i < len(b); i += 11]. *)
Fixpoint phrase_loop (ngroups : nat) (i binary : Z) (l : list gostring) : outcome (list gostring) :=
  match ngroups with
  | O => Ret []
  | S g =>
      match set_string2 (bit_chars binary i) with            (* 142 *)
      | None => Panic PNil
      | Some n =>
          let* w := index l n in                             (* 143 *)
          let* ws := phrase_loop g (i + 11) binary l in
          Ret (w :: ws)
      end
  end.

(** Everything of NewMnemonic after the entropy has been drawn
    (mnemonic.go:112-146). *)
Definition mnemonic_of_entropy (entropyLength entropy : Z) (l : list gostring) : outcome gostring :=
  let hash := sha256 (big_bytes entropy) in                  (* 112-114 *)
  let checksumLength := entropyLength / 32 in                (* 116 *)
  let hashInt := set_bytes hash in                           (* 118 *)
  let hashBinary := sprintf_b hashInt in                     (* 120 *)
  let* checksumBinary := slice hashBinary 0 checksumLength in (* 121 *)
  let b := pad_left (Z.to_nat entropyLength) (sprintf_b entropy) in   (* 123-127 *)
  let b := b ++ checksumBinary in                            (* 129 *)
  match set_string2 b with                                   (* 130 *)
  | None => Panic PNil
  | Some binary =>
      let* phrase := phrase_loop (Z.to_nat ((len b + 10) / 11)) 0 binary l in   (* 132-144 *)
      Ret (join_space phrase)                                (* 146 *)
  end.

(** mnemonic.go:77-147 over an explicit random source. *)
Definition NewMnemonic (words : Z) (wl : wordlist) (rd : list byte)
  : outcome (result gostring) :=
  match wl with
  | None => Ret (Err EInvalidWordlist)                       (* 79-81 *)
  | Some l =>
      match entropy_length words with                        (* 83-102 *)
      | None => Ret (Err EUnsupportedLength)
      | Some entropyLength =>
          match rand_int (2 ^ entropyLength) rd with         (* 105-110 *)
          | None => Ret (Err ERandRead)
          | Some (entropy, _) =>
              let* phrase := mnemonic_of_entropy entropyLength entropy l in
              Ret (Ok phrase)
          end
      end
  end.
