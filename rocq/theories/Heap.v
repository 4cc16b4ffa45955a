(** * The package with its pointers: programs over a heap

    [Model.v] models a pointer by the value it points to. This file models the
    same functions with the objects themselves: every [new], every field
    assignment and every read of a shared object is one step of a program, so
    that other goroutines can run in between. [HeapSem.v] gives the programs
    their sequential and concurrent meaning.

    Simplifications, besides those of [Model.v]: strings, byte slices and
    hash.Hash values are not objects (they never leave the function that makes
    them, and Go strings are immutable); reading a whole struct or a whole
    word list is one step; the library code behind the ecdsa methods is not
    known, it is a parameter ([hlib]). *)

From Verif Require Import GoBase GoNum Sha256 Ripemd160 Base58 GoRand Model.
Local Open Scope Z_scope.

Definition addr := nat.
(** A pointer; [None] is nil. *)
Definition ptr := option addr.

(** The objects that outlive a call: struct.go:8-28, wordlists.go:3, big.Int. *)
Inductive obj :=
| OInt (z : Z)
| ONet (n : network)
| OPriv (key : ptr) (hex wif : gostring) (net : ptr)
| OPub (x y net : ptr)
| OWords (l : list gostring).

(** A program is a tree of steps. [PRandom n] is one read of n bytes from
    rand.Reader ([None]: the reader failed); [PLogLine] is one log.Println. *)
Inductive prog (A : Type) :=
| PRet (a : A)
| PPanic (p : panic)
| PAlloc (o : obj) (k : addr -> prog A)
| PRead (a : addr) (k : obj -> prog A)
| PWrite (a : addr) (o : obj) (k : prog A)
| PRandom (n : nat) (k : option (list byte) -> prog A)
| PLogLine (s : gostring) (k : prog A).
Arguments PRet {A}. Arguments PPanic {A}. Arguments PAlloc {A}. Arguments PRead {A}.
Arguments PWrite {A}. Arguments PRandom {A}. Arguments PLogLine {A}.

Fixpoint pbind {A B} (m : prog A) (f : A -> prog B) : prog B :=
  match m with
  | PRet a => f a
  | PPanic p => PPanic p
  | PAlloc o k => PAlloc o (fun a => pbind (k a) f)
  | PRead a k => PRead a (fun o => pbind (k o) f)
  | PWrite a o k => PWrite a o (pbind k f)
  | PRandom n k => PRandom n (fun r => pbind (k r) f)
  | PLogLine s k => PLogLine s (pbind k f)
  end.

Notation "'do' x '<-' m ';' f" := (pbind m (fun x => f))
  (at level 61, x pattern, m at next level, f at level 200, right associativity).

(** A computation that touches no object. *)
Definition pure {A} (o : outcome A) : prog A :=
  match o with Ret a => PRet a | Panic p => PPanic p end.

(** [if err != nil { return nil, err }] *)
Definition pbind_res {A B} (m : result A) (f : A -> prog (result B)) : prog (result B) :=
  match m with Ok a => f a | Err e => PRet (Err e) end.
Notation "'do?' x '<-' m ';' f" := (pbind_res m (fun x => f))
  (at level 61, x pattern, m at next level, f at level 200, right associativity).

Definition alloc (o : obj) : prog addr := PAlloc o PRet.
Definition write (a : addr) (o : obj) : prog unit := PWrite a o (PRet tt).
(** Dereferencing nil panics. A pointer to an object of another type cannot
    exist in Go; the model panics there too. *)
Definition deref (p : ptr) : prog obj :=
  match p with Some a => PRead a PRet | None => PPanic PNil end.
Definition read_int (p : ptr) : prog Z :=
  do o <- deref p; match o with OInt z => PRet z | _ => PPanic PNil end.
Definition read_net (p : ptr) : prog network :=
  do o <- deref p; match o with ONet n => PRet n | _ => PPanic PNil end.
Definition read_priv (a : addr) : prog (ptr * gostring * gostring * ptr) :=
  do o <- deref (Some a); match o with OPriv k h w n => PRet (k, h, w, n) | _ => PPanic PNil end.
Definition read_pub (a : addr) : prog (ptr * ptr * ptr) :=
  do o <- deref (Some a); match o with OPub x y n => PRet (x, y, n) | _ => PPanic PNil end.
Definition read_words (p : ptr) : prog (list gostring) :=
  match p with
  | None => PRet []                       (* a nil slice has no elements *)
  | Some _ => do o <- deref p; match o with OWords l => PRet l | _ => PPanic PNil end
  end.

(** ** math/big at the level of objects *)

(** new(big.Int) *)
Definition new_int : prog addr := alloc (OInt 0).
(** z.SetString(s, 16): z gets the value, or the result is nil. (After a
    failure the content of z is unspecified; no one keeps that z.) *)
Definition int_SetString (parse : gostring -> option Z) (z : addr) (s : gostring) : prog ptr :=
  match parse s with
  | Some v => do _ <- write z (OInt v); PRet (Some z)
  | None => PRet None
  end.
(** z.Add(x, y), z.Mul(x, y), z.Mod(x, y): store in z, return z. *)
Definition int_op (op : Z -> Z -> Z) (z : addr) (x y : ptr) : prog addr :=
  do vx <- read_int x;
  do vy <- read_int y;
  do _ <- write z (OInt (op vx vy)); PRet z.
(** z.Set(x) *)
Definition int_Set (z : addr) (x : ptr) : prog addr :=
  do v <- read_int x; do _ <- write z (OInt v); PRet z.
(** z.SetInt64(v), z.SetBytes(b) *)
Definition int_SetZ (z : addr) (v : Z) : prog addr := do _ <- write z (OInt v); PRet z.
(** big.NewInt(v) *)
Definition new_int_of (v : Z) : prog addr := alloc (OInt v).

(** ** btc.go: package state *)

(** The pointers the package variables hold after init (btc.go:9-15). No
    function assigns them, so they are constants here; what they point to is in
    the heap. *)
Record globals := Globals {
  gA : addr; gB : addr; gGx : addr; gGy : addr; gP : addr; gN : addr; gH : addr;
  gMain : addr; gTest : addr }.

(** btc.go:17-37 *)
Definition init : prog globals :=
  do a <- new_int_of secp_A;                                   (* 18 *)
  do b <- new_int_of secp_B;                                   (* 19 *)
  do gx <- new_int_of secp_Gx;                                 (* 21 *)
  do gy <- new_int_of secp_Gy;                                 (* 22 *)
  do p <- new_int_of secp_P;                                   (* 24 *)
  do n <- new_int_of secp_N;                                   (* 25 *)
  do h <- new_int_of secp_H;                                   (* 26 *)
  do m <- alloc (ONet MainNetwork);                            (* 28-31 *)
  do t <- alloc (ONet TestNetwork);                            (* 33-36 *)
  PRet (Globals a b gx gy p n h m t).

(** The methods of ecdsa.Curve that the package calls, as programs over the
    same heap: they receive and return pointers. The bool is the second result
    of the Go method; when it is false the pointers may be nil. *)
Record hlib := HLib {
  h_GetY : globals -> addr -> prog (ptr * bool);
  h_MultMod : globals -> addr -> addr -> prog ptr;
  h_ScalarMult : globals -> addr -> addr * addr -> prog (ptr * ptr * bool);
  h_AddPoints : globals -> addr * addr -> addr * addr -> prog (ptr * ptr * bool) }.

(** ** util.go *)

(** crypto/rand.Int: every attempt reads k bytes; n is a new big.Int. *)
Fixpoint h_rand_loop (fuel k : nat) (bitlen : Z) (n max : addr) : prog (option addr) :=
  match fuel with
  | O => PPanic PFuel
  | S f =>
      PRandom k (fun r =>
        match r with
        | None => PRet None
        | Some bs =>
            do _ <- int_SetZ n (rand_candidate bitlen bs);
            do v <- read_int (Some n);
            do m <- read_int (Some max);
            if v <? m then PRet (Some n) else h_rand_loop f k bitlen n max
        end)
  end.
Definition h_rand_int (fuel : nat) (max : addr) : prog (option addr) :=
  do n <- new_int;
  do m <- read_int (Some max);
  let bl := bit_len (m - 1) in
  if bl =? 0 then PRet (Some n)
  else h_rand_loop fuel (Z.to_nat ((bl + 7) / 8)) bl n max.

(** util.go:9-17 *)
Definition h_generateRandomBigInt (fuel : nat) : prog addr :=
  do z <- new_int;                                             (* 10 *)
  do _ <- int_SetZ z rand_max;                                 (* 10 *)
  do r <- h_rand_int fuel z;                                   (* 12 *)
  match r with
  | Some n => PRet n                                           (* 16 *)
  | None => PPanic PRand                                       (* 13-15 *)
  end.

(** util.go:19-21 *)
Definition h_bigIntToHex (n : ptr) : prog gostring :=
  match n with
  | None => PRet (bigIntToHex None)
  | Some _ => do v <- read_int n; PRet (bigIntToHex (Some v))
  end.

(** ** private_key.go *)

(** private_key.go:44-68 *)
Definition h_PrivateFromWIF (wif : gostring) (net : ptr) : prog (result addr) :=
  do valid <- pure (CheckWIF wif);                             (* 46 *)
  if negb valid then PRet (Err EWifInvalid)                    (* 47-49 *)
  else
    do? bytes <- b58decode wif;                                (* 51-54 *)
    let hexa := hex_encode bytes in                            (* 56 *)
    do hexa <- pure (slice hexa 2 (len hexa));                 (* 58 *)
    do hexa <- pure (slice hexa 0 (len hexa - 8));             (* 59 *)
    do p <- alloc (OPriv None [] [] None);                     (* 61 *)
    do _ <- write p (OPriv None [] wif None);                  (* 62 *)
    do _ <- write p (OPriv None hexa wif None);                (* 63 *)
    do z <- new_int;                                           (* 64 *)
    do k <- int_SetString set_string16 z hexa;                 (* 64 *)
    do _ <- write p (OPriv k hexa wif None);                   (* 64 *)
    do _ <- write p (OPriv k hexa wif net);                    (* 65 *)
    PRet (Ok p).                                               (* 67 *)

(** private_key.go:71-114 *)
Definition h_PrivateFromHex (hexa0 : gostring) (net : ptr) : prog (result addr) :=
  do p <- alloc (OPriv None [] [] None);                       (* 73 *)
  do z <- new_int;                                             (* 74 *)
  do k <- int_SetString set_string16 z hexa0;                  (* 74 *)
  do _ <- write p (OPriv k [] [] None);                        (* 74 *)
  do _ <- write p (OPriv k hexa0 [] None);                     (* 75 *)
  do n <- read_net net;                                        (* 77 *)
  let hexa := PrivKeyPrefix n ++ hexa0 in                      (* 77 *)
  do? hexaB <- hex_decode hexa;                                (* 79-83 *)
  let doubleHash := sha256 (sha256 hexaB) in                   (* 85-93 *)
  do checksum <- pure (slice (hex_encode doubleHash) 0 8);     (* 96-98 *)
  let hexa := hexa ++ checksum in                              (* 101 *)
  do? hexaB <- hex_decode hexa;                                (* 103-107 *)
  let wif := b58encode hexaB in                                (* 109 *)
  do _ <- write p (OPriv k hexa0 wif None);                    (* 111 *)
  do _ <- write p (OPriv k hexa0 wif net);                     (* 112 *)
  PRet (Ok p).                                                 (* 113 *)

(** private_key.go:117-133 *)
Fixpoint h_GeneratePrivateKey (fuel : nat) (net : ptr) : prog addr :=
  match fuel with
  | O => PPanic PFuel
  | S f =>
      do key <- h_generateRandomBigInt (S f);                  (* 120 *)
      do hexa <- h_bigIntToHex (Some key);                     (* 122 *)
      if negb (len hexa =? 64) then h_GeneratePrivateKey f net (* 123-125 *)
      else
        do r <- h_PrivateFromHex hexa net;                     (* 126 *)
        match r with
        | Err _ => h_GeneratePrivateKey f net                  (* 127-129 *)
        | Ok p =>
            do (_, h, w, n) <- read_priv p;                    (* 130 *)
            do _ <- write p (OPriv (Some key) h w n);          (* 130 *)
            PRet p                                             (* 132 *)
        end
  end.

(** reflect.DeepEqual on two *Network. *)
Definition h_net_eqb (p q : ptr) : prog bool :=
  match p, q with
  | None, None => PRet true
  | Some _, Some _ => do m <- read_net p; do n <- read_net q; PRet (net_eqb (Some m) (Some n))
  | _, _ => PRet false
  end.

(** private_key.go:136-154 ([op] = Add) and 157-175 ([op] = Mul). *)
Definition h_combine (op : Z -> Z -> Z) (g : globals) (p1 p2 : addr) : prog (result addr) :=
  do (k1, _, w1, n1) <- read_priv p1;
  do (k2, _, w2, n2) <- read_priv p2;
  do same <- h_net_eqb n1 n2;                                  (* 138, 159 *)
  if negb same then PRet (Err EDifferentNetwork)
  else if str_eqb (to_lower w1) (to_lower w2) then PRet (Err EIdentical)  (* 142, 163 *)
  else
    do pKey <- new_int;                                        (* 146, 167 *)
    do pKey <- int_op op pKey k1 k2;                           (* 147, 168 *)
    do pKey <- int_op big_mod pKey (Some pKey) (Some (gN g));  (* 148, 169 *)
    do hexa <- h_bigIntToHex (Some pKey);                      (* 150, 171 *)
    h_PrivateFromHex hexa n1.                                  (* 152-153, 173-174 *)
Definition h_AddPrivateKeys := h_combine Z.add.
Definition h_MultiplyPrivateKeys := h_combine Z.mul.

(** ** public_key.go *)

Section WithLib.
Context (L : hlib) (g : globals).

(** public_key.go:17-57. The nil *big.Int of a failed SetString panics in GetY. *)
Definition h_PublicFromHex (hexa : gostring) (net : ptr) : prog (result addr) :=
  do p <- alloc (OPub None None None);                         (* 18 *)
  do _ <- write p (OPub None None net);                        (* 19 *)
  do prefix <- pure (slice hexa 0 2);                          (* 21 *)
  if str_eqb prefix (str "04") then                            (* 23 *)
    do x <- pure (slice hexa 2 66);                            (* 25 *)
    do y <- pure (slice hexa 66 130);                          (* 26 *)
    do zx <- new_int;                                          (* 27 *)
    do px <- int_SetString set_string16 zx x;                  (* 27 *)
    do _ <- write p (OPub px None net);                        (* 27 *)
    do zy <- new_int;                                          (* 28 *)
    do py <- int_SetString set_string16 zy y;                  (* 28 *)
    do _ <- write p (OPub px py net);                          (* 28 *)
    PRet (Ok p)
  else if str_eqb prefix (str "03") || str_eqb prefix (str "02") then   (* 30 *)
    do x <- pure (slice hexa 2 66);                            (* 31 *)
    do zx <- new_int;                                          (* 32 *)
    do px <- int_SetString set_string16 zx x;                  (* 32 *)
    do _ <- write p (OPub px None net);                        (* 32 *)
    match px with
    | None => PPanic PNil                                      (* 34 *)
    | Some ax =>
        do (y, onCurve) <- h_GetY L g ax;                      (* 34 *)
        if negb onCurve then PRet (Err ENotOnSecp)             (* 35-37 *)
        else
          do parity <- new_int;                                (* 39 *)
          do _ <- int_SetZ parity (if str_eqb prefix (str "02") then 0 else 1);  (* 40-44 *)
          do yMod <- new_int;                                  (* 47 *)
          do _ <- int_Set yMod y;                              (* 47 *)
          do two <- new_int_of 2;                              (* 48 *)
          do _ <- int_op big_mod yMod y (Some two);            (* 48 *)
          do vm <- read_int (Some yMod);                       (* 48 *)
          do vp <- read_int (Some parity);                     (* 48 *)
          do y' <- (if negb (vm =? vp) then
                      match y with
                      | None => PPanic PNil
                      | Some ay =>
                          do m1 <- new_int_of (-1);            (* 49 *)
                          h_MultMod L g ay m1                  (* 49 *)
                      end
                    else PRet y);
          do _ <- write p (OPub px y' net);                    (* 52 *)
          PRet (Ok p)
    end
  else PRet (Err EUnsupportedFormat).                          (* 53-55 *)

(** public_key.go:60-73 *)
Definition h_GetPublicKey (p : addr) : prog (option addr) :=
  do q <- alloc (OPub None None None);                         (* 61 *)
  do (k, _, _, net) <- read_priv p;                            (* 63 *)
  match k with
  | None => PPanic PNil
  | Some ak =>
      do (rx, ry, valid) <- h_ScalarMult L g ak (gGx g, gGy g);   (* 63 *)
      if negb valid then PRet None                             (* 64-66 *)
      else
        do _ <- write q (OPub rx None None);                   (* 67 *)
        do _ <- write q (OPub rx ry None);                     (* 68 *)
        do _ <- write q (OPub rx ry net);                      (* 70 *)
        PRet (Some q)                                          (* 72 *)
  end.

(** public_key.go:76-105 *)
Definition h_Format (p : addr) (compressed : bool) : prog gostring :=
  do (x, y, _) <- read_pub p;
  do hx <- h_bigIntToHex x;                                    (* 80 *)
  do hy <- h_bigIntToHex y;                                    (* 81 *)
  let pXHex := pad_left 64 hx in                               (* 84-86 *)
  let pYHex := pad_left 64 hy in                               (* 87-89 *)
  if negb compressed then PRet (str "04" ++ pXHex ++ pYHex)    (* 91-95 *)
  else
    do vy <- read_int y;                                       (* 97 *)
    PRet ((if big_bit vy 0 =? 0 then str "02" else str "03") ++ pXHex).  (* 97-102 *)

(** public_key.go:108-165 *)
Definition h_Address (p : addr) (compressed : bool) : prog (result gostring) :=
  do hexa <- h_Format p compressed;                            (* 109 *)
  do? bytes <- hex_decode hexa;                                (* 110-113 *)
  let hexa := hex_encode (ripemd160 (sha256 bytes)) in         (* 116-129 *)
  do (_, _, net) <- read_pub p;                                (* 130 *)
  do n <- read_net net;                                        (* 130 *)
  let extendedRipemd := PubKeyHashPrefix n ++ hexa in          (* 130 *)
  do? bytes <- hex_decode extendedRipemd;                      (* 133-136 *)
  let hexa := hex_encode (sha256 (sha256 bytes)) in            (* 137-149 *)
  do checksum <- pure (slice hexa 0 8);                        (* 152 *)
  do? extendedRipeMd <- hex_decode (extendedRipemd ++ checksum);  (* 155-161 *)
  PRet (Ok (b58encode extendedRipeMd)).                        (* 164 *)

(** public_key.go:168-194 *)
Definition h_AddPublicKeys (p1 p2 : addr) (compressed : bool) : prog (result addr) :=
  do (x1, y1, n1) <- read_pub p1;
  do (x2, y2, n2) <- read_pub p2;
  do same <- h_net_eqb n1 n2;                                  (* 170 *)
  if negb same then PRet (Err EDifferentNetwork)               (* 171 *)
  else match x1, y1, x2, y2 with
       | Some ax1, Some ay1, Some ax2, Some ay2 =>
           do (rx, ry, onCurve) <- h_AddPoints L g (ax1, ay1) (ax2, ay2);  (* 174-183 *)
           if negb onCurve then PRet (Err ENotOnCurve)         (* 184-186 *)
           else
             do q <- alloc (OPub rx ry n1);                    (* 187-191 *)
             PRet (Ok q)                                       (* 193 *)
       | _, _, _, _ => PPanic PNil
       end.

End WithLib.

(** ** mnemonic.go *)

(** mnemonic.go:39-48: one big.Int per group of four digits. *)
Fixpoint h_nibbles (b : gostring) : prog gostring :=
  match b with
  | [] => PRet []
  | c1 :: c2 :: c3 :: c4 :: b' =>
      let n := [c1; c2; c3; c4] in
      PLogLine n (                                             (* 44 *)
        do z <- new_int;                                       (* 45 *)
        do nInt <- int_SetString set_string2 z n;              (* 45 *)
        do hexa <- h_bigIntToHex nInt;                         (* 46 *)
        do rest <- h_nibbles b';
        PRet (hexa ++ rest))                                   (* 47 *)
  | _ => PPanic PIndex
  end.

(** mnemonic.go:15-74 *)
Definition h_NewSeedFromMnemonic (mnemonic passphrase : gostring) (wl : ptr) : prog (result (option (list byte))) :=
  do l <- read_words wl;
  match words_binary (split_space mnemonic) l with             (* 16-36 *)
  | None => PRet (Err EInvalidMnemonic)
  | Some binary =>
      do hash <- h_nibbles binary;                             (* 38-48 *)
      do checksum <- pure (slice hash (len hash - 2) (len hash));  (* 50 *)
      do body <- pure (slice hash 0 (len hash - 2));           (* 53 *)
      do? decoded <- hex_decode body;                          (* 53-56 *)
      let shaHash := sha256 decoded in                         (* 52, 57-58 *)
      do shaHashBig <- new_int;                                (* 60 *)
      do _ <- int_SetZ shaHashBig (set_bytes shaHash);         (* 60 *)
      do hx <- h_bigIntToHex (Some shaHashBig);                (* 61 *)
      let shaHashHex := pad_left 64 hx in                      (* 63-65 *)
      do h2 <- pure (slice shaHashHex 0 2);                    (* 67 *)
      if negb (str_eqb h2 checksum) then PRet (Err EInvalidChecksum)   (* 67-69 *)
      else
        PLogLine (shaHashHex ++ space :: sprintf_d (len shaHashHex)) (  (* 71 *)
        PLogLine (hash ++ space :: checksum) (                 (* 72 *)
        PRet (Ok None)))                                       (* 73 *)
  end.

(** mnemonic.go:132-144 *)
Fixpoint h_phrase_loop (ngroups : nat) (i : Z) (binary : ptr) (wl : ptr) : prog (list gostring) :=
  match ngroups with
  | O => PRet []
  | S g =>
      do v <- read_int binary;                                 (* 136 *)
      do z <- new_int;                                         (* 142 *)
      do n <- int_SetString set_string2 z (bit_chars v i);     (* 142 *)
      do j <- read_int n;                                      (* 143 *)
      do l <- read_words wl;                                   (* 143 *)
      do w <- pure (index l j);                                (* 143 *)
      do ws <- h_phrase_loop g (i + 11) binary wl;
      PRet (w :: ws)
  end.

(** mnemonic.go:77-147 *)
Definition h_NewMnemonic (fuel : nat) (words : Z) (wl : ptr) : prog (result gostring) :=
  match wl with
  | None => PRet (Err EInvalidWordlist)                        (* 79-81 *)
  | Some _ =>
      match entropy_length words with                          (* 83-102 *)
      | None => PRet (Err EUnsupportedLength)
      | Some entropyLength =>
          do np256 <- new_int_of 2;                            (* 105 *)
          do e <- new_int_of entropyLength;                    (* 106 *)
          do _ <- int_op Z.pow np256 (Some np256) (Some e);    (* 106 *)
          do r <- h_rand_int fuel np256;                       (* 107 *)
          match r with
          | None => PRet (Err ERandRead)                       (* 108-110 *)
          | Some entropy =>
              do v <- read_int (Some entropy);                 (* 113 *)
              let hash := sha256 (big_bytes v) in              (* 112-114 *)
              do hashInt <- new_int;                           (* 118 *)
              do _ <- int_SetZ hashInt (set_bytes hash);       (* 118 *)
              do hv <- read_int (Some hashInt);                (* 120 *)
              do checksumBinary <- pure (slice (sprintf_b hv) 0 (entropyLength / 32));  (* 116-121 *)
              do v <- read_int (Some entropy);                 (* 123 *)
              let b := pad_left (Z.to_nat entropyLength) (sprintf_b v) ++ checksumBinary in  (* 123-129 *)
              do z <- new_int;                                 (* 130 *)
              do binary <- int_SetString set_string2 z b;      (* 130 *)
              match binary with
              | None => PPanic PNil
              | Some _ =>
                  do phrase <- h_phrase_loop (Z.to_nat ((len b + 10) / 11)) 0 binary wl;  (* 132-144 *)
                  PRet (Ok (join_space phrase))                (* 146 *)
              end
          end
      end
  end.
