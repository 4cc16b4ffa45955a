(** * The source of the package as syntax trees

    Generated from /repo by tools/go2coq.py; do not edit. Every statement carries
    its line in the Go file. wordlists.go holds the word lists only and is not
    translated. *)

From Coq Require Import String ZArith List.
Import ListNotations.
From Verif Require Import GoSyntax.
Local Open Scope string_scope.
Local Open Scope Z_scope.

(** ** struct.go *)

(** struct.go:8-11 *)
Definition type_Network : list (string * string) := [("PrivKeyPrefix", "string"); ("PubKeyHashPrefix", "string")].

(** struct.go:14-20 *)
Definition type_PrivateKey : list (string * string) := [("Key", "*big.Int"); ("Hex", "string"); ("WIF", "string"); ("Network", "*Network")].

(** struct.go:23-28 *)
Definition type_PublicKey : list (string * string) := [("X", "*big.Int"); ("Y", "*big.Int"); ("Network", "*Network")].

(** ** btc.go *)

(** btc.go:9 *)
Definition var_secp256k1 : string * string := ("secp256k1", "ecdsa.Curve").

(** btc.go:12 *)
Definition var_MainNetwork : string * string := ("MainNetwork", "*Network").

(** btc.go:15 *)
Definition var_TestNetwork : string * string := ("TestNetwork", "*Network").

(** btc.go:17-37 *)
Definition src_init : func := Func "init" [] [
  (* 18 *) Assign [Field (Var "secp256k1") "A"; Var "_"] (Method (New "big.Int") "SetString" [Str "0000000000000000000000000000000000000000000000000000000000000000"; Int 16]);
  (* 19 *) Assign [Field (Var "secp256k1") "B"; Var "_"] (Method (New "big.Int") "SetString" [Str "0000000000000000000000000000000000000000000000000000000000000007"; Int 16]);
  (* 21 *) Assign [Field (Field (Var "secp256k1") "G") "X"; Var "_"] (Method (New "big.Int") "SetString" [Str "79BE667EF9DCBBAC55A06295CE870B07029BFCDB2DCE28D959F2815B16F81798"; Int 16]);
  (* 22 *) Assign [Field (Field (Var "secp256k1") "G") "Y"; Var "_"] (Method (New "big.Int") "SetString" [Str "483ADA7726A3C4655DA4FBFC0E1108A8FD17B448A68554199C47D08FFB10D4B8"; Int 16]);
  (* 24 *) Assign [Field (Var "secp256k1") "P"; Var "_"] (Method (New "big.Int") "SetString" [Str "FFFFFFFFFFFFFFFFFFFFFFFFFFFFFFFFFFFFFFFFFFFFFFFFFFFFFFFEFFFFFC2F"; Int 16]);
  (* 25 *) Assign [Field (Var "secp256k1") "N"; Var "_"] (Method (New "big.Int") "SetString" [Str "FFFFFFFFFFFFFFFFFFFFFFFFFFFFFFFEBAAEDCE6AF48A03BBFD25E8CD0364141"; Int 16]);
  (* 26 *) Assign [Field (Var "secp256k1") "H"; Var "_"] (Method (New "big.Int") "SetString" [Str "0000000000000000000000000000000000000000000000000000000000000001"; Int 16]);
  (* 28 *) Assign [Var "MainNetwork"] (Addr (Lit "Network" [("PrivKeyPrefix", Str "80"); ("PubKeyHashPrefix", Str "00")]));
  (* 33 *) Assign [Var "TestNetwork"] (Addr (Lit "Network" [("PrivKeyPrefix", Str "EF"); ("PubKeyHashPrefix", Str "6F")])) ].

(** ** util.go *)

(** util.go:9-17 *)
Definition src_generateRandomBigInt : func := Func "generateRandomBigInt" [] [
  (* 10 *) Define ["max"; "_"] (Method (New "big.Int") "SetString" [Str "FFFFFFFFFFFFFFFFFFFFFFFFFFFFFFFEBAAEDCE6AF48A03BBFD25E8CD0364140"; Int 16]);
  (* 12 *) Define ["nBig"; "err"] (Call "rand.Int" [Var "rand.Reader"; Var "max"]);
  (* 13 *) If (Bin OpNe (Var "err") Nil) [
    (* 14 *) Do (Call "panic" [Var "err"]) ] [];
  (* 16 *) Return [Var "nBig"] ].

(** util.go:19-21 *)
Definition src_bigIntToHex : func := Func "bigIntToHex" ["n"] [
  (* 20 *) Return [Call "fmt.Sprintf" [Str "%x"; Var "n"]] ].

(** ** private_key.go *)

(** private_key.go:15-41 *)
Definition src_CheckWIF : func := Func "CheckWIF" ["wif"] [
  (* 16 *) Define ["bytes"; "err"] (Call "base58.Decode" [Var "wif"]);
  (* 17 *) If (Bin OpNe (Var "err") Nil) [
    (* 18 *) Return [Var "false"] ] [];
  (* 21 *) Define ["hexa"] (Call "hex.EncodeToString" [Var "bytes"]);
  (* 22 *) Define ["checksum"] (Slice (Var "hexa") (Bin OpSub (Call "len" [Var "hexa"]) (Int 8)) (Call "len" [Var "hexa"]));
  (* 23 *) Assign [Var "hexa"] (Slice (Var "hexa") (Int 0) (Bin OpSub (Call "len" [Var "hexa"]) (Int 8)));
  (* 25 *) Define ["hexBytes"; "err"] (Call "hex.DecodeString" [Var "hexa"]);
  (* 26 *) If (Bin OpNe (Var "err") Nil) [
    (* 27 *) Return [Var "false"] ] [];
  (* 30 *) Define ["sha"] (Call "sha256.New" []);
  (* 31 *) Do (Method (Var "sha") "Write" [Var "hexBytes"]);
  (* 32 *) Define ["hash"] (Method (Var "sha") "Sum" [Nil]);
  (* 34 *) Assign [Var "sha"] (Call "sha256.New" []);
  (* 35 *) Do (Method (Var "sha") "Write" [Var "hash"]);
  (* 36 *) Define ["hash2"] (Method (Var "sha") "Sum" [Nil]);
  (* 38 *) Define ["hash2Hex"] (Call "hex.EncodeToString" [Var "hash2"]);
  (* 40 *) Return [Bin OpEq (Slice (Var "hash2Hex") (Int 0) (Int 8)) (Var "checksum")] ].

(** private_key.go:44-68 *)
Definition src_PrivateFromWIF : func := Func "PrivateFromWIF" ["wif"; "network"] [
  (* 46 *) Define ["valid"] (Call "CheckWIF" [Var "wif"]);
  (* 47 *) If (Not (Var "valid")) [
    (* 48 *) Return [Nil; Call "errors.New" [Str "wif invalid"]] ] [];
  (* 51 *) Define ["bytes"; "err"] (Call "base58.Decode" [Var "wif"]);
  (* 52 *) If (Bin OpNe (Var "err") Nil) [
    (* 53 *) Return [Nil; Var "err"] ] [];
  (* 56 *) Define ["hexa"] (Call "hex.EncodeToString" [Var "bytes"]);
  (* 58 *) Assign [Var "hexa"] (Slice (Var "hexa") (Int 2) (Call "len" [Var "hexa"]));
  (* 59 *) Assign [Var "hexa"] (Slice (Var "hexa") (Int 0) (Bin OpSub (Call "len" [Var "hexa"]) (Int 8)));
  (* 61 *) VarDecl "privateKey" "PrivateKey";
  (* 62 *) Assign [Field (Var "privateKey") "WIF"] (Var "wif");
  (* 63 *) Assign [Field (Var "privateKey") "Hex"] (Var "hexa");
  (* 64 *) Assign [Field (Var "privateKey") "Key"; Var "_"] (Method (New "big.Int") "SetString" [Var "hexa"; Int 16]);
  (* 65 *) Assign [Field (Var "privateKey") "Network"] (Var "network");
  (* 67 *) Return [Addr (Var "privateKey"); Nil] ].

(** private_key.go:71-114 *)
Definition src_PrivateFromHex : func := Func "PrivateFromHex" ["hexa"; "network"] [
  (* 73 *) VarDecl "p" "PrivateKey";
  (* 74 *) Assign [Field (Var "p") "Key"; Var "_"] (Method (New "big.Int") "SetString" [Var "hexa"; Int 16]);
  (* 75 *) Assign [Field (Var "p") "Hex"] (Var "hexa");
  (* 77 *) Assign [Var "hexa"] (Bin OpAdd (Field (Var "network") "PrivKeyPrefix") (Var "hexa"));
  (* 79 *) Define ["hexaB"; "err"] (Call "hex.DecodeString" [Var "hexa"]);
  (* 80 *) If (Bin OpNe (Var "err") Nil) [
    (* 82 *) Return [Nil; Var "err"] ] [];
  (* 85 *) Define ["sha"] (Call "sha256.New" []);
  (* 87 *) Do (Method (Var "sha") "Write" [Var "hexaB"]);
  (* 88 *) Define ["hash"] (Method (Var "sha") "Sum" [Nil]);
  (* 91 *) Assign [Var "sha"] (Call "sha256.New" []);
  (* 92 *) Do (Method (Var "sha") "Write" [Var "hash"]);
  (* 93 *) Define ["doubleHashHex"] (Method (Var "sha") "Sum" [Nil]);
  (* 96 *) Define ["checksum"] (Call "hex.EncodeToString" [Var "doubleHashHex"]);
  (* 98 *) Assign [Var "checksum"] (Slice (Var "checksum") (Int 0) (Int 8));
  (* 101 *) AddAssign (Var "hexa") (Var "checksum");
  (* 103 *) Assign [Var "hexaB"; Var "err"] (Call "hex.DecodeString" [Var "hexa"]);
  (* 104 *) If (Bin OpNe (Var "err") Nil) [
    (* 106 *) Return [Nil; Var "err"] ] [];
  (* 109 *) Define ["wif"] (Call "base58.Encode" [Var "hexaB"]);
  (* 111 *) Assign [Field (Var "p") "WIF"] (Var "wif");
  (* 112 *) Assign [Field (Var "p") "Network"] (Var "network");
  (* 113 *) Return [Addr (Var "p"); Nil] ].

(** private_key.go:117-133 *)
Definition src_GeneratePrivateKey : func := Func "GeneratePrivateKey" ["network"] [
  (* 120 *) Define ["key"] (Call "generateRandomBigInt" []);
  (* 122 *) Define ["hexa"] (Call "bigIntToHex" [Var "key"]);
  (* 123 *) If (Bin OpNe (Call "len" [Var "hexa"]) (Int 64)) [
    (* 124 *) Return [Call "GeneratePrivateKey" [Var "network"]] ] [];
  (* 126 *) Define ["privateKey"; "err"] (Call "PrivateFromHex" [Var "hexa"; Var "network"]);
  (* 127 *) If (Bin OpNe (Var "err") Nil) [
    (* 128 *) Return [Call "GeneratePrivateKey" [Var "network"]] ] [];
  (* 130 *) Assign [Field (Var "privateKey") "Key"] (Var "key");
  (* 132 *) Return [Var "privateKey"] ].

(** private_key.go:136-154 *)
Definition src_AddPrivateKeys : func := Func "AddPrivateKeys" ["p1"; "p2"] [
  (* 138 *) If (Not (Call "reflect.DeepEqual" [Field (Var "p1") "Network"; Field (Var "p2") "Network"])) [
    (* 139 *) Return [Nil; Call "errors.New" [Str "different network"]] ] [];
  (* 142 *) If (Bin OpEq (Call "strings.ToLower" [Field (Var "p1") "WIF"]) (Call "strings.ToLower" [Field (Var "p2") "WIF"])) [
    (* 143 *) Return [Nil; Call "errors.New" [Str "private keys are identical"]] ] [];
  (* 146 *) Define ["pKey"] (New "big.Int");
  (* 147 *) Assign [Var "pKey"] (Method (Var "pKey") "Add" [Field (Var "p1") "Key"; Field (Var "p2") "Key"]);
  (* 148 *) Assign [Var "pKey"] (Method (Var "pKey") "Mod" [Var "pKey"; Field (Var "secp256k1") "N"]);
  (* 150 *) Define ["hexa"] (Call "bigIntToHex" [Var "pKey"]);
  (* 152 *) Define ["privateKey"; "err"] (Call "PrivateFromHex" [Var "hexa"; Field (Var "p1") "Network"]);
  (* 153 *) Return [Var "privateKey"; Var "err"] ].

(** private_key.go:157-175 *)
Definition src_MultiplyPrivateKeys : func := Func "MultiplyPrivateKeys" ["p1"; "p2"] [
  (* 159 *) If (Not (Call "reflect.DeepEqual" [Field (Var "p1") "Network"; Field (Var "p2") "Network"])) [
    (* 160 *) Return [Nil; Call "errors.New" [Str "different network"]] ] [];
  (* 163 *) If (Bin OpEq (Call "strings.ToLower" [Field (Var "p1") "WIF"]) (Call "strings.ToLower" [Field (Var "p2") "WIF"])) [
    (* 164 *) Return [Nil; Call "errors.New" [Str "private keys are identical"]] ] [];
  (* 167 *) Define ["pKey"] (New "big.Int");
  (* 168 *) Assign [Var "pKey"] (Method (Var "pKey") "Mul" [Field (Var "p1") "Key"; Field (Var "p2") "Key"]);
  (* 169 *) Assign [Var "pKey"] (Method (Var "pKey") "Mod" [Var "pKey"; Field (Var "secp256k1") "N"]);
  (* 171 *) Define ["hexa"] (Call "bigIntToHex" [Var "pKey"]);
  (* 173 *) Define ["privateKey"; "err"] (Call "PrivateFromHex" [Var "hexa"; Field (Var "p1") "Network"]);
  (* 174 *) Return [Var "privateKey"; Var "err"] ].

(** ** public_key.go *)

(** public_key.go:17-57 *)
Definition src_PublicFromHex : func := Func "PublicFromHex" ["hexa"; "network"] [
  (* 18 *) VarDecl "publicKey" "PublicKey";
  (* 19 *) Assign [Field (Var "publicKey") "Network"] (Var "network");
  (* 21 *) Define ["prefix"] (Slice (Var "hexa") (Int 0) (Int 2));
  (* 23 *) If (Bin OpEq (Var "prefix") (Str "04")) [
    (* 25 *) Define ["x"] (Slice (Var "hexa") (Int 2) (Int 66));
    (* 26 *) Define ["y"] (Slice (Var "hexa") (Int 66) (Int 130));
    (* 27 *) Assign [Field (Var "publicKey") "X"; Var "_"] (Method (New "big.Int") "SetString" [Var "x"; Int 16]);
    (* 28 *) Assign [Field (Var "publicKey") "Y"; Var "_"] (Method (New "big.Int") "SetString" [Var "y"; Int 16]) ] [
    (* 30 *) If (Bin OpOr (Bin OpEq (Var "prefix") (Str "03")) (Bin OpEq (Var "prefix") (Str "02"))) [
      (* 31 *) Define ["x"] (Slice (Var "hexa") (Int 2) (Int 66));
      (* 32 *) Assign [Field (Var "publicKey") "X"; Var "_"] (Method (New "big.Int") "SetString" [Var "x"; Int 16]);
      (* 34 *) Define ["y"; "onCurve"] (Method (Var "secp256k1") "GetY" [Field (Var "publicKey") "X"]);
      (* 35 *) If (Not (Var "onCurve")) [
        (* 36 *) Return [Nil; Call "errors.New" [Str "point is not on secp256k1 curve"]] ] [];
      (* 39 *) Define ["parity"] (New "big.Int");
      (* 40 *) If (Bin OpEq (Var "prefix") (Str "02")) [
        (* 41 *) Do (Method (Var "parity") "SetInt64" [Int 0]) ] [
        (* 43 *) Do (Method (Var "parity") "SetInt64" [Int 1]) ];
      (* 47 *) Define ["yMod"] (Method (New "big.Int") "Set" [Var "y"]);
      (* 48 *) If (Bin OpNe (Method (Method (Var "yMod") "Mod" [Var "y"; Call "big.NewInt" [Int 2]]) "Cmp" [Var "parity"]) (Int 0)) [
        (* 49 *) Assign [Var "y"] (Method (Var "secp256k1") "MultMod" [Var "y"; Call "big.NewInt" [Int (-1)]]) ] [];
      (* 52 *) Assign [Field (Var "publicKey") "Y"] (Var "y") ] [
      (* 54 *) Return [Nil; Call "errors.New" [Str "unsupported public key format"]] ] ];
  (* 56 *) Return [Addr (Var "publicKey"); Nil] ].

(** public_key.go:60-73 *)
Definition src_PrivateKey_GetPublicKey : func := Func "PrivateKey.GetPublicKey" ["p"] [
  (* 61 *) VarDecl "publicKey" "PublicKey";
  (* 63 *) Define ["R"; "valid"] (Method (Var "secp256k1") "ScalarMult" [Field (Var "p") "Key"; Field (Var "secp256k1") "G"]);
  (* 64 *) If (Not (Var "valid")) [
    (* 65 *) Return [Nil; Var "false"] ] [];
  (* 67 *) Assign [Field (Var "publicKey") "X"] (Field (Var "R") "X");
  (* 68 *) Assign [Field (Var "publicKey") "Y"] (Field (Var "R") "Y");
  (* 70 *) Assign [Field (Var "publicKey") "Network"] (Field (Var "p") "Network");
  (* 72 *) Return [Addr (Var "publicKey"); Var "true"] ].

(** public_key.go:76-105 *)
Definition src_PublicKey_Format : func := Func "PublicKey.Format" ["p"; "compressed"] [
  (* 77 *) Define ["key"] (Str "");
  (* 80 *) Define ["pXHex"] (Call "bigIntToHex" [Field (Var "p") "X"]);
  (* 81 *) Define ["pYHex"] (Call "bigIntToHex" [Field (Var "p") "Y"]);
  (* 84 *) For [] (Bin OpLt (Call "len" [Var "pXHex"]) (Int 64)) [] [
    (* 85 *) Assign [Var "pXHex"] (Bin OpAdd (Str "0") (Var "pXHex")) ];
  (* 87 *) For [] (Bin OpLt (Call "len" [Var "pYHex"]) (Int 64)) [] [
    (* 88 *) Assign [Var "pYHex"] (Bin OpAdd (Str "0") (Var "pYHex")) ];
  (* 91 *) If (Not (Var "compressed")) [
    (* 92 *) AddAssign (Var "key") (Str "04");
    (* 94 *) AddAssign (Var "key") (Var "pXHex");
    (* 95 *) AddAssign (Var "key") (Var "pYHex") ] [
    (* 97 *) If (Bin OpEq (Method (Field (Var "p") "Y") "Bit" [Int 0]) (Int 0)) [
      (* 98 *) AddAssign (Var "key") (Str "02") ] [
      (* 100 *) AddAssign (Var "key") (Str "03") ];
    (* 102 *) AddAssign (Var "key") (Var "pXHex") ];
  (* 104 *) Return [Var "key"] ].

(** public_key.go:108-165 *)
Definition src_PublicKey_Address : func := Func "PublicKey.Address" ["p"; "compressed"] [
  (* 109 *) Define ["hexa"] (Method (Var "p") "Format" [Var "compressed"]);
  (* 110 *) Define ["bytes"; "err"] (Call "hex.DecodeString" [Var "hexa"]);
  (* 111 *) If (Bin OpNe (Var "err") Nil) [
    (* 112 *) Return [Str ""; Var "err"] ] [];
  (* 116 *) Define ["sha"] (Call "sha256.New" []);
  (* 117 *) Do (Method (Var "sha") "Write" [Var "bytes"]);
  (* 119 *) Define ["hash"] (Method (Var "sha") "Sum" [Nil]);
  (* 122 *) Define ["ripemd"] (Call "ripemd160.New" []);
  (* 123 *) Do (Method (Var "ripemd") "Write" [Var "hash"]);
  (* 125 *) Define ["ripemdHash"] (Method (Var "ripemd") "Sum" [Nil]);
  (* 128 *) Assign [Var "hexa"] (Call "hex.EncodeToString" [Var "ripemdHash"]);
  (* 130 *) Define ["extendedRipemd"] (Bin OpAdd (Field (Field (Var "p") "Network") "PubKeyHashPrefix") (Var "hexa"));
  (* 133 *) Assign [Var "bytes"; Var "err"] (Call "hex.DecodeString" [Var "extendedRipemd"]);
  (* 134 *) If (Bin OpNe (Var "err") Nil) [
    (* 135 *) Return [Str ""; Var "err"] ] [];
  (* 137 *) Assign [Var "sha"] (Call "sha256.New" []);
  (* 138 *) Do (Method (Var "sha") "Write" [Var "bytes"]);
  (* 140 *) Assign [Var "hash"] (Method (Var "sha") "Sum" [Nil]);
  (* 143 *) Assign [Var "sha"] (Call "sha256.New" []);
  (* 144 *) Do (Method (Var "sha") "Write" [Var "hash"]);
  (* 146 *) Assign [Var "hash"] (Method (Var "sha") "Sum" [Nil]);
  (* 149 *) Assign [Var "hexa"] (Call "hex.EncodeToString" [Var "hash"]);
  (* 152 *) Define ["checksum"] (Slice (Var "hexa") (Int 0) (Int 8));
  (* 155 *) AddAssign (Var "extendedRipemd") (Var "checksum");
  (* 158 *) Define ["extendedRipeMd"; "err"] (Call "hex.DecodeString" [Var "extendedRipemd"]);
  (* 159 *) If (Bin OpNe (Var "err") Nil) [
    (* 160 *) Return [Str ""; Var "err"] ] [];
  (* 164 *) Return [Call "base58.Encode" [Var "extendedRipeMd"]; Nil] ].

(** public_key.go:168-194 *)
Definition src_AddPublicKeys : func := Func "AddPublicKeys" ["p1"; "p2"; "compressed"] [
  (* 170 *) If (Not (Call "reflect.DeepEqual" [Field (Var "p1") "Network"; Field (Var "p2") "Network"])) [
    (* 171 *) Return [Nil; Call "errors.New" [Str "different network"]] ] [];
  (* 174 *) Define ["point1"] (Lit "ecdsa.Point" [("X", Field (Var "p1") "X"); ("Y", Field (Var "p1") "Y")]);
  (* 178 *) Define ["point2"] (Lit "ecdsa.Point" [("X", Field (Var "p2") "X"); ("Y", Field (Var "p2") "Y")]);
  (* 183 *) Define ["r"; "onCurve"] (Method (Var "secp256k1") "AddPoints" [Var "point1"; Var "point2"]);
  (* 184 *) If (Not (Var "onCurve")) [
    (* 185 *) Return [Nil; Call "errors.New" [Str "point is not on curve"]] ] [];
  (* 187 *) Define ["publicKey"] (Lit "PublicKey" [("X", Field (Var "r") "X"); ("Y", Field (Var "r") "Y"); ("Network", Field (Var "p1") "Network")]);
  (* 193 *) Return [Addr (Var "publicKey"); Nil] ].

(** ** mnemonic.go *)

(** mnemonic.go:15-74 *)
Definition src_NewSeedFromMnemonic : func := Func "NewSeedFromMnemonic" ["mnemonic"; "passphrase"; "wordlist"] [
  (* 16 *) Define ["words"] (Call "strings.Split" [Var "mnemonic"; Str " "]);
  (* 17 *) Define ["binary"] (Str "");
  (* 18 *) Range "_" "word" (Var "words") [
    (* 19 *) Define ["index"] (Int (-1));
    (* 20 *) Range "i" "_" (Var "wordlist") [
      (* 21 *) If (Bin OpEq (Var "word") (Index (Var "wordlist") (Var "i"))) [
        (* 22 *) Assign [Var "index"] (Var "i");
        (* 23 *) Break ] [] ];
    (* 26 *) If (Bin OpLt (Var "index") (Int 0)) [
      (* 27 *) Return [Nil; Call "errors.New" [Str "invalid mnemonic"]] ] [];
    (* 30 *) Define ["indexBinary"] (Call "fmt.Sprintf" [Str "%b"; Var "index"]);
    (* 31 *) For [] (Bin OpLt (Call "len" [Var "indexBinary"]) (Int 11)) [] [
      (* 32 *) Assign [Var "indexBinary"] (Bin OpAdd (Str "0") (Var "indexBinary")) ];
    (* 35 *) AddAssign (Var "binary") (Var "indexBinary") ];
  (* 38 *) Define ["hash"] (Str "");
  (* 39 *) For [(* 39 *) Define ["i"] (Int 0)] (Bin OpLt (Var "i") (Call "len" [Var "binary"])) [(* 39 *) AddAssign (Var "i") (Int 4)] [
    (* 40 *) Define ["n"] (Str "");
    (* 41 *) For [(* 41 *) Define ["j"] (Var "i")] (Bin OpLt (Bin OpSub (Var "j") (Var "i")) (Int 4)) [(* 41 *) AddAssign (Var "j") (Int 1)] [
      (* 42 *) AddAssign (Var "n") (Call "string" [Index (Var "binary") (Var "j")]) ];
    (* 44 *) Do (Call "log.Println" [Var "n"]);
    (* 45 *) Define ["nInt"; "_"] (Method (New "big.Int") "SetString" [Var "n"; Int 2]);
    (* 46 *) Define ["hexa"] (Call "bigIntToHex" [Var "nInt"]);
    (* 47 *) AddAssign (Var "hash") (Var "hexa") ];
  (* 50 *) Define ["checksum"] (Slice (Var "hash") (Bin OpSub (Call "len" [Var "hash"]) (Int 2)) (Call "len" [Var "hash"]));
  (* 52 *) Define ["sha"] (Call "sha256.New" []);
  (* 53 *) Define ["decoded"; "err"] (Call "hex.DecodeString" [Slice (Var "hash") (Int 0) (Bin OpSub (Call "len" [Var "hash"]) (Int 2))]);
  (* 54 *) If (Bin OpNe (Var "err") Nil) [
    (* 55 *) Return [Nil; Var "err"] ] [];
  (* 57 *) Do (Method (Var "sha") "Write" [Var "decoded"]);
  (* 58 *) Define ["shaHash"] (Method (Var "sha") "Sum" [Nil]);
  (* 60 *) Define ["shaHashBig"] (Method (New "big.Int") "SetBytes" [Var "shaHash"]);
  (* 61 *) Define ["shaHashHex"] (Call "bigIntToHex" [Var "shaHashBig"]);
  (* 63 *) For [] (Bin OpLt (Call "len" [Var "shaHashHex"]) (Int 64)) [] [
    (* 64 *) Assign [Var "shaHashHex"] (Bin OpAdd (Str "0") (Var "shaHashHex")) ];
  (* 67 *) If (Bin OpNe (Slice (Var "shaHashHex") (Int 0) (Int 2)) (Var "checksum")) [
    (* 68 *) Return [Nil; Call "errors.New" [Str "invalid checksum"]] ] [];
  (* 71 *) Do (Call "log.Println" [Var "shaHashHex"; Call "len" [Var "shaHashHex"]]);
  (* 72 *) Do (Call "log.Println" [Var "hash"; Var "checksum"]);
  (* 73 *) Return [Nil; Nil] ].

(** mnemonic.go:77-147 *)
Definition src_NewMnemonic : func := Func "NewMnemonic" ["words"; "wordlist"] [
  (* 79 *) If (Bin OpEq (Var "wordlist") Nil) [
    (* 80 *) Return [Str ""; Call "errors.New" [Str "invalid wordlist"]] ] [];
  (* 83 *) VarDecl "entropyLength" "int";
  (* 84 *) Switch (Var "words") [
    (Int 12, [
      (* 86 *) Assign [Var "entropyLength"] (Int 128);
      (* 87 *) Break ]);
    (Int 15, [
      (* 89 *) Assign [Var "entropyLength"] (Int 160);
      (* 90 *) Break ]);
    (Int 18, [
      (* 92 *) Assign [Var "entropyLength"] (Int 192);
      (* 93 *) Break ]);
    (Int 21, [
      (* 95 *) Assign [Var "entropyLength"] (Int 224);
      (* 96 *) Break ]);
    (Int 24, [
      (* 98 *) Assign [Var "entropyLength"] (Int 256);
      (* 99 *) Break ]) ] [
    (* 101 *) Return [Str ""; Call "errors.New" [Str "unsupported mnemonic length"]] ];
  (* 105 *) Define ["np256"] (Call "big.NewInt" [Int 2]);
  (* 106 *) Do (Method (Var "np256") "Exp" [Var "np256"; Call "big.NewInt" [Call "int64" [Var "entropyLength"]]; Nil]);
  (* 107 *) Define ["entropy"; "err"] (Call "rand.Int" [Var "rand.Reader"; Var "np256"]);
  (* 108 *) If (Bin OpNe (Var "err") Nil) [
    (* 109 *) Return [Str ""; Var "err"] ] [];
  (* 112 *) Define ["sha"] (Call "sha256.New" []);
  (* 113 *) Do (Method (Var "sha") "Write" [Method (Var "entropy") "Bytes" []]);
  (* 114 *) Define ["hash"] (Method (Var "sha") "Sum" [Nil]);
  (* 116 *) Define ["checksumLength"] (Bin OpDiv (Var "entropyLength") (Int 32));
  (* 118 *) Define ["hashInt"] (Method (New "big.Int") "SetBytes" [Var "hash"]);
  (* 120 *) Define ["hashBinary"] (Call "fmt.Sprintf" [Str "%b"; Var "hashInt"]);
  (* 121 *) Define ["checksumBinary"] (Slice (Var "hashBinary") (Int 0) (Var "checksumLength"));
  (* 123 *) Define ["b"] (Call "fmt.Sprintf" [Str "%b"; Var "entropy"]);
  (* 125 *) For [] (Bin OpLt (Call "len" [Var "b"]) (Var "entropyLength")) [] [
    (* 126 *) Assign [Var "b"] (Bin OpAdd (Str "0") (Var "b")) ];
  (* 129 *) Assign [Var "b"] (Bin OpAdd (Var "b") (Var "checksumBinary"));
  (* 130 *) Define ["binary"; "_"] (Method (New "big.Int") "SetString" [Var "b"; Int 2]);
  (* 132 *) VarDecl "phrase" "[]string";
  (* 133 *) For [(* 133 *) Define ["i"] (Int 0)] (Bin OpLt (Var "i") (Call "len" [Var "b"])) [(* 133 *) AddAssign (Var "i") (Int 11)] [
    (* 134 *) Define ["str"] (Str "");
    (* 135 *) For [(* 135 *) Define ["j"] (Var "i")] (Bin OpLt (Bin OpSub (Var "j") (Var "i")) (Int 11)) [(* 135 *) AddAssign (Var "j") (Int 1)] [
      (* 136 *) If (Bin OpEq (Method (Var "binary") "Bit" [Var "j"]) (Int 0)) [
        (* 137 *) AddAssign (Var "str") (Str "0") ] [
        (* 139 *) AddAssign (Var "str") (Str "1") ] ];
    (* 142 *) Define ["n"; "_"] (Method (New "big.Int") "SetString" [Var "str"; Int 2]);
    (* 143 *) Assign [Var "phrase"] (Call "append" [Var "phrase"; Index (Var "wordlist") (Method (Var "n") "Int64" [])]) ];
  (* 146 *) Return [Call "strings.Join" [Var "phrase"; Str " "]; Nil] ].

(** ** The package *)

Definition source_types : list (string * list (string * string)) := [("Network", type_Network); ("PrivateKey", type_PrivateKey); ("PublicKey", type_PublicKey)].
Definition source_vars : list (string * string) := [var_secp256k1; var_MainNetwork; var_TestNetwork].
Definition source_funcs : list func :=
  [src_init; src_generateRandomBigInt; src_bigIntToHex; src_CheckWIF; src_PrivateFromWIF; src_PrivateFromHex; src_GeneratePrivateKey; src_AddPrivateKeys; src_MultiplyPrivateKeys; src_PublicFromHex; src_PrivateKey_GetPublicKey; src_PublicKey_Format; src_PublicKey_Address; src_AddPublicKeys; src_NewSeedFromMnemonic; src_NewMnemonic].
