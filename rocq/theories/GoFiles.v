(** * The files of the package as trees, with their imports and types

    Generated from /repo by tools/go2coq.py; do not edit. The bodies of the functions
    are those of [GoSource.v]. *)

From Coq Require Import String List.
Import ListNotations.
From Verif Require Import GoSyntax GoSource GoText WordsText GoPrint.
From Verif Require Import WordsEnglish WordsFrench WordsJapanese WordsItalian WordsSpanish WordsKorean
  WordsCzech WordsChineseTraditional WordsChineseSimplified.
Local Open Scope string_scope.

(** struct.go *)
Definition file_struct_go : go_file := GoFile "btc"
  ["math/big"]
  [DStruct "Network" [("PrivKeyPrefix", "string"); ("PubKeyHashPrefix", "string")];
   DStruct "PrivateKey" [("Key", "*big.Int"); ("Hex", "string"); ("WIF", "string"); ("Network", "*Network")];
   DStruct "PublicKey" [("X", "*big.Int"); ("Y", "*big.Int"); ("Network", "*Network")]].

(** btc.go *)
Definition file_btc_go : go_file := GoFile "btc"
  ["math/big"; "github.com/aureleoules/ecdsa"]
  [DVar "secp256k1" "ecdsa.Curve";
   DVar "MainNetwork" "*Network";
   DVar "TestNetwork" "*Network";
   DFunc None "init" [] [] (f_body src_init)].

(** util.go *)
Definition file_util_go : go_file := GoFile "btc"
  ["crypto/rand"; "fmt"; "math/big"]
  [DFunc None "generateRandomBigInt" [] ["*big.Int"] (f_body src_generateRandomBigInt);
   DFunc None "bigIntToHex" [("n", "*big.Int")] ["string"] (f_body src_bigIntToHex)].

(** private_key.go *)
Definition file_private_key_go : go_file := GoFile "btc"
  ["crypto/sha256"; "encoding/hex"; "errors"; "math/big"; "reflect"; "strings"; "github.com/mr-tron/base58"]
  [DFunc None "CheckWIF" [("wif", "string")] ["bool"] (f_body src_CheckWIF);
   DFunc None "PrivateFromWIF" [("wif", "string"); ("network", "*Network")] ["*PrivateKey"; "error"] (f_body src_PrivateFromWIF);
   DFunc None "PrivateFromHex" [("hexa", "string"); ("network", "*Network")] ["*PrivateKey"; "error"] (f_body src_PrivateFromHex);
   DFunc None "GeneratePrivateKey" [("network", "*Network")] ["*PrivateKey"] (f_body src_GeneratePrivateKey);
   DFunc None "AddPrivateKeys" [("p1", "*PrivateKey"); ("p2", "*PrivateKey")] ["*PrivateKey"; "error"] (f_body src_AddPrivateKeys);
   DFunc None "MultiplyPrivateKeys" [("p1", "*PrivateKey"); ("p2", "*PrivateKey")] ["*PrivateKey"; "error"] (f_body src_MultiplyPrivateKeys)].

(** public_key.go *)
Definition file_public_key_go : go_file := GoFile "btc"
  ["crypto/sha256"; "encoding/hex"; "errors"; "math/big"; "reflect"; "github.com/aureleoules/ecdsa"; "golang.org/x/crypto/ripemd160"; "github.com/mr-tron/base58"]
  [DFunc None "PublicFromHex" [("hexa", "string"); ("network", "*Network")] ["*PublicKey"; "error"] (f_body src_PublicFromHex);
   DFunc (Some ("p", "*PrivateKey")) "GetPublicKey" [] ["*PublicKey"; "bool"] (f_body src_PrivateKey_GetPublicKey);
   DFunc (Some ("p", "*PublicKey")) "Format" [("compressed", "bool")] ["string"] (f_body src_PublicKey_Format);
   DFunc (Some ("p", "*PublicKey")) "Address" [("compressed", "bool")] ["string"; "error"] (f_body src_PublicKey_Address);
   DFunc None "AddPublicKeys" [("p1", "*PublicKey"); ("p2", "*PublicKey"); ("compressed", "bool")] ["*PublicKey"; "error"] (f_body src_AddPublicKeys)].

(** mnemonic.go *)
Definition file_mnemonic_go : go_file := GoFile "btc"
  ["crypto/rand"; "crypto/sha256"; "encoding/hex"; "errors"; "fmt"; "log"; "math/big"; "strings"]
  [DFunc None "NewSeedFromMnemonic" [("mnemonic", "string"); ("passphrase", "string"); ("wordlist", "Wordlist")] ["[]byte"; "error"] (f_body src_NewSeedFromMnemonic);
   DFunc None "NewMnemonic" [("words", "int"); ("wordlist", "Wordlist")] ["string"; "error"] (f_body src_NewMnemonic)].

(** wordlists.go; the lists are those of Words*.v *)
Definition file_wordlists_go : go_file := GoFile "btc" []
  [DType "Wordlist" "[]string";
   DList "EnglishWordlist" "Wordlist" (map string_of_list_byte EnglishWordlist);
   DList "FrenchWordlist" "Wordlist" (map string_of_list_byte FrenchWordlist);
   DList "JapaneseWordlist" "Wordlist" (map string_of_list_byte JapaneseWordlist);
   DList "ItalianWordlist" "Wordlist" (map string_of_list_byte ItalianWordlist);
   DList "SpanishWordlist" "Wordlist" (map string_of_list_byte SpanishWordlist);
   DList "KoreanWordlist" "Wordlist" (map string_of_list_byte KoreanWordlist);
   DList "CzechWordlist" "Wordlist" (map string_of_list_byte CzechWordlist);
   DList "ChineseTraditionalWordlist" "Wordlist" (map string_of_list_byte ChineseTraditionalWordlist);
   DList "ChineseSimplifiedWordlist" "Wordlist" (map string_of_list_byte ChineseSimplifiedWordlist)].

(** ** The package: its texts and its files *)

Definition source_texts : list string :=
  [text_struct_go; text_btc_go; text_util_go; text_private_key_go; text_public_key_go; text_mnemonic_go; text_wordlists_go].
Definition source_files : list go_file :=
  [file_struct_go; file_btc_go; file_util_go; file_private_key_go; file_public_key_go; file_mnemonic_go; file_wordlists_go].
