# Formal model of aureleoules/btc in Rocq (Coq 8.16.1)

`properties.jsonl` lists the properties, `MANIFEST.json` the theorems proved for each. Build: `cd rocq && coq_makefile -f
_CoqProject -o Makefile && make -j4` (about 15 minutes on 4 cores; no file needs more than 3 GB).

## What is modelled

All of the package's own code: `struct.go`, `btc.go`, `util.go`, `private_key.go`, `public_key.go`,
`mnemonic.go` and the nine lists of `wordlists.go`. Of the `_test.go` files only the two tests that draw random numbers are modelled
(C103), and the tables are run as tests (`RepoTests.v`). Not modelled: the README.

Several models of the same code, from the most abstract to the most literal:

| file | the code as | used by |
|---|---|---|
| `Model.v` | functions from values to values, one per Go function; a pointer is what it points to, a loop is a recursion | most properties |
| `ModelPtr.v` | the calls that take key pointers, nil allowed | C63 |
| `ModelLower.v` | the two calls that lower-case, for any lower-casing function | C74 |
| `ModelTests.v` | the repository's two tests that draw random numbers, for any number of rounds | C103 |
| `ModelStream.v` | generation on endless random sources; retries are unbounded | C81 |
| `Imp.v`, `ImpModel.v` | the functions with loops, statement by statement, in a small Go-like language; loops may diverge | C80 |
| `GoSyntax.v`, `GoSource.v`, `GoSem.v` | the Go text itself as syntax trees, written by the parser `tools/go2coq.py`, and an interpreter with a heap | C94, C95, C96, C101, C105, C107 |
| `GoText.v`, `WordsText.v`, `GoFiles.v` | the seven files of the package, character for character, and as trees | C102 |
| `GoTree.v` | the same interpreter one heap access at a time, so that goroutines can interleave | C97-C100, C106 |
| `Heap.v`, `HeapSem.v` | programs over a heap of objects, each allocation, read, write, random read and log line one step; interleavings | C51-C53, C56-C59 |

The models are tied together: `SourceAll.v` proves that the text of the source computes what `Model.v` says, `GoTreeSim.v` that
`GoTree.v` and `GoSem.v` run it alike, `HeapFacts.v`, `HeapRand.v` and `HeapCalls.v` prove that each heap program computes what
`Model.v` says, `ImpFacts.v` that the statements do, `StreamFacts.v` that the finite and endless sources agree,
`PtrFacts.v` and `TextFacts.v` that `ModelPtr.v` and `ModelLower.v` agree with `Model.v` where they overlap.

Support of the models:

| file | content |
|---|---|
| `GoBase.v` | outcomes (return / panic), error values, Go strings as byte lists, slicing, `strings.Split/Join/ToLower` |
| `GoNum.v` | `encoding/hex`, `math/big` (`SetString`, `%x`, `%b`, `Bytes`, `SetBytes`, `Bit`, `Mod`) |
| `GoRand.v` | `crypto/rand.Int` over a finite source |
| `Sha256.v`, `Ripemd160.v`, `Base58.v` | the hash functions and Base58, executable |
| `EcRef.v`, `FastLib.v` | two implementations of the `ecdsa` dependency's interface (affine; fast enough to run) |
| `Words*.v` | the literal word lists, transcribed from `wordlists.go` by `tools/wordlists.py` |
| `RepoTests.v` | the repository's test tables and published test vectors run through the model (tests, not proofs) |

Specifications, to be read beside the property theorems; they mention nothing of the models but their data types:

| file | content |
|---|---|
| `Spec.v` | hex and Base58 texts, Base58Check, byte strings as numbers, first good block, BIP-39 bits and words |
| `CurveSpec.v` | the curve, textbook addition of points, multiples |
| `EcdsaContract.v` | what the package relies on in the `ecdsa` dependency |
| `SpecApi.v` | the keys the package can hand out: results of the five calls that return one |
| `SpecHash.v` | SHA-256 and RIPEMD-160 after FIPS 180-4 and the RIPEMD-160 paper, as relations on integers |
| `SpecSession.v` | programs of calls that feed earlier answers into later calls, and the meaning of every answer in numbers |
| `SpecSource.v` | how Go values on a heap stand for values of the model; what it means that a call answers |
| `SpecRun.v` | running the programs of `SpecSession.v` on the Go source: the calls made, the values held |
| `SpecGo.v` | a call of the Go source seen from outside: what it returns, refuses, crashes on |
| `SpecConc.v`, `SpecCrew.v` | goroutines on the Go source: the scheduler, the calls of the API, programs of calls |
| `SpecMachine.v` | goroutines on one memory, allocator, random reader and screen; data races |
| `SpecInts.v` | ints of a given number of bits; two's complement |
| `SpecRunInts.v` | how long a private key may be that is typed in on such a machine |
| `SpecShare.v` | what a key made by a call consists of: which objects are new, which is the caller's |
| `SpecHistory.v` | programs that hold values, overwrite what they can reach, call the package and recover from panics |
| `SpecTests.v` | random sources that suffice for the tests |
| `SpecLibs.v` | two libraries that meet the contract and differ wherever it says nothing |
| `SpecMore.v`, `SpecText.v`, `SpecStream.v` | counting, sequences of calls, alphabets and languages, endless sources |

Property theorems (nothing else in these files but `Example`s that their hypotheses can be met and `Print Assumptions`):
`PropertiesPrivate.v`, `PropertiesPublic.v`, `PropertiesCurve.v`, `PropertiesMnemonic.v`, `PropertiesHeap.v`,
`PropertiesMore.v`, `PropertiesCount.v`, `PropertiesText.v`, `PropertiesLoops.v`, `PropertiesStream.v`,
`PropertiesAlgebra.v`, `PropertiesDepend.v`, `PropertiesHash.v`, `PropertiesSession.v`, `PropertiesSource.v`, `PropertiesRun.v`, `PropertiesGo.v`,
`PropertiesConc.v`, `PropertiesMachine.v`, `PropertiesInts.v`, `PropertiesFiles.v`, `PropertiesTests.v`, `PropertiesLibs.v`, `PropertiesRunInts.v`,
`PropertiesConcInts.v`, `PropertiesShare.v`.
All other files are lemmas. A theorem named `..._refuted` proves that a statement one might expect is false of the code.

## Conventions and simplifications

* Go `string` and `[]byte` are `list byte`. `*big.Int` is `option Z` (`None` = nil). `*Network` is `option network`.
  A nil and an empty `[]byte` are the same; the package never tells them apart.
* A function that can panic returns `outcome`; `(T, error)` is `result T`, the error value by its origin, not its text.
  `hexa[a:b]` is `slice`, which panics out of range. Integers of type `int` do not overflow
  (all are lengths or indices); C101 proves that this changes nothing.
* The random source is a byte list; reading past its end is the reader's error. A statement for every list
  is a statement for every finite prefix of every stream; `ModelStream.v` has the streams themselves.
* `strings.ToLower` is modelled for ASCII; C74 proves that the results of the package do not depend on this.
* A log line is its text without the time stamp.
* `fuel` arguments only make Coq accept a recursion; `GenFacts.v` proves that the supplied fuel never runs out.
* `S256.H` (the cofactor, never read) is left out.
* Memory exhaustion, stack overflow and the time a call takes are not modelled. C81 shows that nested calls are unbounded,
  C80 bounds the loop iterations.
* `Heap.v`: strings, byte slices and hashes are not objects; reading a struct or a list is one step.

## Plan per property

* **C01** Every exported WIF validates: base58 decode∘encode = id, hex decode∘encode = id; direct computation through CheckWIF.
* **C02** hex -> WIF -> hex round trip: same lemmas plus SetString on the lower-cased hex.
* **C03** WIF -> hex -> WIF round trip: base58 encode∘decode = id on valid strings.
* **C04** WIF is Base58Check of version byte and key bytes: unfold; spec `base58check` in Spec.v.
* **C05** WIFs are unambiguous: injectivity of base58 and of concatenation with the checksum.
* **C06** CheckWIF accepts exactly the Base58Check strings: both directions from base58/hex bijectivity.
* **C07** CheckWIF panics exactly on strings that decode to fewer than four bytes: case analysis on decoded length; witness by vm_compute.
* **C08** PrivateFromHex accepts exactly even-length hex and never panics: characterise hex.DecodeString acceptance.
* **C09** PrivateFromHex does not validate the key range: constructive witness (even-padded %x).
* **C10** PrivateFromWIF result is fully determined by the payload: as C06.
* **C11** PrivateFromWIF panics exactly on too-short payloads: as C07.
* **C12** Compressed-format WIFs are imported as a different key: value of K++[01].
* **C13** Generated keys are well formed and in range: induction on the random stream.
* **C14** Generated WIFs have 51 characters and start with 5 (main) or 9 (test): interval arithmetic on the 37-byte number: digits count and leading digit base 58.
* **C15** Key generation reaches exactly the keys in [2^252, N-2] and favours none: induction on the stream; exact characterisation as `first block in range`.
* **C16** GeneratePrivateKey never returns for an unusable network prefix: induction on the stream.
* **C17** AddPrivateKeys adds modulo the group order: unfold + %x/SetString round trip.
* **C18** MultiplyPrivateKeys multiplies modulo the group order: as C17.
* **C19** Combining private keys is commutative: symmetry of each check.
* **C20** Combining private keys is associative and distributive where defined: Z.mod algebra.
* **C21** Exact failure set of AddPrivateKeys and MultiplyPrivateKeys: parity of the length of %x.
* **C22** Combined keys keep the 32-byte WIF format only when the result has 64 hex digits: digit-count of %x vs. value; WIF length by the interval lemma.
* **C23** The identical-keys check confuses different keys: witness pair found by search, checked by vm_compute.
* **C24** GetPublicKey gives a curve point for every valid key: group law over F_p + primality + order of G.
* **C25** Distinct private keys have distinct public keys: order of G is exactly N.
* **C26** Adding public keys matches adding private keys: scalar multiplication is a homomorphism (associativity of the curve addition).
* **C27** Multiplying private keys matches scalar multiplication of the public key: scalar multiplication composes.
* **C28** Format emits SEC1 hex: length/value of padded %x.
* **C29** Format is injective on valid keys: injectivity of padded hex, y² determines ±y, parity.
* **C30** Uncompressed public keys round-trip: hex round trip.
* **C31** Compressed public keys round-trip: contract of GetY/MultMod, parity of P-y; reference implementation satisfies the contract (p ≡ 3 mod 4).
* **C32** Compressed import rejects exactly the x without a curve point, uncompressed import checks nothing: Euler criterion for the reference implementation; contract otherwise.
* **C33** PublicFromHex: exact panic, error and success sets by length and prefix: case analysis on length.
* **C34** Address is Base58Check of version and HASH160: unfold, hex/base58 round trips.
* **C35** Address shape on the standard networks: interval arithmetic base 58.
* **C36** Address failure set: acceptance of hex.DecodeString.
* **C37** Addresses agree across import and derivation paths: C30, C31.
* **C38** AddPublicKeys is commutative, associative and closed: curve group law.
* **C39** NewMnemonic returns exactly the requested number of list words: bit-list lemmas.
* **C40** NewMnemonic loses no entropy: injectivity of bit lists and index lookup.
* **C41** NewMnemonic emits the BIP-39 bit string reversed: bit-list lemmas, `rev`.
* **C42** Checksum bits ignore leading zeros: %b drops leading zeros.
* **C43** NewMnemonic panics exactly when the list is too short or the hash is tiny: case analysis.
* **C44** NewSeedFromMnemonic never returns a seed: unfold.
* **C45** NewSeedFromMnemonic accepts exactly the 8-bit-checksum phrases: bit/nibble/byte regrouping lemmas.
* **C46** NewSeedFromMnemonic by word count: which lengths panic or always fail: length mod 4 / mod 8.
* **C47** Generated mnemonics are not accepted back: C41+C46; witness by vm_compute.
* **C48** NewSeedFromMnemonic writes the secret to the log: log trace is part of the model's result.
* **C49** Every built-in word list has 2048 distinct non-empty space-free words: vm_compute over the literal lists (finite domain, complete).
* **C50** Random number range and source failure: induction on the stream.
* **C51** Calls do not modify their arguments or package state: pointer-level model with frame theorem.
* **C52** Concurrent calls do not interfere: interleaving semantics over the pointer-level model.
* **C53** Keys share the caller's network object: pointer-level model.
* **C54** secp256k1 constants are correct: Pocklington certificates, order computation.
* **C55** Every curve point has exactly one private key in range: the group is cyclic of prime order N (Hasse-free counting: at most 2P+1 points, a proper multiple of N would need a point of order 2).
* **C56** No data race: every step of the pointer-level programs of a call touches fresh objects or only reads; invariant over all interleavings.
* **C57** Concurrent calls always finish: no step waits; a measure on the remaining random bytes and program trees.
* **C58** Package initialisation: pointer-level run of the variable initialisers; the frame theorem of C51.
* **C59** Random bytes are dealt out exactly once: the trace of reads is a shuffle of the source.
* **C60** Restoring a wallet: composition of C02, C03, C30, C31, C34.
* **C61** Order of adding up many keys: induction over the list of keys, `Permutation`.
* **C62** An address is accepted as a WIF: C06 and C34 share `base58check`.
* **C63** When calls on keys crash: case analysis, also for nil pointers (`ModelPtr.v`).
* **C64** Stray spaces: `strings.Split` yields an empty word; ideographic space is in no word.
* **C65** First 2048 words only: indices have 11 bits.
* **C66** Compressed text round trip: C31 the other way round.
* **C67** Opposite keys: (N-k)G = -(kG).
* **C68** How often generation fails: counting lists of bytes, induction on the number of blocks.
* **C69** No phrase is favoured: counting, C40.
* **C70** Keys in a row: induction on the number of calls, counting.
* **C71** One phrase in 256: bijection between phrases and bit strings, counting checksums.
* **C72** Unusual word lists: the bit string of any index.
* **C73** A WIF is never an address: payload length, version byte.
* **C74** Returned texts are Base58; lower-casing: `ModelLower.v` has the function as a parameter.
* **C75** Mistyped WIFs: `CheckWIF` decides Base58Check; counting; numeric distance of texts that agree in a prefix.
* **C76**, **C77** Phrases with characters no list has: check of the nine literal lists by computation (a finite domain, complete), then for all phrases.
* **C78** Other languages: disjointness of literal lists by computation, then for all phrases; a phrase valid in English and French as a witness.
* **C79** Four letters: check by computation, then for all phrases by induction.
* **C80** Loops end: big-step semantics of Go statements without built-in termination (`Imp.v`), one lemma per loop.
* **C81** Endless random sources: inductive runs that end, coinductive runs that do not (`ModelStream.v`).
* **C82** Address collisions: Base58Check and SEC1 are injective, so only the hashes are left.
* **C83** Undoing sums and products: N is prime; two hex texts of one number have WIFs of different lengths, one is not refused.
* **C84** Usable results: the text `0` has an odd count of digits; N is prime.
* **C85** Doubling: a longer payload has a longer WIF; no point has order two.
* **C86** Subtracting public keys: the group law of C54.
* **C87** Dependence: two calls on inputs that agree on the named fields, unfolded side by side.
* **C88** Letter case: hex decoding and SetString give equal results on texts with equal lower case.
* **C89** Count of importable x: k -> x(kG) is a bijection from 1..(N-1)/2 onto the x of points (C25, C54, C55).
* **C90** Exchanged 02/03: C32 on both texts, and the parity of P.
* **C91** Split keys: C31 for each text, then C61.
* **C92** Hashes: words as integers modulo 2^32; induction over rounds and blocks; padding is unique; the constants are
  checked to be the roots they should be.
* **C93** Sessions: a refinement. Each answer stands for a meaning (bytes of a number, or a multiple of G); every request
  preserves this, by induction over the program; the meanings are a total function of requests and random bytes.
* **C94** The source text: symbolic execution of the syntax trees, one rule per construct, loops by induction; the fuel of
  the interpreter is any number from some bound on, so every call ends.
* **C95** Programs on the source text: C94 for every call, on a heap that only grows, composed with C93.
* **C96** Each call of the source text, without the model: C94 composed with the exact characterisations behind C06-C46.
* **C97** Goroutines on the source text: C94 holds with every write to an object that existed before the call forbidden
  (`ends_above`); the interpreter as a tree of steps is a simulation of the one of C94; what a goroutine has still to do,
  run alone on the shared heap and its own objects, is an invariant of every step of every goroutine.
* **C98** Programs of goroutines: C95 in steps, and the invariant of C97.
* **C99**, **C100** The same on a machine with one memory, one allocator, one random reader and one screen (`SpecMachine.v`).
  A relation on programs, `trel`, says that they differ in addresses only; the interpreter preserves it, by induction over
  expressions, statements and depth (`GoRename.v`, `GoRenameRun.v`). The invariant of `MachineFacts.v`: each goroutine is,
  up to a one-to-one renaming that fixes the objects of the start, where it would be alone with the bytes it has got,
  whatever bytes would follow. The bound on depth has to serve all bytes the reader may hand out: there are finitely many
  lists of a given length.
* **C101** Ints of a machine: the interpreter of C94 reduces every sum, difference and quotient of ints, and the index of a
  `range` loop, by a function (`as_int`). The proofs of C94 are for any such function that leaves the numbers up to a bound
  alone; C94 takes the identity, C101 takes ints that are right where they fit (two's complement is an instance) and
  computes the bound for each call.
* **C102** The trees against the text: `GoPrint.v` cuts a text into Go's words and writes trees as words. The files are checked
  by computation to have the words of their trees. A recursive-descent reader, used in the proofs only (`ReadFacts.v`), is shown
  to take exactly the words that were written for a tree, by induction over trees; so trees that are written alike are alike,
  provided no name is a keyword or an imported package's. Writing words down and cutting the text again gives the words back
  (`WrittenFacts.v`). Comments, blanks and empty lines are shown to make no difference (`CommentFacts.v`).
* **C103** The random tests: induction over the rounds, each round by the theorems about the calls it makes. A source that does
  not suffice is shown to make the test fail or crash, so the hypotheses are exact.
* **C104** Two libraries that meet the contract: each answer is determined by the specification of the curve; a point is
  determined by its x and the parity of its y. Sessions by the invariant of C93.
* **C105** C95 with the ints of C101: `SpecRun.v` runs programs with any limits (C95 takes none). Only reading a WIF can make an
  int overflow, and only if the WIF is long. Invariant on the meanings of the answers: every key has fewer than 2^(bits-4) bytes
  (a computed key has at most 32; a saved and reloaded one keeps its bytes), and a WIF has at most two characters per byte.
* **C106** `GoTree.v` reduces the result of every int operation by a function of its own (the identity in C97-C100). The proofs of
  C97-C100 are for any such function and any set of calls that are known to end with it; C101 says which calls these are for the
  ints of a machine, and the invariant of C105 keeps programs among them.
* **C107** The lemmas behind C94 say in addition that every object of a new key is new and that its network is the caller's
  pointer. From this an invariant over `SpecHistory.v`: there is a set of addresses that holds all a program has, is closed under
  following pointers, and does not contain the curve's variable or its numbers. Word lists are values there, not objects; a
  program may pass any list, so overwriting a list adds nothing.

## Trusted base

* Coq's kernel, with its `vm_compute` machine. No `native_compute`, no plugin beyond those of the standard library
  (`lia`, `nia`, `ring`, `field`, `zify`), no kernel check switched off.
* Axioms: none. `Print Assumptions` stands under every theorem of the manifest and prints `Closed under the global
  context` for each. (`coqchk -o` also lists seven constants `Coq.ssr.ssrunder.Under_rel.*`: parameters of a module type in the
  standard library's ssreflect that is loaded with `zify`; no theorem depends on them.)
* The reading of `/repo` embodied in the models; each definition cites file and lines. For `Model.v` this reading is checked
  by C94, and the trees C94 runs are checked against the text of the files by C102. What remains trusted there is that
  `GoText.v` and `WordsText.v` hold the files (`python3 tools/go2coq.py /repo text | diff - rocq/theories/GoText.v` and the same
  with `words` and `WordsText.v` must be silent; a quote is doubled, nothing else is changed), how `GoPrint.v` cuts texts into words
  and writes trees, and the meaning `GoSem.v` gives to Go's statements and expressions. The parser in `tools/go2coq.py` that
  wrote the trees is not trusted. The interpreter is `Stuck` where it has no rule; C94 excludes this.
* Goroutines (C97-C100): memory is sequentially consistent (justified by the absence of races, which is proved); a step is
  one access to a whole object; an ecdsa method reads its operands and works on objects of its own; each goroutine numbers
  its own objects and gets its own random bytes. C99 and C100 do without the last two: there is one allocator and one reader,
  and it is proved that addresses do not matter. There a rand.Int is one step that takes any of the bytes left, so draws of
  several goroutines may be interleaved; a goroutine for which the reader has failed gets no more bytes.
* Sharing (C107): an ecdsa method returns a point made of new numbers and keeps none of its operands; the same is assumed of
  the functions of the standard library, where it is documented. Objects are written whole.
* Ints: `len` is not reduced, since Go guarantees that the length of a string or slice is an int. C94 and C101 are for calls
  alone, C105 is for programs, C106 for goroutines.
* Dependencies whose source is not in `/repo`:
  * Go's standard library, `mr-tron/base58`, `golang.org/x/crypto/ripemd160` are modelled by executable definitions of
    their documented behaviour. They are tested against published vectors in `RepoTests.v`. C92 proves that the two hash
    functions are those of the standards as restated in `SpecHash.v`; that the Go packages compute these is trusted.
  * `aureleoules/ecdsa` is a record of four functions (`ecdsa_lib`). Theorems about curve points hold for every such record
    that satisfies `ecdsa_contract` (an explicit hypothesis); `ref_lib_meets` and `fast_lib_meets` prove that two
    implementations do, so the hypothesis can be met. Theorems that do not have this hypothesis hold for any library.
    The contract does not say that the actual dependency satisfies it.
  * In the pointer-level model the library's methods are programs (`hlib`); `hlib_meets` says they compute what the record
    does, write no object they did not allocate and log nothing. `fresh_lib_meets` exhibits one.
* The word lists of `Words*.v` are those of `wordlists.go` by C102. The English list, joined by newlines with a final one, has SHA-256
  `2f5eed53a4727b4bf8880d8f3f199efc90e58503646d9ff8eff3a2ed3b24dbda`, that of the official BIP-39 list.

## Testing the theorems

`seeded/LOG.jsonl` records realistic bugs put into a scratch copy of the models, the claim each breaks and the theorems that
no longer proved.
