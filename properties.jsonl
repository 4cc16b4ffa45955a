{"id": "C01", "title": "Every exported WIF validates", "statement": "Whenever PrivateFromHex(h, net) returns a key, CheckWIF applied to that key's WIF returns true (and does not panic).", "quantifier": "every string h and every network (any PrivKeyPrefix string)", "why_tests_cant": "the tests check a fixed list of WIFs; the claim is about every payload length and every byte string, including ones with leading zero bytes where Base58 behaves specially", "anchors": ["private_key.go:PrivateFromHex", "private_key.go:CheckWIF"]}
{"id": "C02", "title": "hex -> WIF -> hex round trip", "statement": "If net has a one-byte prefix and PrivateFromHex(h, net) returns key k, then PrivateFromWIF(k.WIF, net') returns a key with the same secret number, the same WIF, Hex equal to h in lower case, and network net'.", "quantifier": "every h, every pair of networks whose first has a two-hex-digit prefix", "why_tests_cant": "a round trip over 2^256 keys (and over all key lengths) cannot be enumerated", "anchors": ["private_key.go:PrivateFromHex", "private_key.go:PrivateFromWIF"]}
{"id": "C03", "title": "WIF -> hex -> WIF round trip", "statement": "If PrivateFromWIF(w, net) returns key k and the version byte of w is net's private-key prefix, then PrivateFromHex(k.Hex, net) returns a key whose WIF is exactly w and whose secret number equals k's.", "quantifier": "every string w, every network with a two-hex-digit prefix equal to w's version byte", "why_tests_cant": "canonicality of Base58Check must hold for every string", "anchors": ["private_key.go:PrivateFromHex", "private_key.go:PrivateFromWIF"]}
{"id": "C04", "title": "WIF is Base58Check of version byte and key bytes", "statement": "On success PrivateFromHex(h, net).WIF is the Base58 string of P ++ first4(SHA256(SHA256(P))) where P are the bytes spelled by net.PrivKeyPrefix ++ h.", "quantifier": "every h and network", "why_tests_cant": "format conformance for every key, not for sampled ones", "anchors": ["private_key.go:PrivateFromHex"]}
{"id": "C05", "title": "WIFs are unambiguous", "statement": "Two successful PrivateFromHex calls, on possibly different networks, give the same WIF only if prefix++hex spell the same bytes; hence on the same network only if the key bytes are equal, and a mainnet WIF never equals a testnet WIF for equal-length keys.", "quantifier": "every pair of hex strings and networks", "why_tests_cant": "injectivity is a statement about all pairs", "anchors": ["private_key.go:PrivateFromHex", "btc.go:init"]}
{"id": "C06", "title": "CheckWIF accepts exactly the Base58Check strings", "statement": "CheckWIF(w) returns true if and only if w is the Base58 encoding of P ++ first4(SHA256(SHA256(P))) for some byte string P; every other string on which it returns gives false.", "quantifier": "every string w", "why_tests_cant": "soundness and completeness of a validator over all strings", "anchors": ["private_key.go:CheckWIF"]}
{"id": "C07", "title": "CheckWIF panics exactly on strings that decode to fewer than four bytes", "statement": "CheckWIF(w) panics if and only if w is a valid Base58 string whose decoding has fewer than 4 bytes; so CheckWIF is not total (CheckWIF(\"1\") panics).", "quantifier": "every string w", "why_tests_cant": "a user feeding untrusted input relies on totality; only a proof over all strings gives the exact failing set", "anchors": ["private_key.go:CheckWIF"]}
{"id": "C08", "title": "PrivateFromHex accepts exactly even-length hex and never panics", "statement": "With a non-nil network PrivateFromHex returns for every string: a key iff prefix++h is an even-length string of hex digits, an error otherwise. For a key, Hex is h verbatim, Network is net and the secret number is the big-endian value of h, with a nil number exactly when h is empty.", "quantifier": "every string h, every network", "why_tests_cant": "acceptance set over all strings", "anchors": ["private_key.go:PrivateFromHex"]}
{"id": "C09", "title": "PrivateFromHex does not validate the key range", "statement": "For every standard network and every n >= 0 there is a hex string that PrivateFromHex accepts with secret number n, including 0, the group order N and numbers beyond 32 bytes: success does not imply 1 <= key < N.", "quantifier": "every natural number n", "why_tests_cant": "an existence claim at every size, which shows which guarantee a user may not rely on", "anchors": ["private_key.go:PrivateFromHex"]}
{"id": "C10", "title": "PrivateFromWIF result is fully determined by the payload", "statement": "When PrivateFromWIF(w, net) returns a key, w is Base58Check of v:K for one version byte v and key bytes K; Hex is lower-case hex of K, the number is K big-endian (nil iff K empty), WIF is w verbatim, network is the argument. The version byte is ignored: the same w succeeds for every network argument, so a testnet WIF is accepted as a mainnet key.", "quantifier": "every w and network", "why_tests_cant": "needs all strings; the cross-network acceptance is a whole-domain statement", "anchors": ["private_key.go:PrivateFromWIF"]}
{"id": "C11", "title": "PrivateFromWIF panics exactly on too-short payloads", "statement": "PrivateFromWIF(w, net) panics iff w Base58-decodes to fewer than 4 bytes, or w is the Base58Check encoding of the empty payload (\"3QJmnh\"); otherwise it returns a key if CheckWIF(w), else the error 'wif invalid'.", "quantifier": "every w, every network", "why_tests_cant": "exact panic set over all strings", "anchors": ["private_key.go:PrivateFromWIF", "private_key.go:CheckWIF"]}
{"id": "C12", "title": "Compressed-format WIFs are imported as a different key", "statement": "For every 32-byte key K, importing the compressed-format WIF (Base58Check of version, K, 01) succeeds but yields secret number 256*K+1, never K.", "quantifier": "every 32-byte key and version byte", "why_tests_cant": "holds for all 2^256 keys, a silent wrong result", "anchors": ["private_key.go:PrivateFromWIF"]}
{"id": "C13", "title": "Generated keys are well formed and in range", "statement": "For any random source and any network, if GeneratePrivateKey(net) returns k then 2^252 <= k.Key < N-1, k.Hex is the 64-digit lower-case hex of k.Key, k.Network is net and k equals PrivateFromHex(k.Hex, net).", "quantifier": "every random byte stream, every network", "why_tests_cant": "10000 samples cannot cover 2^256 random outcomes, in particular rejection paths", "anchors": ["private_key.go:GeneratePrivateKey", "util.go:generateRandomBigInt"]}
{"id": "C14", "title": "Generated WIFs have 51 characters and start with 5 (main) or 9 (test)", "statement": "Every key GeneratePrivateKey returns for MainNetwork has a WIF of exactly 51 characters starting with '5'; for TestNetwork 51 characters starting with '9'. The same holds for every 64-digit hex string given to PrivateFromHex.", "quantifier": "every random byte stream / every 32-byte key", "why_tests_cant": "an arithmetic fact about all 2^256 payloads and their checksums", "anchors": ["private_key.go:GeneratePrivateKey", "btc.go:init"]}
{"id": "C15", "title": "Key generation reaches exactly the keys in [2^252, N-2] and favours none", "statement": "A key number is returned for some random stream iff it lies in [2^252, N-2]. The returned key is the first 32-byte block of the stream whose value lies in that interval; all earlier blocks are skipped and nothing after it is read. Over all random streams of any given length, every number of the interval is returned for the same number of streams.", "quantifier": "every random stream and every number", "why_tests_cant": "characterises the output distribution of rejection sampling for all streams; statistics on samples cannot", "anchors": ["private_key.go:GeneratePrivateKey", "util.go:generateRandomBigInt"]}
{"id": "C16", "title": "GeneratePrivateKey never returns for an unusable network prefix", "statement": "If net.PrivKeyPrefix is not an even-length hex string then GeneratePrivateKey(net) returns on no random stream (it retries forever, or panics when the random source fails). With a usable prefix it returns for every stream that holds an acceptable block, and panics otherwise; with a nil network it panics on every finite stream.", "quantifier": "every such network, every finite random stream prefix", "why_tests_cant": "non-termination cannot be observed by a test", "anchors": ["private_key.go:GeneratePrivateKey"]}
{"id": "C17", "title": "AddPrivateKeys adds modulo the group order", "statement": "If AddPrivateKeys(a, b) returns c then c's number is (a+b) mod N, its network is a's, its Hex is the shortest lower-case hex of the number and c equals PrivateFromHex(c.Hex, net).", "quantifier": "every pair of keys, reachable or hand-built", "why_tests_cant": "modular wrap-around over all pairs", "anchors": ["private_key.go:AddPrivateKeys"]}
{"id": "C18", "title": "MultiplyPrivateKeys multiplies modulo the group order", "statement": "If MultiplyPrivateKeys(a, b) returns c then c's number is (a*b) mod N, its network is a's, its Hex the shortest lower-case hex and c equals PrivateFromHex(c.Hex, net).", "quantifier": "every pair of keys", "why_tests_cant": "modular wrap-around over all pairs", "anchors": ["private_key.go:MultiplyPrivateKeys"]}
{"id": "C19", "title": "Combining private keys is commutative", "statement": "AddPrivateKeys(a,b) and AddPrivateKeys(b,a) have the same outcome (same key, same error or same panic), and likewise for MultiplyPrivateKeys.", "quantifier": "every pair of keys", "why_tests_cant": "all pairs, including error and nil cases", "anchors": ["private_key.go:AddPrivateKeys", "private_key.go:MultiplyPrivateKeys"]}
{"id": "C20", "title": "Combining private keys is associative and distributive where defined", "statement": "Whenever all intermediate calls succeed, (a+b)+c and a+(b+c) are the same key (number, Hex, WIF, network), the same for products, and a*(b+c) equals a*b+a*c.", "quantifier": "every triple of keys", "why_tests_cant": "all triples", "anchors": ["private_key.go:AddPrivateKeys", "private_key.go:MultiplyPrivateKeys"]}
{"id": "C21", "title": "Exact failure set of AddPrivateKeys and MultiplyPrivateKeys", "statement": "For keys with numbers and hex-even prefixes the calls fail iff networks differ in content, or the two WIFs are equal ignoring ASCII case, or the result's shortest hex has an odd number of digits; in particular two perfectly valid distinct keys can be refused (sum < 16^63 with odd digit count, or result 0). With an arbitrary prefix (hex or not) the call on different WIFs succeeds iff prefix and result's shortest hex together are an even-length hex string, and otherwise returns an error.", "quantifier": "every pair of keys", "why_tests_cant": "the odd-digit failure hits 1 in 16 sums; only a proof gives the exact set", "anchors": ["private_key.go:AddPrivateKeys", "private_key.go:MultiplyPrivateKeys", "util.go:bigIntToHex"]}
{"id": "C22", "title": "Combined keys keep the 32-byte WIF format only when the result has 64 hex digits", "statement": "A returned sum or product has a standard 51-character WIF on the standard networks iff its number is at least 2^252 (64 hex digits); smaller results give a shorter, non-standard WIF that is not the padded 32-byte encoding of the same number.", "quantifier": "every pair of keys", "why_tests_cant": "the missing zero padding shows only on rare results", "anchors": ["private_key.go:AddPrivateKeys", "private_key.go:MultiplyPrivateKeys", "util.go:bigIntToHex"]}
{"id": "C23", "title": "The identical-keys check confuses different keys", "statement": "There are two valid, different 32-byte mainnet keys whose sum AddPrivateKeys refuses as 'identical', because WIFs are compared ignoring case although Base58 is case-sensitive; conversely two imports of the same WIF are always refused.", "quantifier": "existence over all pairs; universally over equal WIFs", "why_tests_cant": "a 1-in-2^32 coincidence no test sample meets", "anchors": ["private_key.go:AddPrivateKeys", "private_key.go:MultiplyPrivateKeys"]}
{"id": "C24", "title": "GetPublicKey gives a curve point for every valid key", "statement": "For every key number k with 1 <= k < N GetPublicKey succeeds; the result satisfies Y^2 = X^3+7 mod P with 0 <= X,Y < P, it is k times the generator, and carries the key's network. For k a multiple of N it reports failure.", "quantifier": "every key number", "why_tests_cant": "all 2^256 scalars; needs the group law", "anchors": ["public_key.go:GetPublicKey", "btc.go:init"]}
{"id": "C25", "title": "Distinct private keys have distinct public keys", "statement": "For key numbers in [1, N-1], GetPublicKey gives equal points only for equal numbers; in general points coincide iff the numbers are congruent modulo N.", "quantifier": "every pair of key numbers", "why_tests_cant": "needs that the generator's order is exactly the prime N", "anchors": ["public_key.go:GetPublicKey", "btc.go:init"]}
{"id": "C26", "title": "Adding public keys matches adding private keys", "statement": "For keys a, b: if AddPrivateKeys(a,b) returns c then AddPublicKeys(pub(a), pub(b)) returns pub(c); more generally the point sum is the public key of (a+b) mod N, an error exactly when a+b is a multiple of N.", "quantifier": "every pair of key numbers in [1,N-1]", "why_tests_cant": "homomorphism over all pairs, including doubling and inverse points", "anchors": ["private_key.go:AddPrivateKeys", "public_key.go:AddPublicKeys", "public_key.go:GetPublicKey"]}
{"id": "C27", "title": "Multiplying private keys matches scalar multiplication of the public key", "statement": "If MultiplyPrivateKeys(a,b) returns c then pub(c) is a times the point pub(b) and b times the point pub(a) (Diffie-Hellman agreement).", "quantifier": "every pair of key numbers", "why_tests_cant": "all pairs", "anchors": ["private_key.go:MultiplyPrivateKeys", "public_key.go:GetPublicKey"]}
{"id": "C28", "title": "Format emits SEC1 hex", "statement": "For coordinates in [0,2^256) Format(false) is '04' followed by the 64-digit X and 64-digit Y, Format(true) is '02' or '03' by the parity of Y followed by the 64-digit X; always 130 or 66 lower-case hex digits.", "quantifier": "every pair of coordinates", "why_tests_cant": "leading zeros in coordinates occur rarely in samples", "anchors": ["public_key.go:Format"]}
{"id": "C29", "title": "Format is injective on valid keys", "statement": "Two on-curve public keys with the same Format(c) string, compressed or not, have the same coordinates; two such keys with the same Y parity and X are the same point.", "quantifier": "every pair of on-curve points", "why_tests_cant": "all pairs", "anchors": ["public_key.go:Format"]}
{"id": "C30", "title": "Uncompressed public keys round-trip", "statement": "PublicFromHex(p.Format(false), net) returns X and Y of p and network net, for all coordinates in [0,2^256); Format(false) of an imported valid 130-digit hex is the lower-case input.", "quantifier": "every coordinate pair; every 130-digit hex string starting with 04", "why_tests_cant": "all 2^512 pairs", "anchors": ["public_key.go:PublicFromHex", "public_key.go:Format"]}
{"id": "C31", "title": "Compressed public keys round-trip", "statement": "For every point on the curve PublicFromHex(p.Format(true), net) returns exactly the point p (both coordinates) with network net; both compressed and uncompressed imports of the same key agree.", "quantifier": "every curve point", "why_tests_cant": "square roots and parity selection for every point", "anchors": ["public_key.go:PublicFromHex", "public_key.go:Format"]}
{"id": "C32", "title": "Compressed import rejects exactly the x without a curve point, uncompressed import checks nothing", "statement": "For 0 <= x < P, PublicFromHex of '02'/'03' plus x returns a key iff some y satisfies the curve equation, and then the key is on the curve with the requested parity; '04' imports succeed for any two 64-digit hex numbers, on the curve or not.", "quantifier": "every x in the field, every coordinate pair", "why_tests_cant": "quadratic residuosity over the whole field; the missing check is invisible on valid inputs", "anchors": ["public_key.go:PublicFromHex"]}
{"id": "C33", "title": "PublicFromHex: exact panic, error and success sets by length and prefix", "statement": "PublicFromHex panics exactly on strings shorter than 2, on '04' strings shorter than 130, on '02'/'03' strings shorter than 66 and on '02'/'03' strings whose 64 characters are not an (optionally signed) hex number; any other first two characters give 'unsupported public key format'; characters beyond position 130 (or 66) are ignored; a '04' import always succeeds, a malformed 64-character coordinate silently becomes nil and a signed one is taken with its sign.", "quantifier": "every string", "why_tests_cant": "totality over all strings", "anchors": ["public_key.go:PublicFromHex"]}
{"id": "C34", "title": "Address is Base58Check of version and HASH160", "statement": "For coordinates in [0,2^256) and a hex-even PubKeyHashPrefix, Address(c) returns Base58(V ++ first4(SHA256(SHA256(V)))) with V = prefix bytes ++ RIPEMD160(SHA256(bytes of Format(c))), and that string passes CheckWIF.", "quantifier": "every coordinate pair, flag and network", "why_tests_cant": "format conformance for every key", "anchors": ["public_key.go:Address", "private_key.go:CheckWIF"]}
{"id": "C35", "title": "Address shape on the standard networks", "statement": "Every MainNetwork address starts with '1' and has 26 to 34 characters; every TestNetwork address has exactly 34 characters starting with 'm' or 'n'. A main and a test address never coincide.", "quantifier": "every public key", "why_tests_cant": "arithmetic over all 2^160 hashes and checksums", "anchors": ["public_key.go:Address", "btc.go:init"]}
{"id": "C36", "title": "Address failure set", "statement": "With a non-nil network, Address(uncompressed) returns an address exactly when the network prefix is even-length hex, both coordinates are present and non-negative, and the padded hex lengths of the two coordinates add up to an even number; Address(compressed) exactly when the prefix is even-length hex, Y is present, and X is present, non-negative and has an even padded hex length. Otherwise it returns an error, except that it panics exactly when Y is nil in the compressed form, or the network is nil and the export is hex. So for coordinates in [0,2^256) on the standard networks it always succeeds.", "quantifier": "every coordinate pair and network", "why_tests_cant": "all integers", "anchors": ["public_key.go:Address", "public_key.go:Format"]}
{"id": "C37", "title": "Addresses agree across import and derivation paths", "statement": "The address of a key derived with GetPublicKey equals the address after exporting it with Format (either form) and importing with PublicFromHex.", "quantifier": "every valid private key, both flags", "why_tests_cant": "all keys", "anchors": ["public_key.go:Address", "public_key.go:PublicFromHex", "public_key.go:Format", "public_key.go:GetPublicKey"]}
{"id": "C38", "title": "AddPublicKeys is commutative, associative and closed", "statement": "On curve points, AddPublicKeys(p,q) and (q,p) agree; when the intermediate sums exist (p+q)+r = p+(q+r); each result is on the curve, in range, with p's network; the compressed flag has no effect; keys of different networks are refused.", "quantifier": "every pair/triple of curve points", "why_tests_cant": "the elliptic-curve group law on all triples including doublings", "anchors": ["public_key.go:AddPublicKeys"]}
{"id": "C39", "title": "NewMnemonic returns exactly the requested number of list words", "statement": "With a list of at least 2048 words that contain no spaces, NewMnemonic(n, list) with n in {12,15,18,21,24} returns a phrase that splits into exactly n words, each from the first 2048 of the list, for every random stream long enough, provided the SHA256 of the entropy has at least as many significant bits as the checksum length (otherwise the call panics, see C43); any other n or a nil list is an error, a failing random source is an error.", "quantifier": "every random stream, every list, every n", "why_tests_cant": "all entropies; 10000 runs per length are a sample", "anchors": ["mnemonic.go:NewMnemonic"]}
{"id": "C40", "title": "NewMnemonic loses no entropy", "statement": "With a list whose first 2048 words are distinct and space-free, different entropies of the same length give different phrases.", "quantifier": "every pair of entropies", "why_tests_cant": "injectivity over 2^256 values", "anchors": ["mnemonic.go:NewMnemonic"]}
{"id": "C41", "title": "NewMnemonic emits the BIP-39 bit string reversed", "statement": "The concatenated 11-bit indices of the words, word by word, are the reverse of entropy bits followed by checksum bits; word i is bit-reversed group n-1-i of the stream. So generated phrases are not BIP-39 phrases (a concrete 24-word output fails the BIP-39 checksum).", "quantifier": "every entropy", "why_tests_cant": "bit order over all entropies; the tests count words only", "anchors": ["mnemonic.go:NewMnemonic"]}
{"id": "C42", "title": "Checksum bits ignore leading zeros", "statement": "The checksum bits NewMnemonic appends are the first bits of SHA256(entropy without leading zero bytes) after stripping leading zero BITS of the hash; the first appended bit is therefore always 1. They equal the BIP-39 checksum whenever the entropy has no leading zero byte and its hash has its top bit set, and never when the entropy has no leading zero byte and the top hash bit is 0.", "quantifier": "every entropy", "why_tests_cant": "half of all hashes start with a zero bit; exact set needs proof", "anchors": ["mnemonic.go:NewMnemonic"]}
{"id": "C43", "title": "NewMnemonic panics exactly when the list is too short or the hash is tiny", "statement": "With n in the supported set and enough random bytes, NewMnemonic panics iff SHA256 of the entropy bytes has fewer significant bits than the checksum length, or some word index is outside the list; with lists of >= 2048 words only the first can happen.", "quantifier": "every stream, every list", "why_tests_cant": "exact panic set", "anchors": ["mnemonic.go:NewMnemonic"]}
{"id": "C44", "title": "NewSeedFromMnemonic never returns a seed", "statement": "For every mnemonic, passphrase and list NewSeedFromMnemonic returns a nil byte slice; whenever it reports no error the seed is still nil, and the passphrase has no influence.", "quantifier": "every input", "why_tests_cant": "universal claim about all inputs", "anchors": ["mnemonic.go:NewSeedFromMnemonic"]}
{"id": "C45", "title": "NewSeedFromMnemonic accepts exactly the 8-bit-checksum phrases", "statement": "With a list of at most 2048 distinct words, NewSeedFromMnemonic reports no error iff every word is in the list, the number of words is a multiple of 8, and the last 8 of the concatenated index bits equal the first 8 bits of SHA256 of the preceding bytes; for 24 words this is exactly BIP-39 validity. An unknown word or a nil list is an error.", "quantifier": "every mnemonic string and list", "why_tests_cant": "acceptance set over all phrases", "anchors": ["mnemonic.go:NewSeedFromMnemonic"]}
{"id": "C46", "title": "NewSeedFromMnemonic by word count: which lengths panic or always fail", "statement": "For phrases of list words: 12 words (any count congruent 4 mod 8) always give an error, and any count not divisible by 4 (15, 18, 21 among them) always panics - so every valid BIP-39 phrase of 12, 15, 18 or 21 words is refused or crashes.", "quantifier": "every phrase of list words", "why_tests_cant": "all phrases", "anchors": ["mnemonic.go:NewSeedFromMnemonic"]}
{"id": "C47", "title": "Generated mnemonics are not accepted back", "statement": "NewSeedFromMnemonic applied to a phrase from NewMnemonic panics for 15/18/21 words, errors for 12, and for 24 words succeeds only if the reversed bits satisfy the checksum; there is an entropy for which it fails.", "quantifier": "every entropy; existence for 24 words", "why_tests_cant": "the round trip is never exercised by the tests", "anchors": ["mnemonic.go:NewMnemonic", "mnemonic.go:NewSeedFromMnemonic"]}
{"id": "C48", "title": "NewSeedFromMnemonic writes the secret to the log", "statement": "Whenever the call returns without error, the lines it logs determine the complete entropy and checksum of the mnemonic (the nibbles, then the full hex), for every accepted mnemonic.", "quantifier": "every accepted mnemonic", "why_tests_cant": "an information-flow fact about all executions", "anchors": ["mnemonic.go:NewSeedFromMnemonic"]}
{"id": "C49", "title": "Every built-in word list has 2048 distinct non-empty space-free words", "statement": "Each of the nine exported word lists has exactly 2048 entries, pairwise different, non-empty and without the separator space; so indices are recoverable from words and phrases split unambiguously.", "quantifier": "all nine lists, all pairs of entries", "why_tests_cant": "finite but unchecked by the tests; every mnemonic property rests on it", "anchors": ["wordlists.go:EnglishWordlist", "wordlists.go:ChineseSimplifiedWordlist"]}
{"id": "C50", "title": "Random number range and source failure", "statement": "The number drawn for a new key lies in [0, N-2] for every random stream; drawing it consumes whole 32-byte blocks and panics iff the source ends before an acceptable block.", "quantifier": "every random stream", "why_tests_cant": "all streams", "anchors": ["util.go:generateRandomBigInt"]}
{"id": "C51", "title": "Calls do not modify their arguments or package state", "statement": "No exported function changes any existing big integer, key or network object: after any call every object that existed before has its old contents, so results of a sequence of calls do not depend on other calls made in between.", "quantifier": "every heap, every call sequence", "why_tests_cant": "aliasing through pointers over all heaps and histories", "anchors": ["private_key.go", "public_key.go", "mnemonic.go", "struct.go"]}
{"id": "C52", "title": "Concurrent calls do not interfere", "statement": "In any interleaving of calls made by concurrent goroutines (sharing keys and networks but not mutating them), every call returns what it would return running alone.", "quantifier": "every schedule, every set of calls", "why_tests_cant": "schedules cannot be enumerated by tests", "anchors": ["private_key.go", "public_key.go", "mnemonic.go", "btc.go:init"]}
{"id": "C53", "title": "Keys share the caller's network object", "statement": "A key returned by any constructor refers to the caller's network object itself: changing that object's prefix later changes the addresses of all keys created with it, while changing another object with equal contents does not.", "quantifier": "every heap and key", "why_tests_cant": "aliasing over all heaps", "anchors": ["private_key.go:PrivateFromHex", "public_key.go:PublicFromHex", "struct.go:Network"]}
{"id": "C54", "title": "secp256k1 constants are correct", "statement": "The hard-coded P and N are prime, G lies on y^2=x^3+7 over F_P, and G has order exactly N.", "quantifier": "the divisors of P and N, all multiples of G", "why_tests_cant": "primality and group order quantify over all divisors/multiples", "anchors": ["btc.go:init"]}
{"id": "C55", "title": "Every curve point is the public key of exactly one private key in range", "statement": "For every point (X,Y) of the curve there is exactly one number k with 1 <= k < N such that GetPublicKey of a key with number k is (X,Y): no point is unreachable and none has two private keys in range.", "quantifier": "every point of the curve, every private key", "why_tests_cant": "there are about 2^256 points; the claim is that G generates the whole group of points", "anchors": ["private_key.go GetPublicKey", "btc.go secp256k1"]}
{"id": "C56", "title": "Concurrent use has no data race", "statement": "When any number of goroutines call the exported functions concurrently on shared keys, networks and word lists, there is no reachable moment at which two of them are about to access the same object with one of the accesses a write; objects that existed before the calls are only read.", "quantifier": "every number of goroutines, every sequence of calls each makes, every schedule, every heap", "why_tests_cant": "the race detector only sees the schedules that happen", "anchors": ["private_key.go", "public_key.go", "mnemonic.go", "util.go"]}
{"id": "C57", "title": "Concurrent calls always finish", "statement": "No goroutine calling the exported functions ever waits for another: in every reachable state a goroutine that has not returned can take a step, and no schedule is infinite, so every set of calls ends on a finite random source.", "quantifier": "every set of calls, every schedule, every finite random source", "why_tests_cant": "absence of deadlock and of infinite runs quantifies over all schedules", "anchors": ["private_key.go", "public_key.go", "mnemonic.go"]}
{"id": "C58", "title": "Package initialisation establishes constants that never change", "statement": "Loading the package reads no randomness, changes nothing that exists, and makes the curve parameters and the two predefined networks available with their documented values; no sequence or interleaving of calls ever changes them.", "quantifier": "every heap at load time, every later history and schedule", "why_tests_cant": "a later call could modify the shared constants in place; tests see only some histories", "anchors": ["btc.go:init", "btc.go:MainNetwork", "btc.go:TestNetwork"]}
{"id": "C59", "title": "Random bytes are never shared between goroutines", "statement": "In every schedule the bytes taken from the system random source are dealt out to the goroutines with each byte going to exactly one of them, in order, and the log contains each goroutine's lines in its own order: two concurrent key generations never use the same bytes.", "quantifier": "every schedule, every set of goroutines", "why_tests_cant": "all schedules", "anchors": ["util.go:generateRandomBigInt", "mnemonic.go:NewMnemonic", "private_key.go:GeneratePrivateKey"]}
{"id": "C60", "title": "A wallet can be restored from its backup", "statement": "A key returned by GeneratePrivateKey, AddPrivateKeys or MultiplyPrivateKeys on a network with a one-byte prefix comes back field by field from its WIF (PrivateFromWIF) and from its hex (PrivateFromHex); for every generated key, GetPublicKey, Format, PublicFromHex and Address all succeed, in both forms, and the restored key leads to the same public key.", "quantifier": "every random stream, every pair of keys, every network with a one-byte prefix", "why_tests_cant": "a composition of five calls over all random streams", "anchors": ["private_key.go:GeneratePrivateKey", "private_key.go:PrivateFromWIF", "public_key.go:GetPublicKey", "public_key.go:Address"]}
{"id": "C61", "title": "Adding up many keys does not depend on the order", "statement": "Adding any number of private keys one after the other gives, when every step succeeds, the sum of all numbers modulo N; two orders that both succeed give the same key (an order can fail where another succeeds). The public keys of the summands, added one after the other, give the public key of the sum, and in any order the same one.", "quantifier": "every list of keys, every permutation", "why_tests_cant": "lists of every length and all their permutations", "anchors": ["private_key.go:AddPrivateKeys", "public_key.go:AddPublicKeys"]}
{"id": "C62", "title": "An address is accepted where a WIF is expected", "statement": "Every address (on a network with a one-byte address prefix) passes CheckWIF, and PrivateFromWIF imports it without error as a key whose number is the public key hash in the address.", "quantifier": "every public key, both forms, every such network", "why_tests_cant": "all addresses", "anchors": ["private_key.go:CheckWIF", "private_key.go:PrivateFromWIF", "public_key.go:Address"]}
{"id": "C63", "title": "Exactly when calls on keys crash", "statement": "Every one of these calls panics on a nil key pointer. On non-nil keys AddPrivateKeys and MultiplyPrivateKeys panic iff the networks agree, the WIFs differ beyond letter case and one number or the network is nil; GetPublicKey panics iff the number is nil; Format panics iff compressed with a nil Y; Address panics iff Format does or the formatted text is hex and the network is nil; AddPublicKeys panics iff the networks agree and a coordinate is nil. A key returned by the package has a nil number iff its hex is empty, so importing the empty text succeeds and publishing the result crashes.", "quantifier": "every key value", "why_tests_cant": "absence of panics over all inputs", "anchors": ["private_key.go:AddPrivateKeys", "private_key.go:MultiplyPrivateKeys", "public_key.go:GetPublicKey", "public_key.go:Format", "public_key.go:AddPublicKeys", "public_key.go:Address"]}
{"id": "C64", "title": "Phrases with stray or ideographic spaces are refused", "statement": "NewSeedFromMnemonic refuses with ErrInvalidMnemonic every phrase that is empty, starts or ends with a space or contains two consecutive spaces, for every list without an empty word; and every phrase containing the ideographic space for the built-in Japanese list, although BIP-39 prescribes it there.", "quantifier": "every text, every passphrase, every such list", "why_tests_cant": "all texts", "anchors": ["mnemonic.go:NewSeedFromMnemonic", "wordlists.go:JapaneseWordlist"]}
{"id": "C65", "title": "Only the first 2048 words of a list are used to make phrases", "statement": "NewMnemonic gives the same outcome for a list and for its first 2048 words.", "quantifier": "every list, every word count, every random stream", "why_tests_cant": "all lists", "anchors": ["mnemonic.go:NewMnemonic"]}
{"id": "C66", "title": "Importing and exporting a compressed public key returns the same text", "statement": "A 66-digit hex text starting with 02 or 03 that PublicFromHex accepts, with X below the field prime, yields a key on the curve whose compressed Format is the same text in lower case.", "quantifier": "every such text", "why_tests_cant": "all X coordinates, both parities", "anchors": ["public_key.go:PublicFromHex", "public_key.go:Format"]}
{"id": "C67", "title": "Opposite private keys differ only in the parity of the public key", "statement": "The keys k and N-k have the same X; their Y are P minus each other and of different parity, so the compressed texts differ exactly in the prefix 02/03.", "quantifier": "every k in [1, N-1]", "why_tests_cant": "2^256 keys", "anchors": ["public_key.go:GetPublicKey", "public_key.go:Format"]}
{"id": "C68", "title": "How often key generation fails", "statement": "Among all random streams of 32m+r bytes (r < 32), exactly (2^256 - (N-1-2^252))^m * 256^r make GeneratePrivateKey fail, so every further 32 bytes divide the share of failing streams by at least 15; and for each key v in [2^252, N-2] the number c of streams that give v satisfies (N-1-2^252) * c = ((2^256)^m - (2^256-(N-1-2^252))^m) * 256^r.", "quantifier": "all stream lengths, all networks with a valid hex prefix, all keys in range", "why_tests_cant": "The numbers of streams are astronomically large; no test can enumerate them.", "anchors": ["util.go:generateRandomBigInt", "private_key.go:GeneratePrivateKey"]}
{"id": "C69", "title": "NewMnemonic favours no phrase", "statement": "With a list of distinct, space-free words, each phrase of 3k words is returned either for no random stream of 4k+L bytes or for exactly 256^L of them. With a list that repeats a word this fails: different random bytes can give the same phrase.", "quantifier": "all word counts 12-24, all lists, all stream lengths, all phrases", "why_tests_cant": "Requires counting 2^128 or more streams.", "anchors": ["mnemonic.go:NewMnemonic"]}
{"id": "C70", "title": "Keys generated in a row are independent", "statement": "When GeneratePrivateKey is called j times in a row on one random stream, every sequence of j keys in [2^252, N-2] is produced by the same number of streams of any given length.", "quantifier": "all stream lengths, all j, all sequences of keys in range", "why_tests_cant": "A statistical test cannot establish exact uniformity over sequences.", "anchors": ["private_key.go:GeneratePrivateKey", "util.go:generateRandomBigInt"]}
{"id": "C71", "title": "One phrase in 256 passes NewSeedFromMnemonic", "statement": "Among all sequences of 8k words (k > 0) of a proper 2048-word list, exactly one in 256 is accepted by NewSeedFromMnemonic.", "quantifier": "all k > 0, all proper lists, all passphrases", "why_tests_cant": "The number of phrases is at least 2^88.", "anchors": ["mnemonic.go:NewSeedFromMnemonic"]}
{"id": "C72", "title": "NewSeedFromMnemonic with unusual word lists", "statement": "For any list, also with repeated words or more than 2048 words, each word stands for the binary number of its first position, padded to eleven digits, and longer from position 2048 on; the call is an error when a word is missing, panics when the number of bits is not a multiple of 4, is an error when it is 4 modulo 8, and otherwise accepts exactly when the last byte is the first byte of the SHA-256 of the others.", "quantifier": "all phrases, all passphrases, all lists", "why_tests_cant": "Ranges over all lists and phrases.", "anchors": ["mnemonic.go:NewSeedFromMnemonic"]}
{"id": "C73", "title": "A WIF is never an address", "statement": "On the standard networks the WIF of a key that was generated, imported from hex, added or multiplied never equals an address; likewise on any networks whose prefixes start with different bytes. With equal prefixes the two can coincide.", "quantifier": "all keys, all public keys, both formats, all pairs of networks", "why_tests_cant": "Ranges over all keys and public keys.", "anchors": ["private_key.go:PrivateFromHex", "public_key.go:Address"]}
{"id": "C74", "title": "Returned texts are Base58, and letter case only matters in ASCII", "statement": "Every WIF of a key the package hands out and every address it returns is non-empty and has only characters of the Base58 alphabet. So AddPrivateKeys and MultiplyPrivateKeys give the same results with any lower-casing function that is right on ASCII texts.", "quantifier": "all keys handed out by any call, all public keys, both formats, all lower-casing functions", "why_tests_cant": "Ranges over all keys and functions.", "anchors": ["private_key.go:AddPrivateKeys", "private_key.go:MultiplyPrivateKeys", "private_key.go:PrivateFromHex", "public_key.go:Address"]}
{"id": "C75", "title": "Mistyped WIFs are caught", "statement": "A text with a character outside the Base58 alphabet is not a valid WIF; of the texts that carry the same bytes before the checksum at most one is valid; of all byte strings of length n + 4 the texts of exactly one in 2^32 are valid; two valid texts that differ only in their last five characters carry numbers that differ by at most one, so mistyping the end of a WIF never yields the WIF of a key other than the next or previous one.", "quantifier": "all texts, all lengths, all keys", "why_tests_cant": "Ranges over all texts and changes to them.", "anchors": ["private_key.go:CheckWIF", "private_key.go:PrivateFromHex"]}
{"id": "C76", "title": "Capitals, digits, tabs and newlines in a phrase are refused", "statement": "With any of the nine built-in lists, NewSeedFromMnemonic refuses every phrase with an ASCII character other than a-z and space, without logging; with the English, Italian and Czech lists it refuses every phrase with any byte other than a-z and space.", "quantifier": "all phrases, all passphrases, all built-in lists", "why_tests_cant": "Ranges over all phrases.", "anchors": ["mnemonic.go:NewSeedFromMnemonic", "wordlists.go"]}
{"id": "C77", "title": "Phrases with composed letters are refused", "statement": "With any of the nine built-in lists, NewSeedFromMnemonic refuses every phrase with an accented Latin letter, Hangul syllable or voiced kana written as one code point, as most keyboards do, because the lists have decomposed letters and the call does not normalise.", "quantifier": "all phrases, all passphrases, all built-in lists, all composed letters", "why_tests_cant": "Ranges over all phrases.", "anchors": ["mnemonic.go:NewSeedFromMnemonic", "wordlists.go"]}
{"id": "C78", "title": "Phrases of one language are refused in another", "statement": "A phrase with a word of one built-in list, and every generated phrase, is refused with every other built-in list, except between English and French and between the two Chinese lists. The Chinese lists give the same result for phrases of words they share. English and French do not: there is a 24-word phrase valid in both with different entropies.", "quantifier": "all phrases, all passphrases, all pairs of built-in lists, all random sources", "why_tests_cant": "Ranges over all phrases.", "anchors": ["mnemonic.go:NewSeedFromMnemonic", "mnemonic.go:NewMnemonic", "wordlists.go"]}
{"id": "C79", "title": "Four letters identify a word", "statement": "In the English, French, Italian, Spanish and Czech lists the first four letters of a word, accents ignored, identify it, so two phrases that agree in the first four letters of each word are the same.", "quantifier": "all phrases, all five lists", "why_tests_cant": "Ranges over all phrases.", "anchors": ["wordlists.go"]}
{"id": "C80", "title": "Every loop ends", "statement": "Format, NewSeedFromMnemonic and NewMnemonic always come to an end, whatever they are given: all loops of one call together run at most 128 iterations in Format, at most 544 in NewMnemonic, and in NewSeedFromMnemonic at most 69 plus, for each word of the phrase, 26 more than the list has words. The result is the same on every run.", "quantifier": "all public keys, phrases, passphrases, word lists (of up to 2048 words for the iteration bound), word counts and random sources", "why_tests_cant": "No finite set of inputs shows that a loop ends for every input.", "anchors": ["public_key.go:Format", "mnemonic.go:NewSeedFromMnemonic", "mnemonic.go:NewMnemonic"]}
{"id": "C81", "title": "When key generation ends", "statement": "With a random source that never fails, GeneratePrivateKey returns if and only if some 32-byte block of the source, read as a number, is at least 2^252 and below N-1; it returns the key of the first such block and reads no further. Otherwise it never returns. With a network whose prefix is not hexadecimal it never returns, whatever the source delivers; with a nil network it panics where it would have returned. Retries nest calls without bound. NewMnemonic always ends, after at most 32 bytes.", "quantifier": "all infinite random sources, all networks, all word counts and word lists", "why_tests_cant": "An infinite run cannot be observed, and the sources that cause one are too rare to meet.", "anchors": ["private_key.go:GeneratePrivateKey", "util.go:generateRandomBigInt", "mnemonic.go:NewMnemonic"]}
{"id": "C82", "title": "An address collision is a hash collision", "statement": "If two public keys on the curve give the same address on one network, they are the same point exported in the same format, or their SEC1 encodings are two different byte strings with the same SHA-256, or the SHA-256 hashes of these are two different byte strings with the same RIPEMD-160. So two private keys in range, or the two formats of one key, share an address only through a collision of one of the hash functions.", "quantifier": "all pairs of public keys on the curve, all pairs of private keys in [1, N-1], both formats, all networks", "why_tests_cant": "No collision can be searched for; that nothing else can make addresses coincide is a statement about all keys.", "anchors": ["public_key.go:Address", "public_key.go:Format", "private_key.go:GetPublicKey"]}
{"id": "C83", "title": "Sums and products of private keys can be undone", "statement": "With one operand fixed, AddPrivateKeys returns the same number for two other operands exactly when these are congruent modulo N, and so does MultiplyPrivateKeys when the fixed operand is not a multiple of N. For a network whose prefix is one byte other than zero, every number below N with an even count of hex digits is the sum of a given key and some importable key, and the number of that key is unique below N; the same for the product when the given key is in [1, N-1].", "quantifier": "all private keys, all target numbers, all networks with a one-byte nonzero prefix", "why_tests_cant": "Ranges over all 256-bit numbers.", "anchors": ["private_key.go:AddPrivateKeys", "private_key.go:MultiplyPrivateKeys", "private_key.go:PrivateFromHex"]}
{"id": "C84", "title": "A returned sum or product is a usable key", "statement": "On a network whose prefix is whole bytes in hex, every key AddPrivateKeys or MultiplyPrivateKeys returns has a number in [1, N-1], and GetPublicKey gives a point of the curve for it, whatever the operands. On any network the product of keys in [1, N-1] is in [1, N-1]. With a prefix of an odd number of digits a sum of usable keys can be zero and have no public key.", "quantifier": "all pairs of private keys, all networks", "why_tests_cant": "The pairs that add up to a multiple of N are too rare to meet by chance.", "anchors": ["private_key.go:AddPrivateKeys", "private_key.go:MultiplyPrivateKeys", "private_key.go:GetPublicKey"]}
{"id": "C85", "title": "Doubling a key", "statement": "AddPrivateKeys and MultiplyPrivateKeys always refuse a key and itself as identical, although AddPublicKeys adds its public key to itself and gives the public key of the double. Importing the same number with two more zeros in front evades the refusal: the WIF is longer, and the sum is the double modulo N, the product the square, or the error for an odd count of digits.", "quantifier": "all private keys, all networks with a one-byte nonzero prefix for the leading zeros", "why_tests_cant": "Ranges over all keys and all hex texts of a key.", "anchors": ["private_key.go:AddPrivateKeys", "private_key.go:MultiplyPrivateKeys", "private_key.go:PrivateFromHex", "public_key.go:AddPublicKeys"]}
{"id": "C86", "title": "Public keys can be subtracted", "statement": "With one operand fixed, AddPublicKeys returns the same point only for the same other operand. Adding a key and then its opposite (same X, opposite Y) gives the first key back. Every key on the curve has an opposite on the curve.", "quantifier": "all public keys on the curve, both flags", "why_tests_cant": "Ranges over all points of the curve.", "anchors": ["public_key.go:AddPublicKeys"]}
{"id": "C87", "title": "What each result depends on", "statement": "AddPrivateKeys and MultiplyPrivateKeys read only the operands' numbers, networks and WIFs up to letter case; the WIFs only decide whether the pair is refused, never which key comes out; the Hex fields are not read. GetPublicKey's point depends on the number alone. Format reads only the coordinates; Address reads these and the network's address prefix, not its private prefix. PrivateFromHex and GeneratePrivateKey do not read the address prefix.", "quantifier": "all pairs of keys, networks, texts and random streams that agree on the fields named", "why_tests_cant": "It compares two runs on inputs that differ arbitrarily in the other fields.", "anchors": ["private_key.go:AddPrivateKeys", "private_key.go:MultiplyPrivateKeys", "private_key.go:PrivateFromHex", "private_key.go:GeneratePrivateKey", "public_key.go:GetPublicKey", "public_key.go:Format", "public_key.go:Address"]}
{"id": "C88", "title": "Letter case of hex", "statement": "Hex in other letter case imports to the same private number and WIF, differing only in the Hex field, or is refused alike; public keys import to the same result, error or panic. Networks whose prefixes differ only in letter case give the same WIFs, generated keys and addresses, yet AddPrivateKeys, MultiplyPrivateKeys and AddPublicKeys refuse keys of two such networks as being on different networks.", "quantifier": "all texts, networks and random streams equal up to ASCII letter case", "why_tests_cant": "Ranges over every mixture of letter case in texts of any length.", "anchors": ["private_key.go:PrivateFromHex", "private_key.go:GeneratePrivateKey", "private_key.go:AddPrivateKeys", "public_key.go:PublicFromHex", "public_key.go:Address", "public_key.go:AddPublicKeys"]}
{"id": "C89", "title": "How many compressed texts are public keys", "statement": "Of the numbers x from 0 to P - 1, exactly (N - 1) / 2 are accepted by PublicFromHex after 02, and exactly as many after 03.", "quantifier": "all x in [0, P), both prefixes, all networks", "why_tests_cant": "A count over about 2^256 inputs.", "anchors": ["public_key.go:PublicFromHex"]}
{"id": "C90", "title": "02 and 03 mistyped for each other", "statement": "If a compressed text is accepted, the text with 02 and 03 exchanged is accepted too, without any warning. It gives the opposite key: the same X, Y replaced by P - Y, the private number k by N - k. AddPublicKeys refuses the pair as not on the curve.", "quantifier": "all compressed texts with x below P, all networks", "why_tests_cant": "Ranges over all points of the curve.", "anchors": ["public_key.go:PublicFromHex", "public_key.go:AddPublicKeys"]}
{"id": "C91", "title": "Split keys by exchange of texts", "statement": "Any number of parties each export their public key with Format, in either form; whoever imports the texts with PublicFromHex and adds the keys with AddPublicKeys obtains exactly the public key of the sum of the private keys whenever that sum is formed successfully.", "quantifier": "all lists of private keys on one network, all choices of form, both flags", "why_tests_cant": "Ranges over all keys and any number of parties.", "anchors": ["private_key.go:AddPrivateKeys", "public_key.go:GetPublicKey", "public_key.go:Format", "public_key.go:PublicFromHex", "public_key.go:AddPublicKeys"]}
{"id": "C92", "title": "The hashes are the published standards'", "statement": "The checksum in every WIF and address is the first four bytes of the double SHA-256 of the payload, an address contains the RIPEMD-160 of the SHA-256 of the exported point, and the checksums of phrases are bits of SHA-256, where SHA-256 is the function of FIPS 180-4 and RIPEMD-160 that of its authors' paper: every text of fewer than 2^64 bits has exactly one hash of each kind and it is the one used.", "quantifier": "all messages of fewer than 2^64 bits; all texts, keys, points, sources and word lists of the calls named", "why_tests_cant": "Test vectors fix the hashes of a few messages; block boundaries, padding lengths and carries range over all of them.", "anchors": ["private_key.go:PrivateFromHex", "private_key.go:CheckWIF", "private_key.go:PrivateFromWIF", "public_key.go:Address", "mnemonic.go:NewMnemonic", "mnemonic.go:NewSeedFromMnemonic"]}
{"id": "C93", "title": "Every session computes what the arithmetic says", "statement": "Take any program that makes any number of calls in any order (generate, enter or re-import private and public keys, add, multiply, publish, add published keys, export, import, take addresses), feeding answers of earlier calls into later ones. Every answer is the one arithmetic modulo N calls for: private keys carry the sum or product of the numbers with matching hex and WIF, public keys are that multiple of G, texts and addresses are those of that point, and an error is returned exactly when the networks differ, the WIFs agree up to case, the result has an odd number of hex digits, or the sum of two public keys is infinity. No program panics, unless a generation finds no random block in range.", "quantifier": "all finite sequences of the thirteen kinds of request with any operands, all networks whose prefixes are whole bytes, all random sources, all ecdsa libraries meeting the contract; typed-in keys must be in range", "why_tests_cant": "Ranges over all histories of calls, of any length, and all random sources; an error may only surface after earlier answers are combined.", "anchors": ["private_key.go:GeneratePrivateKey", "private_key.go:PrivateFromHex", "private_key.go:PrivateFromWIF", "private_key.go:AddPrivateKeys", "private_key.go:MultiplyPrivateKeys", "public_key.go:GetPublicKey", "public_key.go:AddPublicKeys", "public_key.go:Format", "public_key.go:PublicFromHex", "public_key.go:Address"]}
{"id": "C94", "title": "The source text does what the model says", "statement": "Take the Go files as they are, parsed into syntax trees, and run them statement by statement on a heap. From every state in which the package has been initialised, every call of every exported function ends, by returning or by panicking, with exactly the answer the functional model gives for the same arguments: same value, same error, same kind of panic, nil arguments included. It changes no object that existed before the call, the keys it returns are new objects, it takes exactly the bytes the model takes from the random source (only key generation and NewMnemonic take any) and logs exactly the lines the model logs (only NewSeedFromMnemonic logs). Package initialisation sets the secp256k1 parameters and the two networks, and no call disturbs them.", "quantifier": "all states of the heap, the random source and the log; all argument strings, ints, networks, keys (shared objects and nil included) and word lists; all behaviours of the ecdsa dependency", "why_tests_cant": "Ranges over all arguments and all heaps, including aliasing between arguments; says that the hand-written model has no slip against the text of the source, for every input rather than for sampled ones.", "anchors": ["btc.go:init", "private_key.go:CheckWIF", "util.go:generateRandomBigInt", "util.go:bigIntToHex", "private_key.go:PrivateFromHex", "private_key.go:PrivateFromWIF", "private_key.go:GeneratePrivateKey", "private_key.go:AddPrivateKeys", "private_key.go:MultiplyPrivateKeys", "public_key.go:GetPublicKey", "public_key.go:PublicFromHex", "public_key.go:AddPublicKeys", "public_key.go:Format", "public_key.go:Address", "mnemonic.go:NewMnemonic", "mnemonic.go:NewSeedFromMnemonic"]}
{"id": "C95", "title": "Every program run on the source text computes what the arithmetic says", "statement": "Take the Go files as they are, parsed into syntax trees, and a program that makes any number of calls in any order on one heap, passing the very objects earlier calls returned to later ones. If the random source suffices, the program runs to its end, and everything it then holds, read on the final heap, is what arithmetic modulo N calls for: private keys with the right number, hex and WIF, public keys that are the right multiple of G, texts and addresses of that point, and errors exactly where they belong; later calls have not altered what earlier ones returned, and exactly the bytes accounted for are gone from the random source. If the random source does not suffice, the program ends with a panic in key generation. There is no third case and no choice.", "quantifier": "all finite sequences of the thirteen kinds of request with any operands, all networks whose prefixes are whole bytes, all heaps an initialised package can have, all random sources, all ecdsa libraries meeting the contract; typed-in keys must be in range", "why_tests_cant": "Ranges over all histories of calls on shared objects and all random sources, and relates the program text itself, not a sample of its runs, to arithmetic.", "anchors": ["btc.go:init", "private_key.go:GeneratePrivateKey", "private_key.go:PrivateFromHex", "private_key.go:PrivateFromWIF", "private_key.go:AddPrivateKeys", "private_key.go:MultiplyPrivateKeys", "public_key.go:GetPublicKey", "public_key.go:AddPublicKeys", "public_key.go:Format", "public_key.go:PublicFromHex", "public_key.go:Address"]}
{"id": "C96", "title": "What every call of the source text gives, in full, in terms of the published formats", "statement": "Running the Go text itself: CheckWIF answers true for exactly the Base58Check texts, panics on exactly the Base58 texts of one to three bytes, and answers false otherwise. PrivateFromHex, PrivateFromWIF, GeneratePrivateKey, AddPrivateKeys and MultiplyPrivateKeys return a new key whose number, hex and WIF are the ones arithmetic and Base58Check call for, or the stated error, or panic, each in exactly the stated cases. GetPublicKey returns the multiple of the generator; PublicFromHex, AddPublicKeys, Format and Address follow SEC1, the group law and Base58Check of HASH160. NewMnemonic returns the words of the reversed bits of the random bytes and their checksum, and NewSeedFromMnemonic never returns a seed. Nil keys, networks and lists give the stated panics and errors.", "quantifier": "all states of an initialised package, all argument strings, networks, keys, word lists and random sources; for points, all ecdsa libraries meeting the contract", "why_tests_cant": "Ranges over all inputs and all heaps, and says of the program text when each answer is given, not only that sampled answers are right.", "anchors": ["private_key.go:CheckWIF", "private_key.go:PrivateFromHex", "private_key.go:PrivateFromWIF", "private_key.go:GeneratePrivateKey", "private_key.go:AddPrivateKeys", "private_key.go:MultiplyPrivateKeys", "public_key.go:GetPublicKey", "public_key.go:PublicFromHex", "public_key.go:AddPublicKeys", "public_key.go:Format", "public_key.go:Address", "mnemonic.go:NewMnemonic", "mnemonic.go:NewSeedFromMnemonic"]}
{"id": "C97", "title": "Goroutines calling the source text at the same time do not disturb each other", "statement": "Take the Go files as they are, parsed into syntax trees, and let any number of goroutines each make a call of the exported API on the same objects (keys, networks and the package's curve, shared at will), the scheduler switching between them at any read, write, allocation, random draw or log line. At every moment every shared object is as it was at the start and no goroutine is about to write one, so there is no data race, not even by a write that is undone later. Every goroutine ends, and ends exactly as it would have alone: same results, same error or panic, same objects of its own, same lines logged, same random bytes taken. No schedule deadlocks or goes on for ever.", "quantifier": "all numbers of goroutines, all schedules, all initialised heaps, all calls of the thirteen exported functions with all well-typed arguments including nil and aliased ones, all random bytes each goroutine may get, all behaviours of the ecdsa dependency that only read their operands", "why_tests_cant": "Ranges over all interleavings of all numbers of goroutines; the race detector only sees the schedules that happen.", "anchors": ["btc.go:init", "private_key.go:CheckWIF", "private_key.go:PrivateFromHex", "private_key.go:PrivateFromWIF", "private_key.go:GeneratePrivateKey", "private_key.go:AddPrivateKeys", "private_key.go:MultiplyPrivateKeys", "public_key.go:GetPublicKey", "public_key.go:PublicFromHex", "public_key.go:AddPublicKeys", "public_key.go:Format", "public_key.go:Address", "mnemonic.go:NewMnemonic", "mnemonic.go:NewSeedFromMnemonic"]}
{"id": "C98", "title": "Programs run by concurrent goroutines on the source text compute what the arithmetic says", "statement": "Let any number of goroutines each run a program of any number of calls on the Go text, starting from keys and texts they may share, with any schedule. Whenever a goroutine has finished its program, everything it holds is what arithmetic modulo N calls for from its own program, its own starting values and its own random bytes: private keys with the right number, hex and WIF, public keys that are the right multiple of G, texts and addresses of that point, errors exactly where they belong. It has logged nothing. A goroutine panics only if its random bytes do not suffice. Shared objects never change and no deadlock is possible.", "quantifier": "all numbers of goroutines, all programs of the thirteen kinds of request, all schedules, all shared starting values that carry a meaning, all networks whose prefixes are whole bytes, all random bytes, all ecdsa libraries meeting the contract", "why_tests_cant": "Ranges over all interleavings of all histories of calls, and relates the program text itself to arithmetic.", "anchors": ["btc.go:init", "private_key.go:PrivateFromHex", "private_key.go:PrivateFromWIF", "private_key.go:GeneratePrivateKey", "private_key.go:AddPrivateKeys", "private_key.go:MultiplyPrivateKeys", "public_key.go:GetPublicKey", "public_key.go:PublicFromHex", "public_key.go:AddPublicKeys", "public_key.go:Format", "public_key.go:Address"]}
{"id": "C99", "title": "Goroutines on one machine: one allocator, one random reader, no data race", "statement": "Take the Go files as they are, parsed into syntax trees, and let any number of goroutines each make a call of the exported API on one machine: new objects of all goroutines come from one allocator, random bytes from one reader that hands its bytes out in any way, log lines go to one screen, and the scheduler may switch at every access. At every moment the objects of the start are as they were; no two goroutines are about to use the same object with one of them writing it; a goroutine reads only objects of the start or its own, and writes only its own. Every goroutine that has ended has ended as it would have alone with the random bytes it got: same panic, or same results and objects up to their addresses, same lines logged. No schedule deadlocks or goes on for ever. The source does not look at addresses: on arguments that differ only in addresses it makes the same steps up to those addresses.", "quantifier": "all numbers of goroutines, all schedules, all initialised heaps without dangling pointers, all calls of the thirteen exported functions with all well-typed arguments including nil and aliased ones, all random bytes and all ways of handing them out, all behaviours of the ecdsa dependency that only read their operands", "why_tests_cant": "Ranges over all interleavings, all allocation orders and all ways the random reader can serve several goroutines; the race detector only sees the schedules that happen.", "anchors": ["btc.go:init", "private_key.go:CheckWIF", "private_key.go:PrivateFromHex", "private_key.go:PrivateFromWIF", "private_key.go:GeneratePrivateKey", "private_key.go:AddPrivateKeys", "private_key.go:MultiplyPrivateKeys", "public_key.go:GetPublicKey", "public_key.go:PublicFromHex", "public_key.go:AddPublicKeys", "public_key.go:Format", "public_key.go:Address", "mnemonic.go:NewMnemonic", "mnemonic.go:NewSeedFromMnemonic"]}
{"id": "C100", "title": "Programs of goroutines on one machine compute what the arithmetic says", "statement": "On the machine of C99 let any number of goroutines each run a program of any number of calls, starting from keys and texts they may share. Whenever a goroutine has finished, everything it holds is, read in the common memory, what arithmetic modulo N calls for from its own program, its own starting values and the random bytes it got from the common reader; it has logged nothing. A goroutine panics only if it got too few random bytes. There is no data race, no deadlock, and the objects of the start never change.", "quantifier": "all numbers of goroutines, all programs of the thirteen kinds of request, all schedules, all shared starting values that carry a meaning, all networks whose prefixes are whole bytes, all random bytes and all ways of handing them out, all ecdsa libraries meeting the contract", "why_tests_cant": "Ranges over all interleavings of all histories of calls, and relates the program text itself to arithmetic.", "anchors": ["btc.go:init", "private_key.go:PrivateFromHex", "private_key.go:PrivateFromWIF", "private_key.go:GeneratePrivateKey", "private_key.go:AddPrivateKeys", "private_key.go:MultiplyPrivateKeys", "public_key.go:GetPublicKey", "public_key.go:PublicFromHex", "public_key.go:AddPublicKeys", "public_key.go:Format", "public_key.go:Address"]}
{"id": "C101", "title": "The width of an int does not matter", "statement": "On a machine whose ints have 32 bits or more, whatever becomes of results that overflow, every function of the package answers exactly as with unbounded integers (C94), as long as the texts and the word list given to it are not absurdly long: a WIF shorter than a quarter of 2^bits, a word list whose length is an int, a phrase of at most 2^(bits-1)/bits - 2 characters. The other functions, and NewMnemonic for any number of words, need no bound.", "quantifier": "all widths of ints from 32 bits on, all calls, all arguments within the bounds, all states of the memory and of the random source, all ecdsa libraries", "why_tests_cant": "Tests run on one width; an overflow shows only on inputs near the limits of an int, and the claim ranges over all inputs below them.", "anchors": ["private_key.go:CheckWIF", "private_key.go:PrivateFromWIF", "mnemonic.go:NewSeedFromMnemonic", "mnemonic.go:NewMnemonic", "btc.go:init", "private_key.go:PrivateFromHex", "private_key.go:GeneratePrivateKey", "private_key.go:AddPrivateKeys", "private_key.go:MultiplyPrivateKeys", "public_key.go:GetPublicKey", "public_key.go:PublicFromHex", "public_key.go:AddPublicKeys", "public_key.go:Format", "public_key.go:Address"]}
{"id": "C102", "title": "The syntax trees and word lists are those of the Go files", "statement": "The seven files of the package, character for character, are the text of the syntax trees that the other properties are about, and no other trees (whose names are not keywords and do not shadow an imported package) have that text: types, variables, functions and the nine word lists are determined by the text. More generally, two such trees with the same text are equal, and every tree whose words can be written has a text.", "quantifier": "all texts and all syntax trees of the fragment of Go the package uses; all ways to read the seven files as such trees", "why_tests_cant": "That a text has only one reading is a statement about all trees; running the code tests one reading of it.", "anchors": ["struct.go", "btc.go", "util.go", "private_key.go", "public_key.go", "mnemonic.go", "wordlists.go"]}
{"id": "C103", "title": "The repository's randomised tests pass on every random source", "statement": "The tests of key generation and of NewMnemonic, which draw from the random source, pass in every assertion for any number of rounds whenever the source has enough usable bytes for all the rounds. The only sources on which they do not pass are those without a usable 32-byte block for every key (the test crashes), those too short for the entropy (an assertion fails), and those with an entropy whose hash has too few significant bits for the checksum (the test crashes).", "quantifier": "all numbers of rounds and all contents of the random source", "why_tests_cant": "A run of a randomised test covers the bytes it happened to draw; that no draw makes it fail is a statement about all of them.", "anchors": ["private_key_test.go:TestGeneratePrivateKey", "mnemonic_test.go:TestNewMnemonic", "private_key.go:GeneratePrivateKey", "mnemonic.go:NewMnemonic"]}
{"id": "C104", "title": "Which correct ecdsa library is used does not matter", "statement": "If two libraries both do point arithmetic as the package relies on (points of the curve, x of the field, numbers that are not negative), every call answers alike with either: deriving a public key from a private key that is not negative, importing any text whose compressed x is in the field, adding points of the curve, and whole programs of calls. The bounds are exact: outside each of them there are two correct libraries that make the call answer differently.", "quantifier": "all pairs of libraries that meet the contract, all keys, texts, points and programs of calls within the bounds", "why_tests_cant": "A test runs with the one library that is linked; the claim compares it with every other one on every input.", "anchors": ["public_key.go:GetPublicKey", "public_key.go:PublicFromHex", "public_key.go:AddPublicKeys", "btc.go:init"]}
{"id": "C105", "title": "Programs of calls behave alike on 32-bit and 64-bit machines", "statement": "A program of key operations (generate, import, save and reload, add, multiply, publish, export, derive addresses), run on the Go source with ints of 32 bits or more that wrap around, ends with values of the arithmetic meaning of its requests, or with the panic of an exhausted random source, as with unbounded ints. The only condition is that no private key is typed in with 2^(bits-4) or more characters: no key the program computes itself ever gets near the limit. Two machines with ints of different widths tell the same story.", "quantifier": "all programs of key operations, all random sources, all heaps of an initialised package, all int widths of at least 32 bits", "why_tests_cant": "Tests run on one machine with short keys; that no chain of operations makes an int overflow is a statement about every program.", "anchors": ["private_key.go:PrivateFromWIF", "private_key.go:CheckWIF", "private_key.go:AddPrivateKeys", "private_key.go:MultiplyPrivateKeys", "private_key.go:GeneratePrivateKey", "public_key.go:PublicFromHex"]}
{"id": "C106", "title": "Goroutines behave alike on machines with ints of any width", "statement": "The guarantees for goroutines (any calls at the same time on shared keys, any programs of key operations at the same time, with separate or with one shared memory, allocator and random reader) hold as well when ints have 32 bits or more and wrap around: under every schedule no shared object is written, nothing gets stuck or deadlocks, and every goroutine that ends, ends as its call or program would alone on that machine. The only conditions are on lengths: of a WIF or phrase given to a call, and of the private keys a program is given or types in.", "quantifier": "all sets of goroutines, all schedules, all random sources, all heaps of an initialised package, all int widths of at least 32 bits", "why_tests_cant": "A race or an overflow shows only under some schedule and on some machine; tests see a few schedules on one machine.", "anchors": ["private_key.go:PrivateFromWIF", "private_key.go:CheckWIF", "private_key.go:AddPrivateKeys", "private_key.go:GeneratePrivateKey", "public_key.go:Format", "mnemonic.go:NewSeedFromMnemonic"]}
{"id": "C107", "title": "What a new key shares, and no program can corrupt the curve", "statement": "Every call that returns a key returns a new object whose numbers are new objects too; the only thing it shares with what was there before is the network object, which is the very one passed in (for sums, products and public keys: the one of the first key). So overwriting any other older object leaves the new key as it is, and overwriting the network changes it for all keys made with it. A program that makes and overwrites objects as it likes, as far as it can reach them from the exported variables and from what it was given, calls the package and recovers from its panics can never reach or change the parameters of the curve; every call it makes returns or panics, and only adds objects.", "quantifier": "all calls that make keys, all heaps; all programs: every sequence of allocations, overwrites of reachable objects, calls and recovered panics; all random sources; any ecdsa library", "why_tests_cant": "That no sequence of calls and writes leaks a pointer to the curve is a statement about all programs; a test sees one program, and an aliased number shows only when someone overwrites it.", "anchors": ["private_key.go:PrivateFromHex", "private_key.go:PrivateFromWIF", "private_key.go:GeneratePrivateKey", "private_key.go:AddPrivateKeys", "private_key.go:MultiplyPrivateKeys", "public_key.go:GetPublicKey", "public_key.go:PublicFromHex", "public_key.go:AddPublicKeys"]}
