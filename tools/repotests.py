#!/usr/bin/env python3
"""Write rocq/theories/RepoTests.v from the test tables of /repo/*_test.go."""
import re

priv = open('/repo/private_key_test.go').read()
pub = open('/repo/public_key_test.go').read()


def func(src, name):
    i = src.index('func ' + name + '(')
    j = src.find('\nfunc ', i + 1)
    return src[i:j if j > 0 else len(src)]


def rows(text, n, net=True):
    """Rows of n string fields; the network may stand anywhere in the row."""
    out = []
    for line in text.split('\n'):
        line = line.strip()
        if not line.startswith('{"'):
            continue
        s = re.findall(r'"([^"]*)"', line)
        w = re.search(r'(Main|Test)Network', line)
        assert len(s) == n, line
        out.append((s, w.group(1) + 'Network' if w else None))
    return out


def table(name, typ, items):
    return 'Definition %s : list (%s) := [\n  %s].\n' % (name, typ, ';\n  '.join(items))


def q(s):
    return 'str "%s"' % s


o = ['''(** * The repository's own test tables, run through the model

    Written by tools/repotests.py from /repo/*_test.go. Tests, not proofs: each
    table is evaluated when this file is compiled ([Eval vm_compute]), and only the
    answer is kept, so that checking the compiled file again is cheap. The last
    part has test vectors of the hash functions, checked by the kernel. *)

From Verif Require Import GoBase GoNum Sha256 Ripemd160 Base58 GoRand Model FastLib MnemWitness WordsEnglish.
Local Open Scope Z_scope.

Definition is_text (t : gostring) (r : outcome gostring) : bool :=
  match r with Ret x => str_eqb (to_lower x) (to_lower t) | Panic _ => false end.
Definition on_key {A} (r : outcome (result A)) (f : A -> bool) : bool :=
  match r with Ret (Ok k) => f k | _ => false end.
Definition is_error {A} (r : outcome (result A)) : bool :=
  match r with Ret (Err _) => true | _ => false end.
''']


def test(name, expr):
    o.append('Definition %s : bool := Eval vm_compute in\n  %s.\nExample %s_ok : %s = true.\nProof. reflexivity. Qed.\n' % (name, expr, name, name))


# TestPrivateFromHex, TestPrivateFromWIF
r = rows(func(priv, 'TestPrivateFromHex'), 2)
o.append('(** private_key_test.go: TestPrivateFromHex, TestPrivateFromWIF *)')
o.append(table('hex_wif', 'gostring * gostring * network', ['(%s, %s, %s)' % (q(s[0]), q(s[1]), n) for s, n in r]))
test('test_PrivateFromHex', "forallb (fun '(h, w, n) => on_key (PrivateFromHex h (Some n)) (fun k => str_eqb (WIF k) w)) hex_wif")
assert rows(func(priv, 'TestPrivateFromWIF'), 2) == r
test('test_PrivateFromWIF', "forallb (fun '(h, w, n) => on_key (PrivateFromWIF w (Some n)) (fun k => str_eqb (to_lower (Hex k)) (to_lower h))) hex_wif")
bad = re.findall(r'PrivateFromHex\("([^"]*)"', func(priv, 'TestPrivateFromHex'))
test('test_PrivateFromHex_errors', 'forallb (fun h => is_error (PrivateFromHex h (Some MainNetwork))) [%s]' % ';\n    '.join(map(q, bad)))
bad = re.findall(r'PrivateFromWIF\("([^"]*)"', func(priv, 'TestPrivateFromWIF'))
test('test_PrivateFromWIF_errors', 'forallb (fun h => is_error (PrivateFromWIF h (Some MainNetwork))) [%s]' % ';\n    '.join(map(q, bad)))

# TestWIF
t = func(priv, 'TestWIF')
good, badw = t.split('/* Incorrect wif */')
o.append('(** private_key_test.go: TestWIF *)')
for nm, part, want in (('valid', good, 'true'), ('invalid', badw, 'false')):
    w = re.findall(r'^\s*"([^"]*)",', part, re.M)
    o.append(table('wifs_' + nm, 'gostring', [q(x) for x in w]))
    test('test_CheckWIF_' + nm, 'forallb (fun w => match CheckWIF w with Ret b => Bool.eqb b %s | Panic _ => false end) wifs_%s' % (want, nm))

# TestAddPrivateKeys, TestMultiplyPrivateKeys
for fn in ('Add', 'Multiply'):
    t = func(priv, 'Test%sPrivateKeys' % fn)
    main, tst = t.split('/* Test network */')
    o.append('(** private_key_test.go: Test%sPrivateKeys *)' % fn)
    items = ['(%s, %s, %s, %s)' % (q(s[0]), q(s[1]), q(s[2]), n) for part, n in ((main, 'MainNetwork'), (tst, 'TestNetwork')) for s, _ in rows(part, 3)]
    o.append(table(fn.lower() + '_keys', 'gostring * gostring * gostring * network', items))
    test('test_%sPrivateKeys' % fn, "forallb (fun '(a, b, c, n) => on_key (PrivateFromWIF a (Some n)) (fun x => on_key (PrivateFromWIF b (Some n)) (fun y =>\n    on_key (%sPrivateKeys x y) (fun k => str_eqb (WIF k) c)))) %s_keys" % (fn, fn.lower()))
    pairs = re.findall(r'PrivateFromWIF\("([^"]*)", (\w+)\)', main)
    pairs = [pairs[i:i + 2] for i in range(0, len(pairs), 2)]
    assert len(pairs) == 2
    # the second pair goes to AddPrivateKeys in both tests
    for i, (p, f) in enumerate(zip(pairs, (fn, 'Add'))):
        test('test_%sPrivateKeys_error%d' % (fn, i + 1), 'on_key (PrivateFromWIF (%s) (Some %s)) (fun x =>\n    on_key (PrivateFromWIF (%s) (Some %s)) (fun y => is_error (%sPrivateKeys x y)))' % (q(p[0][0]), p[0][1], q(p[1][0]), p[1][1], f))

# TestGetPublicKey, TestFormat
o.append('(** public_key_test.go: TestGetPublicKey, TestFormat *)')
g = rows(func(pub, 'TestGetPublicKey'), 3)
f = rows(func(pub, 'TestFormat'), 3)
assert [x[0][0] for x in g] == [x[0][0] for x in f]
o.append(table('public_keys', 'gostring * network * (Z * Z) * (gostring * gostring)',
    ['(%s, %s, (%s, %s), (%s, %s))' % (q(a[0]), n, a[1], a[2], q(b[1]), q(b[2])) for (a, n), (b, _) in zip(g, f)]))
test('test_GetPublicKey', "forallb (fun '(w, n, (x, y), (u, c)) => on_key (PrivateFromWIF w (Some n)) (fun k =>\n    match GetPublicKey fast_lib k with\n    | Ret (Some p) => net_eqb (PNetwork p) (Some n) && match PX p, PY p with Some a, Some b => (a =? x) && (b =? y) | _, _ => false end &&\n        is_text u (Format p false) && is_text c (Format p true)\n    | _ => false end)) public_keys")

# TestAddress, TestPublicFromHex
o.append('(** public_key_test.go: TestAddress, TestPublicFromHex *)')
a = rows(func(pub, 'TestAddress'), 3)
h = rows(func(pub, 'TestPublicFromHex'), 2)
assert [x[0][0] for x in a] == [x[0][0] for x in h]
o.append(table('addresses', 'gostring * gostring * gostring * gostring * network',
    ['(%s, %s, %s, %s, %s)' % (q(x[0]), q(y[1]), q(x[1]), q(x[2]), n) for (x, n), (y, _) in zip(a, h)]))
test('test_Address', "forallb (fun '(u, c, au, ac, n) => on_key (PublicFromHex fast_lib u (Some n)) (fun p =>\n    on_key (Address p false) (str_eqb au) && on_key (Address p true) (str_eqb ac))) addresses")
test('test_PublicFromHex', "forallb (fun '(u, c, _, _, n) => on_key (PublicFromHex fast_lib u (Some n)) (fun p => is_text c (Format p true)) &&\n    on_key (PublicFromHex fast_lib c (Some n)) (fun p => is_text u (Format p false))) addresses")

# TestAddPublicKeys
o.append('(** public_key_test.go: TestAddPublicKeys *)')
s = rows(func(pub, 'TestAddPublicKeys'), 3)
o.append(table('sums', 'gostring * gostring * gostring * network', ['(%s, %s, %s, %s)' % (q(x[0]), q(x[1]), q(x[2]), n) for x, n in s]))
test('test_AddPublicKeys', "forallb (fun '(a, b, c, n) => on_key (PublicFromHex fast_lib a (Some n)) (fun p => on_key (PublicFromHex fast_lib b (Some n)) (fun q =>\n    on_key (AddPublicKeys fast_lib p q false) (fun r => is_text c (Format r false))))) sums")

# TestNewSeedFromMnemonic checks nothing; the phrase is a valid BIP-39 phrase or not
ph = re.search(r'NewSeedFromMnemonic\("([^"]*)"', open('/repo/mnemonic_test.go').read()).group(1)
o.append('(** mnemonic_test.go: TestNewSeedFromMnemonic (the test ignores the result) *)')
test('test_NewSeedFromMnemonic', 'match snd (NewSeedFromMnemonic (%s) [] english) with Ret (Ok None) => true | _ => false end' % q(ph))

o.append('''(** Published vectors: FIPS 180-4 and the RIPEMD-160 page of its authors. *)
Example sha256_empty : hex_encode (sha256 []) = str "e3b0c44298fc1c149afbf4c8996fb92427ae41e4649b934ca495991b7852b855".
Proof. vm_compute. reflexivity. Qed.
Example sha256_abc : hex_encode (sha256 (str "abc")) = str "ba7816bf8f01cfea414140de5dae2223b00361a396177a9cb410ff61f20015ad".
Proof. vm_compute. reflexivity. Qed.
Example sha256_two_blocks : hex_encode (sha256 (str "abcdbcdecdefdefgefghfghighijhijkijkljklmklmnlmnomnopnopq")) =
  str "248d6a61d20638b8e5c026930c3e6039a33ce45964ff2167f6ecedd419db06c1".
Proof. vm_compute. reflexivity. Qed.
Example ripemd160_empty : hex_encode (ripemd160 []) = str "9c1185a5c5e9fc54612808977ee8f548b2258d31".
Proof. vm_compute. reflexivity. Qed.
Example ripemd160_abc : hex_encode (ripemd160 (str "abc")) = str "8eb208f7e05d987a9b044a8e98c6b087f15a0bfc".
Proof. vm_compute. reflexivity. Qed.
Example ripemd160_two_blocks : hex_encode (ripemd160 (str "abcdbcdecdefdefgefghfghighijhijkijkljklmklmnlmnomnopnopq")) =
  str "12a053384a9c0c88e405a06c27dcf49ada62eb2b".
Proof. vm_compute. reflexivity. Qed.
''')
open('/verif/rocq/theories/RepoTests.v', 'w').write('\n'.join(o))
