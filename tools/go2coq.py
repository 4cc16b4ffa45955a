#!/usr/bin/env python3
"""Translate the Go files of the package into the syntax trees of rocq/theories/GoSyntax.v.

Usage: go2coq.py REPO > rocq/theories/GoSource.v
       go2coq.py REPO text > rocq/theories/GoText.v
       go2coq.py REPO words > rocq/theories/WordsText.v
       go2coq.py REPO files > rocq/theories/GoFiles.v

GoText.v and WordsText.v hold the files themselves, character for character (a quote is
doubled, as Coq's strings want it; wordlists.go is in pieces of 128 lines). GoFiles.v adds to the trees of GoSource.v the imports and the
types of parameters and results, which GoSource.v drops; Coq then checks that the words
of GoText.v are those of GoFiles.v (see GoPrint.v and PropertiesText.v).

Purely syntactic: a tokenizer with Go's automatic semicolons and a recursive
descent parser for the part of Go the package uses. Anything else is an error.
wordlists.go holds the word lists, which tools/wordlists.py transcribes.
"""
import re, sys, os

FILES = ['struct.go', 'btc.go', 'util.go', 'private_key.go', 'public_key.go', 'mnemonic.go']
LISTS = [n + 'Wordlist' for n in ('English', 'French', 'Japanese', 'Italian', 'Spanish', 'Korean', 'Czech', 'ChineseTraditional', 'ChineseSimplified')]
TOKEN = re.compile(r'''(?P<ws>[ \t\r]+)|(?P<nl>\n)|(?P<lc>//[^\n]*)|(?P<bc>/\*.*?\*/)|(?P<id>[A-Za-z_]\w*)|(?P<num>\d+)|(?P<str>"(?:[^"\\\n])*")|(?P<op>:=|==|!=|\+=|\+\+|\|\||&&|<=|>=|\.\.\.|[-+*/%&|<>!=(){}\[\],;:.])''', re.S)
KEYWORDS = {'package', 'import', 'func', 'var', 'type', 'struct', 'return', 'if', 'else', 'for', 'range', 'switch', 'case', 'default', 'break', 'nil'}

def tokens(src):
    out, i, line, last = [], 0, 1, None
    def ends(t):
        return t and (t[0] in ('num', 'str') or (t[0] == 'id' and (t[1] not in KEYWORDS or t[1] in ('return', 'break', 'nil'))) or t[1] in (')', ']', '}', '++'))
    while i < len(src):
        m = TOKEN.match(src, i)
        if not m: sys.exit(f'cannot read line {line}: {src[i:i+20]!r}')
        k, v = m.lastgroup, m.group()
        if k == 'nl':
            if ends(last): last = ('op', ';', line); out.append(last)
        elif k == 'bc':
            if '\n' in v and ends(last): last = ('op', ';', line); out.append(last)
        elif k in ('id', 'num', 'str', 'op'):
            last = (k, v, line); out.append(last)
        line += v.count('\n'); i = m.end()
    out.append(('eof', '', line))
    return out

def q(s): return '"' + s + '"'

class Parser:
    def __init__(self, src, fname):
        self.t, self.i, self.fname, self.imports, self.paths = tokens(src), 0, fname, set(), []
        self.decls = []
    def peek(self, k=0): return self.t[self.i + k][1]
    def kind(self, k=0): return self.t[self.i + k][0]
    def line(self): return self.t[self.i][2]
    def next(self): self.i += 1; return self.t[self.i - 1][1]
    def expect(self, v):
        if self.peek() != v: self.fail(f'expected {v!r}')
        self.i += 1
    def fail(self, msg): sys.exit(f'{self.fname}:{self.line()}: {msg}, found {self.peek()!r}')
    def accept(self, v):
        if self.peek() == v: self.i += 1; return True
        return False
    def ident(self):
        if self.kind() != 'id' or self.peek() in KEYWORDS: self.fail('expected a name')
        return self.next()
    # types, as text
    def typ(self):
        if self.accept('*'): return '*' + self.typ()
        if self.accept('['): self.expect(']'); return '[]' + self.typ()
        n = self.ident()
        if self.accept('.'): n += '.' + self.ident()
        return n
    # files
    def file(self):
        self.expect('package'); self.package = self.ident(); self.expect(';')
        while self.accept('import'):
            self.expect('(')
            while not self.accept(')'):
                if self.kind() != 'str': self.fail('expected a path')
                self.paths.append(self.next().strip('"')); self.imports.add(self.paths[-1].split('/')[-1]); self.expect(';')
            self.expect(';')
        while self.kind() != 'eof':
            ln = self.line()
            if self.accept('func'): self.func(ln)
            elif self.accept('var'):
                n = self.ident(); t = self.typ(); self.expect(';'); self.decls.append(('var', n, t, ln, ln))
            elif self.accept('type'):
                n = self.ident(); self.expect('struct'); self.expect('{'); fs = []
                while not self.accept('}'):
                    f = self.ident(); fs.append((f, self.typ())); self.expect(';')
                self.decls.append(('type', n, fs, ln, self.t[self.i - 1][2])); self.expect(';')
            else: self.fail('expected a declaration')
    def params(self):
        self.expect('('); ps = []
        while not self.accept(')'):
            n = self.ident(); ps.append((n, self.typ())); self.accept(',')
        return ps
    def func(self, ln):
        recv = self.params() if self.peek() == '(' else []
        name = n = self.ident(); ps = self.params(); rs = []
        if self.peek() == '(':
            self.next()
            while not self.accept(')'): rs.append(self.typ()); self.accept(',')
        elif self.peek() != '{': rs.append(self.typ())
        b = self.block(); end = self.t[self.i - 1][2]
        self.expect(';')
        if recv: n = recv[0][1].lstrip('*') + '.' + n
        self.decls.append(('func', n, recv + ps, b, ln, end, (recv, name, ps, rs)))
    # statements: (line, constructor text pieces)
    def block(self):
        self.expect('{'); out = []
        while not self.accept('}'):
            out.append(self.stmt())
            if self.peek() != '}': self.expect(';')
        return out
    def stmt(self):
        ln = self.line()
        if self.accept('return'):
            es = []
            if self.peek() not in (';', '}'): es = self.exprs()
            return (ln, 'Return', es)
        if self.accept('break'): return (ln, 'Break')
        if self.accept('var'):
            n = self.ident(); return (ln, 'VarDecl', n, self.typ())
        if self.accept('if'):
            c = self.expr(nolit=True); a = self.block(); b = []
            if self.accept('else'): b = [self.stmt()] if self.peek() == 'if' else self.block()
            return (ln, 'If', c, a, b)
        if self.accept('switch'):
            e = self.expr(nolit=True); self.expect('{'); cs, d = [], []
            while not self.accept('}'):
                if self.accept('default'): v = None
                else: self.expect('case'); v = self.expr()
                self.expect(':'); b = []
                while self.peek() not in ('case', 'default', '}'):
                    b.append(self.stmt())
                    if self.peek() != '}': self.expect(';')
                if v is None: d = b
                else: cs.append((v, b))
            return (ln, 'Switch', e, cs, d)
        if self.accept('for'):
            return self.for_stmt(ln)
        return self.simple(ln)
    def for_stmt(self, ln):
        # for i := range e | for _, x := range e
        j = self.i; names = []
        while self.t[j][0] == 'id':
            names.append(self.t[j][1]); j += 1
            if self.t[j][1] == ',': j += 1
            else: break
        if names and self.t[j][1] == ':=' and self.t[j + 1][1] == 'range':
            self.i = j + 2; e = self.expr(nolit=True)
            k, v = (names + ['_'])[:2]
            return (ln, 'Range', k, v, e, self.block())
        if self.has_semicolons():
            init = self.simple(ln); self.expect(';'); c = self.expr(nolit=True); self.expect(';'); post = self.simple(ln, nolit=True)
            return (ln, 'For', [init], c, [post], self.block())
        c = self.expr(nolit=True)
        return (ln, 'For', [], c, [], self.block())
    def has_semicolons(self):
        j = self.i
        while self.t[j][1] != '{':
            if self.t[j][1] == ';': return True
            j += 1
        return False
    def simple(self, ln, nolit=False):
        ls = self.exprs(nolit)
        if self.accept(':='):
            if any(l[0] != 'Var' for l in ls): self.fail('names on the left of :=')
            return (ln, 'Define', [l[1] for l in ls], self.expr(nolit))
        if self.accept('='): return (ln, 'Assign', ls, self.expr(nolit))
        if len(ls) != 1: self.fail('one expression')
        if self.accept('+='): return (ln, 'AddAssign', ls[0], self.expr(nolit))
        if self.accept('++'): return (ln, 'AddAssign', ls[0], ('Int', 1))
        return (ln, 'Do', ls[0])
    # expressions
    def exprs(self, nolit=False):
        es = [self.expr(nolit)]
        while self.accept(','): es.append(self.expr(nolit))
        return es
    LEVELS = [{'||': 'OpOr'}, {'==': 'OpEq', '!=': 'OpNe', '<': 'OpLt'}, {'+': 'OpAdd', '-': 'OpSub'}, {'/': 'OpDiv'}]
    def expr(self, nolit=False, lv=0):
        if lv == len(self.LEVELS): return self.unary(nolit)
        a = self.expr(nolit, lv + 1)
        while self.kind() == 'op' and self.peek() in self.LEVELS[lv]:
            o = self.LEVELS[lv][self.next()]; a = ('Bin', o, a, self.expr(nolit, lv + 1))
        return a
    def unary(self, nolit):
        if self.accept('!'): return ('Not', self.unary(nolit))
        if self.accept('&'): return ('Addr', self.unary(nolit))
        if self.accept('-'):
            if self.kind() != 'num': self.fail('expected a number')
            return ('Int', -int(self.next()))
        return self.postfix(nolit)
    def args(self):
        self.expect('('); es = []
        while not self.accept(')'): es.append(self.expr()); self.accept(',')
        return es
    def postfix(self, nolit):
        e = self.primary()
        while True:
            if self.peek() == '.':
                self.next(); f = self.ident()
                if self.peek() == '(': e = ('Method', e, f, self.args())
                else: e = ('Field', e, f)
            elif self.peek() == '[':
                self.next(); a = self.expr()
                if self.accept(':'): b = self.expr(); self.expect(']'); e = ('Slice', e, a, b)
                else: self.expect(']'); e = ('Index', e, a)
            elif self.peek() == '{' and not nolit and e[0] == 'Var':
                e = ('Lit', e[1], self.fields())
            else: return e
    def fields(self):
        self.expect('{'); fs = []
        while not self.accept('}'):
            f = self.ident(); self.expect(':'); fs.append((f, self.expr())); self.accept(','); self.accept(';')
        return fs
    def primary(self):
        if self.kind() == 'num': return ('Int', int(self.next()))
        if self.kind() == 'str': return ('Str', self.next()[1:-1])
        if self.accept('nil'): return ('Nil',)
        if self.accept('('): e = self.expr(); self.expect(')'); return e
        n = self.ident()
        if n in self.imports and self.peek() == '.' : self.next(); n += '.' + self.ident()
        if n == 'new': self.expect('('); t = self.typ(); self.expect(')'); return ('New', t)
        if self.peek() == '(': return ('Call', n, self.args())
        return ('Var', n)

def lst(xs): return '[' + '; '.join(xs) + ']'
def ex(e, top=False):
    k = e[0]
    if k == 'Nil': return 'Nil'
    if k == 'Var': r = f'Var {q(e[1])}'
    elif k == 'Int': r = f'Int ({e[1]})' if e[1] < 0 else f'Int {e[1]}'
    elif k == 'Str': r = f'Str {q(e[1])}'
    elif k == 'New': r = f'New {q(e[1])}'
    elif k == 'Field': r = f'Field {ex(e[1])} {q(e[2])}'
    elif k == 'Index': r = f'Index {ex(e[1])} {ex(e[2])}'
    elif k == 'Slice': r = f'Slice {ex(e[1])} {ex(e[2])} {ex(e[3])}'
    elif k == 'Call': r = f'Call {q(e[1])} {lst([ex(a, True) for a in e[2]])}'
    elif k == 'Method': r = f'Method {ex(e[1])} {q(e[2])} {lst([ex(a, True) for a in e[3]])}'
    elif k == 'Addr': r = f'Addr {ex(e[1])}'
    elif k == 'Not': r = f'Not {ex(e[1])}'
    elif k == 'Bin': r = f'Bin {e[1]} {ex(e[2])} {ex(e[3])}'
    elif k == 'Lit': r = f'Lit {q(e[1])} ' + lst([f'({q(f)}, {ex(v, True)})' for f, v in e[2]])
    else: raise Exception(k)
    return r if top else f'({r})'
def block(b, ind):
    if not b: return '[]'
    pad = ' ' * ind
    return '[\n' + ';\n'.join(stmt(s, ind + 2) for s in b) + ' ]'
def stmt(s, ind):
    pad = ' ' * ind; ln, k = s[0], s[1]; c = f'(* {ln} *) '
    if k == 'Return': r = f'Return {lst([ex(e, True) for e in s[2]])}'
    elif k == 'Break': r = 'Break'
    elif k == 'VarDecl': r = f'VarDecl {q(s[2])} {q(s[3])}'
    elif k == 'Define': r = f'Define {lst([q(x) for x in s[2]])} {ex(s[3])}'
    elif k == 'Assign': r = f'Assign {lst([ex(x, True) for x in s[2]])} {ex(s[3])}'
    elif k == 'AddAssign': r = f'AddAssign {ex(s[2])} {ex(s[3])}'
    elif k == 'Do': r = f'Do {ex(s[2])}'
    elif k == 'If': r = f'If {ex(s[2])} {block(s[3], ind)} {block(s[4], ind)}'
    elif k == 'For': r = f'For {lst([stmt(x, 0) for x in s[2]])} {ex(s[3])} {lst([stmt(x, 0) for x in s[4]])} {block(s[5], ind)}'
    elif k == 'Range': r = f'Range {q(s[2])} {q(s[3])} {ex(s[4])} {block(s[5], ind)}'
    elif k == 'Switch':
        cs = '[\n' + ';\n'.join(f'{pad}  ({ex(v, True)}, {block(b, ind + 2)})' for v, b in s[3]) + ' ]'
        r = f'Switch {ex(s[2])} {cs} {block(s[4], ind)}'
    else: raise Exception(k)
    return pad + c + r

def main(repo):
    out = ['''(** * The source of the package as syntax trees

    Generated from /repo by tools/go2coq.py; do not edit. Every statement carries
    its line in the Go file. wordlists.go holds the word lists only and is not
    translated. *)

From Coq Require Import String ZArith List.
Import ListNotations.
From Verif Require Import GoSyntax.
Local Open Scope string_scope.
Local Open Scope Z_scope.
''']
    types, funcs, vars_ = [], [], []
    for f in FILES:
        p = Parser(open(os.path.join(repo, f)).read(), f); p.file()
        out.append(f'(** ** {f} *)\n')
        for d in p.decls:
            if d[0] == 'type':
                out.append(f'(** {f}:{d[3]}-{d[4]} *)\nDefinition type_{d[1]} : list (string * string) := ' + lst([f'({q(a)}, {q(b)})' for a, b in d[2]]) + '.\n')
                types.append(d[1])
            elif d[0] == 'var':
                vars_.append((d[1], d[2]))
                out.append(f'(** {f}:{d[3]} *)\nDefinition var_{d[1]} : string * string := ({q(d[1])}, {q(d[2])}).\n')
            else:
                _, n, ps, b, lo, hi, _ = d
                out.append(f'(** {f}:{lo}-{hi} *)\nDefinition src_{n.replace(".", "_")} : func := Func {q(n)} ' + lst([q(x) for x, _ in ps]) + ' ' + block(b, 0) + '.\n')
                funcs.append(n)
    out.append('(** ** The package *)\n')
    out.append('Definition source_types : list (string * list (string * string)) := ' + lst([f'({q(t)}, type_{t})' for t in types]) + '.')
    out.append('Definition source_vars : list (string * string) := ' + lst([f'var_{v}' for v, _ in vars_]) + '.')
    out.append('Definition source_funcs : list func :=\n  ' + lst([f'src_{n.replace(".", "_")}' for n in funcs]) + '.')
    print('\n'.join(out))

def pairs(ps): return lst([f'({q(a)}, {q(b)})' for a, b in ps])

def text(repo):
    print('''(** * The files of the package, character for character

    Generated from /repo by tools/go2coq.py; do not edit. A quote inside a string is
    doubled, which is how Coq writes it. *)

From Coq Require Import String.
Local Open Scope string_scope.
''')
    for f in FILES:
        src = open(os.path.join(repo, f)).read()
        print(f'(** {f}:1-{src.count(chr(10))} *)')
        print(f'Definition text_{f.replace(".", "_")} : string :=\n"' + src.replace('"', '""') + '".\n')

def words(repo):
    print('''(** * wordlists.go, character for character

    Generated from /repo by tools/go2coq.py; do not edit. A quote inside a string is
    doubled, which is how Coq writes it; the file is cut into pieces of 128 lines. *)

From Coq Require Import String.
Local Open Scope string_scope.
''')
    lines = open(os.path.join(repo, 'wordlists.go')).read().splitlines(keepends=True)
    names = []
    for i in range(0, len(lines), 128):
        part = lines[i:i + 128]; names.append(f'words_{i + 1}')
        print(f'(** wordlists.go:{i + 1}-{i + len(part)} *)')
        print(f'Definition words_{i + 1} : string :=\n"' + ''.join(part).replace('"', '""') + '".\n')
    print(f'(** wordlists.go:1-{len(lines)} *)')
    print('Definition text_wordlists_go : string :=\n  ' + ' ++\n  '.join(names) + '.')

def files(repo):
    print('''(** * The files of the package as trees, with their imports and types

    Generated from /repo by tools/go2coq.py; do not edit. The bodies of the functions
    are those of [GoSource.v]. *)

From Coq Require Import String List.
Import ListNotations.
From Verif Require Import GoSyntax GoSource GoText WordsText GoPrint.
From Verif Require Import WordsEnglish WordsFrench WordsJapanese WordsItalian WordsSpanish WordsKorean
  WordsCzech WordsChineseTraditional WordsChineseSimplified.
Local Open Scope string_scope.
''')
    for f in FILES:
        p = Parser(open(os.path.join(repo, f)).read(), f); p.file(); ds = []
        for d in p.decls:
            if d[0] == 'type': ds.append(f'DStruct {q(d[1])} {pairs(d[2])}')
            elif d[0] == 'var': ds.append(f'DVar {q(d[1])} {q(d[2])}')
            else:
                recv, name, ps, rs = d[6]
                r = f'(Some ({q(recv[0][0])}, {q(recv[0][1])}))' if recv else 'None'
                ds.append(f'DFunc {r} {q(name)} {pairs(ps)} {lst([q(x) for x in rs])} (f_body src_{d[1].replace(".", "_")})')
        print(f'(** {f} *)\nDefinition file_{f.replace(".", "_")} : go_file := GoFile {q(p.package)}\n  {lst([q(x) for x in p.paths])}\n  [' + ';\n   '.join(ds) + '].\n')
    print('(** wordlists.go; the lists are those of Words*.v *)\nDefinition file_wordlists_go : go_file := GoFile "btc" []\n  [DType "Wordlist" "[]string";\n   ' + ';\n   '.join(f'DList {q(n)} "Wordlist" (map string_of_list_byte {n})' for n in LISTS) + '].\n')
    names = [f.replace('.', '_') for f in FILES + ['wordlists.go']]
    print('(** ** The package: its texts and its files *)\n')
    print('Definition source_texts : list string :=\n  ' + lst([f'text_{n}' for n in names]) + '.')
    print('Definition source_files : list go_file :=\n  ' + lst([f'file_{n}' for n in names]) + '.')

{'': main, 'text': text, 'words': words, 'files': files}[(sys.argv[2:] or [''])[0]](sys.argv[1])
