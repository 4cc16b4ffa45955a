#!/usr/bin/env python3
"""Transcribe /repo/wordlists.go into rocq/theories/Words*.v, one file per list."""
import re, os
root = os.path.dirname(os.path.dirname(os.path.abspath(__file__)))
lines = open('/repo/wordlists.go', encoding='utf-8').read().split('\n')
starts = [(i, m.group(1)) for i, l in enumerate(lines) for m in [re.match(r'var (\w+)Wordlist = Wordlist\{$', l)] if m]
for i, name in starts:
    words = []
    j = i + 1
    while lines[j].strip() != '}':
        m = re.match(r'^\t"([^"\\]*)",$', lines[j])
        assert m, lines[j]
        words.append(m.group(1))
        j += 1
    with open(f'{root}/rocq/theories/Words{name}.v', 'w', encoding='utf-8') as f:
        f.write(f'(** * {name}Wordlist\n\n    Transcribed by tools/wordlists.py from wordlists.go:{i+1}-{j+1}, one string per\n    line, in order, as UTF-8 bytes. *)\n\n')
        f.write('From Verif Require Import GoBase.\nFrom Coq Require Import String.\n\n')
        f.write(f'(** wordlists.go:{i+1}-{j+1} *)\nDefinition {name}Wordlist : list gostring := map str [\n')
        f.write(';\n'.join(f'  "{w}"' for w in words))
        f.write('\n]%string.\n')
    print(name, len(words))
