#!/usr/bin/env python3
"""Regenerate MANIFEST.json: theorems named Cnn_... in rocq/theories/Properties*.v, notes from tools/notes.json."""
import json, re, glob, os
root = os.path.dirname(os.path.dirname(os.path.abspath(__file__)))
thms = {}
for f in sorted(glob.glob(root + '/rocq/theories/Properties*.v')):
    mod = os.path.basename(f)[:-2]
    for m in re.finditer(r'^Theorem (((?:C\d{2,}_)+)\w*)', open(f).read(), re.M):
        for c in re.findall(r'C\d{2,}', m.group(2)):
            thms.setdefault(c, []).append(m.group(1))
notes = json.load(open(root + '/tools/notes.json'))
claims = []
for line in open(root + '/properties.jsonl'):
    c = json.loads(line)['id']
    t = thms.get(c, [])
    n = notes.get(c, {})
    status = n.get('status') or ('proved' if t else 'partial')
    claims.append({'property': c, 'status': status, 'theorems': t, 'note': n.get('note', '' if t else 'not proved yet')})
json.dump({'claims': claims}, open(root + '/MANIFEST.json', 'w'), indent=1)
print(sum(1 for c in claims if c['status'] == 'proved'), 'proved of', len(claims), '; theorems', sum(len(c['theorems']) for c in claims))
