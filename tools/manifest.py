#!/usr/bin/env python3
"""Writes MANIFEST.json: collects the theorem names C<nn>_* from rocq/theories/Properties."""
import json, re, glob, os
root = os.path.dirname(os.path.dirname(os.path.abspath(__file__)))
thms = {}
for f in sorted(glob.glob(root + '/rocq/theories/Properties/*.v')):
    txt = open(f).read()
    for m in re.finditer(r'^(?:Theorem|Lemma|Corollary)\s+(C(\d\d)_\w+)', txt, re.M):
        thms.setdefault('C' + m.group(2), []).append(m.group(1))
notes = json.load(open(root + '/tools/notes.json'))
claims = []
for line in open(root + '/properties.jsonl'):
    d = json.loads(line)
    i = d['id']
    ts = thms.get(i, [])
    if not ts and notes.get(i, {}).get('status') != 'not_applicable':
        print('no theorem yet:', i); continue
    n = notes.get(i, {})
    status = n.get('status') or ('partial' if all(t.endswith('_partial') for t in ts) else 'proved')
    claims.append({'property': i, 'status': status, 'theorems': ts, 'note': n.get('note', '')})
json.dump({'claims': claims}, open(root + '/MANIFEST.json', 'w'), indent=1)
print(len(claims), 'claims')
