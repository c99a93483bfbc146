#!/usr/bin/env python3
"""Writes MANIFEST.json and rocq/_CoqProject; checks that every theorem named exists."""
import json, re, glob, os
root = os.path.dirname(os.path.dirname(os.path.abspath(__file__)))
files = [l.strip() for l in open(root + '/tools/files.txt') if l.strip()]
open(root + '/rocq/_CoqProject', 'w').write('-Q theories Verif\n' + ''.join(f'theories/{f}.v\n' for f in files))
thms = set()
for p in glob.glob(root + '/rocq/theories/Props_*.v'):
    thms |= set(re.findall(r'^Theorem (\w+)', open(p).read(), re.M))
props = [json.loads(l)['id'] for l in open(root + '/properties.jsonl')]
notes = {}
exec(open(root + '/tools/claims.py').read())
claims, used = [], set()
for pid in props:
    status, names, note = CLAIMS.get(pid, ('partial', [], 'Not proved yet.'))
    for n in names:
        assert n in thms, (pid, n)
    used |= set(names)
    claims.append({'property': pid, 'status': status, 'theorems': names, 'note': note})
print('unused theorems:', sorted(thms - used))
print('unproved:', [c['property'] for c in claims if not c['theorems']])
json.dump({'claims': claims}, open(root + '/MANIFEST.json', 'w'), indent=1, ensure_ascii=False)
