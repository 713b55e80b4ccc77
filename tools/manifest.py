#!/usr/bin/env python3
"""Rewrite MANIFEST.json from the theorems named Cnn_* in rocq/theories/Props_*.v.

Status and note of each property come from tools/status.json; a property without an entry there
is not listed."""
import glob, json, os, re
root = os.path.dirname(os.path.dirname(os.path.abspath(__file__)))
theorems = {}
for f in sorted(glob.glob(root + '/rocq/theories/Props_*.v')):
    for name in re.findall(r'^Theorem\s+(C\d\d+_\w*)', open(f).read(), re.M):
        theorems.setdefault(name.split('_')[0], []).append(name)
status = json.load(open(root + '/tools/status.json'))
claims = []
for p in sorted(status):
    st, note = status[p]
    claims.append({"property": p, "status": st, "theorems": theorems.get(p, []), "note": note})
for p in sorted(set(theorems) - set(status)):
    print('no status for', p)
for c in claims:
    if c['status'] != 'not_applicable' and not c['theorems']:
        print('no theorem for', c['property'])
with open(root + '/MANIFEST.json', 'w') as out:
    out.write('{"claims": [\n' + ',\n'.join(' ' + json.dumps(c) for c in claims) + '\n]}\n')
print(len(claims), 'claims', sum(len(c['theorems']) for c in claims), 'theorems')
