#!/usr/bin/env python3
"""Write MANIFEST.json from tools/status.json-style table below; checks that every theorem exists."""
import json, re, glob, os
root = os.path.dirname(os.path.dirname(os.path.abspath(__file__)))
names = set()
for f in glob.glob(root + '/rocq/theories/*.v'):
    for m in re.finditer(r'^(?:Theorem|Lemma|Corollary)\s+(\S+)', open(f).read(), re.M):
        names.add(m.group(1))
props = [json.loads(l) for l in open(root + '/properties.jsonl')]
status = json.load(open(root + '/tools/status.json'))
claims = []
for p in props:
    i = p['id']
    if i not in status:
        continue
    s = status[i]
    ths = s.get('theorems') or sorted(n for n in names if n.startswith(i + '_'))
    for t in ths:
        assert t in names, t
    assert ths or s['status'] == 'not_applicable', i
    claims.append({"property": i, "status": s['status'], "theorems": ths, "note": s['note']})
# every Cnn_ theorem should be claimed
claimed = {t for c in claims for t in c['theorems']}
for n in sorted(names):
    if re.match(r'C\d\d_', n) and n not in claimed:
        print('unclaimed', n)
json.dump({"claims": claims}, open(root + '/MANIFEST.json', 'w'), indent=1)
print(len(claims), 'claims;', [p['id'] for p in props if p['id'] not in status], 'open')
