#!/usr/bin/env python3
"""Write MANIFEST.json from the table below and check that the theorems exist."""
import json, re, glob
CLAIMS = {}
def claim(cid, status, theorems, note=''):
    CLAIMS[cid] = dict(property=cid, status=status, theorems=theorems.split(), note=note)
exec(open('/verif/tools/claims.txt').read())
text = '\n'.join(open(f).read() for f in glob.glob('/verif/rocq/theories/*.v'))
have = set(re.findall(r'^(?:Theorem|Lemma|Corollary|Example) (\w+)', text, re.M))
for c in CLAIMS.values():
    for t in c['theorems']:
        assert t in have, t
ids = [json.loads(l)['id'] for l in open('/verif/properties.jsonl')]
for c in CLAIMS:
    assert c in ids, c
print('missing:', [i for i in ids if i not in CLAIMS])
json.dump({'claims': [CLAIMS[i] for i in ids if i in CLAIMS]}, open('/verif/MANIFEST.json', 'w'), indent=1)
