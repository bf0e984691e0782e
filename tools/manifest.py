#!/usr/bin/env python3
"""Writes MANIFEST.json.  Each claim: (property, status, theorems, note)."""
import json, re, glob, os
root = os.path.dirname(os.path.dirname(os.path.abspath(__file__)))
C = []
def c(p, s, t, n): C.append({"property": p, "status": s, "theorems": t.split(), "note": n})
NORED = "Restricted to uppers without renamed directories (redirects) and without deletion of host symlinks that lead to directories (sandbox_ok)."
exec(open(os.path.join(root, 'tools', 'claims.py')).read())
names = set()
for f in glob.glob(os.path.join(root, 'rocq/theories/*.v')):
    names |= set(re.findall(r'^(?:Theorem|Lemma|Example|Corollary)\s+(\w+)', open(f).read(), re.M))
for x in C:
    for t in x['theorems']:
        assert t in names, t
ids = [json.loads(l)['id'] for l in open(os.path.join(root, 'properties.jsonl'))]
have = [x['property'] for x in C]
print('missing:', [i for i in ids if i not in have])
json.dump({"claims": C}, open(os.path.join(root, 'MANIFEST.json'), 'w'), indent=1)
