#!/usr/bin/env python3
"""Writes MANIFEST.json from tools/claims.json, checking that every named theorem exists."""
import json, re, glob, sys
root = __file__.rsplit('/tools/', 1)[0]
names = set()
for f in glob.glob(root + '/rocq/theories/P_*.v'):
    names |= set(re.findall(r'^Theorem\s+([A-Za-z0-9_\']+)', open(f).read(), re.M))
claims = json.load(open(root + '/tools/claims.json'))
props = [json.loads(l)['id'] for l in open(root + '/properties.jsonl')]
used = set()
out = []
for p in props:
    c = claims.get(p)
    if c is None:
        print('no claim yet:', p); continue
    # theorems are the ones named Cxx_*
    ths = c.get('theorems') or sorted(n for n in names if n.startswith(p + '_'))
    for t in ths:
        if t not in names: sys.exit('unknown theorem ' + t)
    used |= set(ths)
    out.append({'property': p, 'status': c['status'], 'theorems': ths, 'note': c['note']})
for n in sorted(names - used): print('unused theorem', n)
json.dump({'claims': out}, open(root + '/MANIFEST.json', 'w'), indent=1)
