#!/usr/bin/env python3
"""Writes MANIFEST.json from tools/claims.json after checking the theorem names exist."""
import json, re, glob, os
root = os.path.dirname(os.path.dirname(os.path.abspath(__file__)))
claims = json.load(open(root + '/tools/claims.json'))
src = ''.join(open(f).read() for f in glob.glob(root + '/rocq/theories/Props_*.v'))
names = set(re.findall(r'^Theorem (\w+)', src, re.M))
used = set()
out = []
for line in open(root + '/properties.jsonl'):
    pid = json.loads(line)['id']
    c = claims.get(pid)
    mine = sorted(n for n in names if n.startswith(pid + '_'))
    if c is None:
        if mine: print('no claim entry for', pid, mine)
        continue
    order = [n for n in re.findall(r'^Theorem (\w+)', src, re.M) if n.startswith(pid + '_')]
    ths = order + [t for t in c.get('also', [])]
    for t in ths:
        assert t in names, t
    used.update(ths)
    out.append({"property": pid, "status": c['status'], "theorems": ths, "note": c['note']})
print('unused', sorted(names - used))
json.dump({"claims": out}, open(root + '/MANIFEST.json', 'w'), indent=1)
open(root + '/MANIFEST.json', 'a').write('\n')
