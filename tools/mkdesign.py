#!/usr/bin/env python3
# DESIGN.in + properties.jsonl + MANIFEST.json + assumptions.txt -> DESIGN.md
# assumptions.txt: output of tools/assumptions.sh
import json,re
V='/verif/'
props=[json.loads(l) for l in open(V+'properties.jsonl')]
man={}
for c in json.load(open(V+'MANIFEST.json'))['claims']: man[c['property']]=c
rows=['| id | property | status | theorems | remarks |','|---|---|---|---|---|']
for p in props:
    c=man.get(p['id'])
    e=lambda s:s.replace('|','\\|')
    if c: rows.append(f"| {p['id']} | {e(p['title'])} | {c['status']} | {', '.join('`%s`'%t for t in c['theorems'])} | {e(c['note'])} |")
    else: rows.append(f"| {p['id']} | {e(p['title'])} | not done | | |")
ass=json.load(open(V+'tools/assumptions.json'))
closed=[t for t in ass if not ass[t]]
ints=[t for t in ass if ass[t]]
ax=sorted({a for t in ints for a in ass[t]})
prim=[a for a in ax if a.startswith('PrimInt63')]; spec=[a for a in ax if not a.startswith('PrimInt63')]
assert all(a.startswith('Uint63') for a in spec)
j=lambda l:', '.join('`%s`'%x for x in l)
s=open(V+'tools/DESIGN.in').read()
for k,v in (('@TABLE@','\n'.join(rows)),('@CLOSED@',j(closed)),('@PRIMS@',j(prim)),('@SPECS@',j(spec)),('@INT@',j(ints))): s=s.replace(k,v)
open(V+'DESIGN.md','w').write(s)
print(len(rows)-2,'rows',len(closed),'closed',len(ints),'int63')
