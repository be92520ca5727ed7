#!/usr/bin/env python3
# Runs Print Assumptions on every theorem of MANIFEST.json (after a build) and
# stores the axioms in tools/assumptions.json.
import json,re,glob,subprocess,os,tempfile
where={}
for f in glob.glob('/verif/rocq/theories/*.v'):
    for t in re.findall(r'^\s*(?:Theorem|Lemma|Corollary)\s+([A-Za-z0-9_\']+)',open(f).read(),re.M): where.setdefault(t,f.split('/')[-1][:-2])
ths=[]
for c in json.load(open('/verif/MANIFEST.json'))['claims']:
    for t in c['theorems']:
        if t not in ths: ths.append(t)
cache='/verif/tools/assumptions.json'
old=json.load(open(cache)) if os.path.exists(cache) else {}
todo=[t for t in ths if t not in old]
d=tempfile.mkdtemp()
with open(d+'/PA.v','w') as f:
    for x in sorted({where[t] for t in todo}): f.write(f'From Verif Require {x}.\n')
    for t in todo: f.write(f'Print Assumptions Verif.{where[t]}.{t}.\n')
out=subprocess.run(['coqc','-Q','/verif/rocq/theories','Verif','PA.v'],cwd=d,capture_output=True,text=True)
assert out.returncode==0,out.stderr
bl=[b for b in re.split(r'(?=^(?:Closed under|Axioms:))',out.stdout,flags=re.M) if b.strip()]
assert len(bl)==len(todo)
for t,b in zip(todo,bl):
    old[t]=sorted(set(re.findall(r'^([A-Za-z0-9_.\']+)(?: :|\s*$)',b.replace('Axioms:',''),re.M))) if b.startswith('Axioms') else []
json.dump({t:old[t] for t in ths},open(cache,'w'),indent=0)
print(len(todo),'new')
