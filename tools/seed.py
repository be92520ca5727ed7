"""Applies one edit to a model file in a scratch copy of the development, rebuilds
and reports which theorems no longer go through.
usage: seed.py edits.json results.jsonl   (scratch: /tmp/seed0 pristine with .vo, /tmp/seed working)"""
import json,re,subprocess,sys,os
P=os.environ.get('SEED','/tmp/seed'); P0=P+'0'
def enclosing(path,line):
    name=None
    for i,l in enumerate(open(path),1):
        if i>line: break
        m=re.match(r'\s*(?:Theorem|Lemma|Corollary|Example|Definition|Fixpoint)\s+([A-Za-z0-9_\']+)',l)
        if m: name=m.group(1)
    return name
def attempt(e):
    subprocess.run(f'rm -rf {P}; cp -a {P0} {P}',shell=True,check=True)
    f=f'{P}/theories/{e["file"]}.v'; s=open(f).read()
    n=e.get('nth',0); parts=s.split(e['old'])
    assert len(parts)>n+1,(e['file'],e['old'])
    if len(parts)>2 and 'nth' not in e: raise Exception('ambiguous '+e['old'])
    s=e['old'].join(parts[:n+1])+e['new']+e['old'].join(parts[n+1:])
    open(f,'w').write(s)
    try:
        r=subprocess.run(['make','-k','-j2','COQC=timeout 420 coqc'],cwd=P,capture_output=True,text=True,timeout=3600)
        out=r.stdout+r.stderr
    except subprocess.TimeoutExpired as x: out=(x.stdout or b'').decode()+(x.stderr or b'').decode()
    fails=[]
    for m in re.finditer(r'^File "\./(theories/[A-Za-z0-9_]+\.v)", line (\d+),[^\n]*\n((?:[^\n]*\n){1,3})',out,re.M):
        if 'Error' in m.group(3): fails.append((os.path.basename(m.group(1))[:-2],enclosing(f'{P}/{m.group(1)}',int(m.group(2)))))
    for m in re.finditer(r'theories/([A-Za-z0-9_]+)\.vo\] Error 124',out): fails.append((m.group(1),'(no longer compiles in time)'))
    return fails
if __name__=='__main__':
    done=set()
    if os.path.exists(sys.argv[2]): done={json.dumps([x['file'],x['old'],x['new']]) for x in map(json.loads,open(sys.argv[2]))}
    for e in json.load(open(sys.argv[1])):
        if json.dumps([e['file'],e['old'],e['new']]) in done: continue
        try: e['failed']=attempt(e)
        except Exception as x: e['failed']=[('harness',str(x))]
        open(sys.argv[2],'a').write(json.dumps(e)+'\n')
