"""Generates ModelKeccakAsm.v from /repo/sha3/keccakf_amd64.s: the macro mKeccakRound
as a function of its arguments, and the body of keccakF1600 as a list of instructions."""
import re
src=open('/repo/sha3/keccakf_amd64.s').read().split('\n')
defs={}; offs={}
macro=None; body=[]; margs=None; mlines=[0,0]
i=0
while i<len(src):
    l=src[i]
    m=re.match(r'#define (_\w\w)\s+\(\s*(\d+)\*8\)',l)
    if m: offs[m.group(1)]=int(m.group(2))
    elif l.startswith('#define mKeccakRound'):
        margs=[a.strip() for a in re.match(r'#define mKeccakRound\(([^)]*)\)',l).group(1).split(',')]
        mlines[0]=i+1; i+=1
        while True:
            l=src[i]; t=re.sub(r'/\*.*?\*/','',l).strip()
            cont=t.endswith('\\'); t=t.rstrip('\\').strip().rstrip(';').strip()
            if t: body.append(t)
            if not cont: break
            i+=1
        mlines[1]=i
    else:
        m=re.match(r'#define (\w+)\s+(.+?)\s*$',l)
        if m: defs[m.group(1)]=m.group(2)
    if l.startswith('TEXT'): break
    i+=1
text_line=i+1
def sub(s):
    for _ in range(4):
        s=re.sub(r'\b(\w+)\b',lambda m: defs.get(m.group(1),m.group(1)),s)
    return s
REGS=['AX','BX','CX','DX','SI','BP','R8','R9','R10','R11','R12','R13','R14','R15']
def operand(o,macro):
    o=o.strip()
    m=re.match(r'(_\w\w)\((\w+)\)$',o)
    if m:
        n=offs[m.group(1)]
        if macro and m.group(2) in ('iState','oState'): return f'(W ({m.group(2)} {n}%nat))'
        r=sub(m.group(2)); return {'DI':f'(W (St {n}))','SP':f'(W (Sk {n}))'}[r]
    if o.startswith('$'): return f'(K {int(o[1:],0)})'
    if macro and o=='rc': return '(K rc)'
    r=sub(o); assert r in REGS,(o,r)
    return f'(W {r})'
def loc(o,macro):
    x=operand(o,macro); assert x.startswith('(W '),x
    y=x[3:-1]; return y
def ins(t,macro):
    t=t if macro and t.split()[0] in margs else sub_first(t)
    if macro and t in margs: return t
    op,rest=t.split(None,1) if ' ' in t else (t,'')
    a=[x for x in rest.split(',')] if rest else []
    if op in('MOVQ','XORQ','ANDQ','ORQ'): return f'[{op} {operand(a[0],macro)} {loc(a[1],macro)}]'
    if op=='ROLQ': return f'[ROLQ {int(a[0].strip()[1:])} {loc(a[1],macro)}]'
    if op=='NOTQ': return f'[NOTQ {loc(a[0],macro)}]'
    if op=='NOP': return '[]'
    raise Exception(t)
def sub_first(t):
    w=t.split()[0]
    return defs[w] if w in defs else t
def wrap(items,sep,ind,width=110):
    out=[];cur=ind
    for k,x in enumerate(items):
        s=x+(sep if k<len(items)-1 else '')
        if len(cur)+len(s)>width: out.append(cur.rstrip()); cur=ind
        cur+=s+' '
    out.append(cur.rstrip()); return '\n'.join(out)
def chunks(l,macro):
    """join neighbouring singleton lists"""
    res=[];cur=[]
    for t in l:
        x=ins(t,macro)
        if x.startswith('['):
            if x!='[]': cur.append(x[1:-1])
        else:
            if cur: res.append('['+'; '.join(cur)+']'); cur=[]
            res.append(x)
    if cur: res.append('['+'; '.join(cur)+']')
    return res
def block(l):
    r=[]
    for x in l:
        if x.startswith('['):
            r.append('  ['+wrap(x[1:-1].split('; '),';','   ').strip()+']')
        else: r.append('  '+x)
    return ' ++\n'.join(r)
pre=[];post=[];rounds=[];ln=text_line
for j in range(text_line,len(src)):
    t=re.sub(r'//.*','',src[j]).strip()
    if not t: continue
    if t.startswith('MOVQ state+0(FP)'): assert sub(t.split(',')[1].strip())=='DI'; continue
    if t=='RET': break
    m=re.match(r'mKeccakRound\((.*)\)$',t)
    if m: rounds.append((j+1,[a.strip() for a in m.group(1).split(',')]))
    elif rounds: post.append(t)
    else: pre.append(t)
frame=int(re.search(r'\$(\d+)-8',src[text_line-1]).group(1))
def arg(k,a):
    n=margs[k]
    if n in('iState','oState'): return {'DI':'St','SP':'Sk'}[sub(a)]
    if n=='rc': return str(int(a[1:],0))
    return ins(a,False) if a!='NOP' else '[]'
o=f'''(** GENERATED by tools/mkkeccak.py from sha3/keccakf_amd64.s.  Do not edit.
    One entry per instruction, in order.  The load of the argument pointer
    (MOVQ state+0(FP), DI) is resolved by the generator: St n is n*8(DI), word n of
    the caller's state, and Sk n is n*8(SP), word n of the stack frame.  No proofs in
    this file. *)
From Coq Require Import ZArith List.
Import ListNotations.
Open Scope Z_scope.

(** The registers of the routine, the state and the frame *)
Inductive kloc :=
| {' | '.join(REGS)}
| St (n : nat) | Sk (n : nat).
Inductive ksrc := W (l : kloc) | K (z : Z).
(** the operand order is that of the Go assembler: the destination comes last *)
Inductive kins :=
| MOVQ (s : ksrc) (d : kloc) | XORQ (s : ksrc) (d : kloc) | ANDQ (s : ksrc) (d : kloc) | ORQ (s : ksrc) (d : kloc)
| ROLQ (k : nat) (d : kloc) | NOTQ (d : kloc).

(** keccakf_amd64.s:{mlines[0]}-{mlines[1]}; the last thirteen arguments are instructions or
    nothing (NOP) *)
Definition mKeccakRound (iState oState : nat -> kloc) (rc : Z)
  ({' '.join(margs[3:])} : list kins) : list kins :=
{block(chunks(body,True))}.
(** keccakf_amd64.s:{text_line}, the frame declared: $200-8 *)
Definition keccak_frame : Z := {frame}.
(** keccakf_amd64.s, before the rounds *)
Definition keccak_enter : list kins :=
{block(chunks(pre,False))}.
(** keccakf_amd64.s:{rounds[0][0]}-{rounds[-1][0]} *)
Definition keccak_rounds : list (list kins) :=
  ['''
o+=';\n   '.join('mKeccakRound '+' '.join((lambda x: x if ' ' not in x or x.startswith('[') else f'({x})')(arg(k,a)) for k,a in enumerate(r[1])) for r in rounds)+'].\n'
o+=f'''(** keccakf_amd64.s, after the rounds *)
Definition keccak_leave : list kins :=
{block(chunks(post,False))}.
'''
open('/verif/rocq/theories/ModelKeccakAsm.v','w').write(o)
print(len(body),len(rounds),len(pre),len(post),margs)
