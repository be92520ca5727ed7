"""Transcribes the unrolled rounds of the three BLAKE packages of /repo, line by line
and in source order, into the instruction lists of theories/ModelBlakeCode.v.  The file
is committed; this script only documents how it was obtained."""
import re
def parse(f):
    out=[]
    for n,l in enumerate(open(f),1):
        l=l.strip()
        m=re.fullmatch(r'v(\d+) \+= m\[(\d+)\] \^ cst(\d+)',l)
        if m: out.append((n,'AddMC %s %s %s'%m.groups())); continue
        m=re.fullmatch(r'v(\d+) \+= m\[(\d+)\]',l)
        if m: out.append((n,'AddM %s %s'%m.groups())); continue
        m=re.fullmatch(r'v(\d+) \+= v(\d+)',l)
        if m: out.append((n,'AddV %s %s'%m.groups())); continue
        m=re.fullmatch(r'v(\d+) \^= v(\d+)',l)
        if m: out.append((n,'XorV %s %s'%m.groups())); continue
        m=re.fullmatch(r'v(\d+) = v(\d+)<<\((\d+)-(\d+)\) \| v(\d+)>>(\d+)',l)
        if m:
            a,b,w,r,c,r2=map(int,m.groups()); assert a==b==c and r==r2 and w==(64 if '512' in f else 32)
            out.append((n,'Ror %d %d'%(a,r))); continue
    return out
T='''(** The unrolled rounds of the BLAKE packages, transcribed line by line by
    tools/mkblake.py into instructions over the local variables v0 .. v15, the
    message words m[0] .. m[15] and the constants cst0 .. cst15. *)
From Coq Require Import List.
Import ListNotations.
Open Scope nat_scope.

Inductive binstr :=
| AddMC (a i k : nat)   (* va += m[i] ^ cstk *)
| AddM (a i : nat)      (* va += m[i] *)
| AddV (a b : nat)      (* va += vb *)
| XorV (a b : nat)      (* va ^= vb *)
| Ror (a r : nat).      (* va = va<<(W-r) | va>>r, W the word size *)

'''
for name,f in [('blake256','blake256/blake256block.go'),('blake512','blake512/blake512block.go'),('blake2s','blake2s/block.go')]:
    o=parse('/repo/'+f)
    assert len(o)%112==0
    for r in range(len(o)//112):
        ch=o[112*r:112*r+112]
        T+='(* %s:%d-%d *)\nDefinition %s_code_%d : list binstr := [\n'%(f,ch[0][0],ch[-1][0],name,r)
        T+=';\n'.join('  '+'; '.join(x[1] for x in ch[7*k:7*k+7]) for k in range(16))+'].\n'
    T+='(* %s:%d-%d *)\nDefinition %s_code : list binstr :=\n  %s.\n\n'%(f,o[0][0],o[-1][0],name,' ++ '.join('%s_code_%d'%(name,r) for r in range(len(o)//112)))
open('/verif/rocq/theories/ModelBlakeCode.v','w').write(T)
