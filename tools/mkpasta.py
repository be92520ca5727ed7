"""Translates the straight-line functions of /repo/pasta/pasta_f{p,q}.go and the
tables of const.go and poseidon_3w.go into /verif/rocq/theories/ModelPastaCode.v.
Register numbers: the arguments' limbs first (arg1, then arg2), then x1, x2, ..."""
import re
def strip(s):
    """Remove uint64(...) conversions and redundant outer parentheses."""
    s=s.strip()
    while True:
        m=re.match(r'(?:uint64)?\(',s)
        if not m: return s
        d=0
        for i,ch in enumerate(s):
            d+=(ch=='(')-(ch==')')
            if d==0 and i>=m.end()-1: break
        if i!=len(s)-1: return s
        s=s[m.end():-1].strip()
def topplus(s):
    d=0
    for i,ch in enumerate(s):
        d+=(ch=='(')-(ch==')')
        if ch=='+' and d==0: return i
def par(o): return f'({o})'
def trans(path,pre,fn):
    L=open(path).read().split('\n')
    st=[i for i,l in enumerate(L) if l.startswith(f'func {pre}{fn}(')][0]
    en=st
    while L[en]!='}': en+=1
    nin=8 if 'arg2' in L[st] else 4
    ins=[];outs={};reg={};nreg=nin;nx=1
    def push(*names):
        nonlocal nreg,nx
        for x in names:
            if x is not None:
                assert x==f'x{nx}',(fn,x,nx); nx+=1; reg[x]=nreg
            nreg+=1
    def opd(s):
        s=strip(s)
        if re.fullmatch(r'x\d+',s): return f'R {reg[s]}'
        m=re.fullmatch(r'arg([12])\[(\d)\]',s)
        if m: return f'R {4*(int(m.group(1))-1)+int(m.group(2))}'
        if re.fullmatch(r'0x[0-9a-f]+|\d+',s): return f'C {hex(int(s,0))}'
        m=re.fullmatch(r'(x\d+) ?& ?uint64\((0x[0-9a-f]+)\)',s)
        if m: return f'N {reg[m.group(1)]} {m.group(2)}'
        if topplus(s) is not None:
            i=topplus(s); a=opd(s[:i]); b=opd(s[i+1:])
            ins.append(f'IAdd {par(a)} {par(b)}'); push(None)
            return f'R {nreg-1}'
        raise Exception(s)
    def splitargs(s):
        r=[];d=0;c=''
        for ch in s:
            d+=(ch=='(')-(ch==')')
            if ch==',' and d==0: r.append(c.strip()); c=''
            else: c+=ch
        return r+[c.strip()]
    for l in L[st+1:en]:
        s=l.strip()
        if not s or s.startswith('var '): continue
        m=re.fullmatch(pre+r'(\w+)U64\((.*)\)',s)
        if m:
            args=splitargs(m.group(2))
            o=[a[1:] for a in args if a.startswith('&')]; a=[par(opd(x)) for x in args if not x.startswith('&')]
            k=m.group(1)
            no,na,nm={'MulX':(2,2,'IMul'),'AddCarryX':(2,3,'IAddC'),'SubBorrowX':(2,3,'ISubB'),'Cmovznz':(1,3,'ICmov')}[k]
            assert len(o)==no and len(a)==na
            ins.append(nm+' '+' '.join(a)); push(*o); continue
        m=re.fullmatch(r'out1\[(\d)\] = (x\d+)',s)
        if m: outs[int(m.group(1))]=reg[m.group(2)]; continue
        m=re.fullmatch(r'(x\d+) = (.*)',s)
        assert m,s
        r=strip(m.group(2)); i=topplus(r)
        if i is None: ins.append('IMov '+par(opd(r)))
        else:
            x=opd(r[:i]); y=opd(r[i+1:]); ins.append(f'IAdd {par(x)} {par(y)}')
        push(m.group(1))
    return st+1,en+1,ins,[outs[i] for i in range(4)]
out=['''(** The straight-line functions and the constants of /repo/pasta, transcribed by
    tools/mkpasta.py.  Registers: the limbs of the arguments (arg1 first), then
    x1, x2, ... in order, a nested sum getting a register of its own.  No proofs in this file. *)
Require Import ZArith List.
Require Import Verif.ModelW64.
Import ListNotations.
Open Scope Z_scope.
''']
for path,pre,sh in (('/repo/pasta/pasta_fp.go','FiatPastaFp','fp'),('/repo/pasta/pasta_fq.go','FiatPastaFq','fq')):
    for fn,nm in (('Mul','mul'),('Square','square'),('Add','add'),('Sub','sub'),('Opp','opp'),('FromMontgomery','from'),('ToMontgomery','to')):
        a,b,ins,outs=trans(path,pre,fn)
        out.append(f'(* {path[6:]}:{a}-{b}, {pre}{fn} *)\nDefinition {sh}_{nm}_code : list ins := [\n  '+';\n  '.join(ins)+'].')
        out.append(f'Definition {sh}_{nm}_out : list nat := [{"; ".join(map(str,outs))}]%nat.\n')
src=open('/repo/pasta/pasta_fp.go').read()
def lineof(s,pos): return s.count('\n',0,pos)+1
def bools(name,pat):
    m=re.search(pat+r'\s*=\s*\[\]bool\{([^}]*)\}',src)
    v=[x.strip() for x in m.group(1).split(',')]
    out.append(f'(* pasta/pasta_fp.go:{lineof(src,m.start())} *)\nDefinition {name} : list bool := [{"; ".join(v)}].\n')
    return v
b1=bools('pminus1over2',r'var PMinus1Over2'); b2=bools('pminus2',r'var PMinus2'); b3=bools('tminus1over2',r'var T_MINUS_ONE_DIV_TWO')
P=0x40000000000000000000000000000000224698fc094cf91b992d30ed00000001
val=lambda v:int(''.join('1' if x=='true' else '0' for x in v),2)
assert val(b1[:254])==(P-1)//2 and val(b2[:255])==P-2 and val(b3[:222])==((P-1)//2**32-1)//2,(len(b1),len(b2),len(b3))
def limbs(s): return '['+'; '.join(re.findall(r'0x[0-9a-fA-F]+|\b\d+\b',s))+']'
m=re.search(r'z := \[4\]uint64\{([^}]*)\}',src)
out.append(f'(* pasta/pasta_fp.go:{lineof(src,m.start())} *)\nDefinition sqrt_z : list Z := {limbs(m.group(1))}.\n')
m=re.search(r'func FiatPastaFpSetOne\([^)]*\) \{(.*?)\n\}',src,re.S)
one=re.findall(r'out1\[(\d)\] = (?:uint64\()?(0x[0-9a-f]+)',m.group(1)); assert [a for a,_ in one]==['0','1','2','3'],m.group(1)
out.append(f'(* pasta/pasta_fp.go:{lineof(src,m.start())}, FiatPastaFpSetOne *)\nDefinition fp_set_one : list Z := [{"; ".join(b for _,b in one)}].\n')
c=open('/repo/pasta/const.go').read()
for nm in ('GroupCoeffB','FieldOne','FieldThree','FieldEight'):
    m=re.search(r'var '+nm+r' = Field\{([^}]*)\}',c)
    out.append(f'(* pasta/const.go:{lineof(c,m.start())} *)\nDefinition {nm} : list Z := {limbs(m.group(1))}.')
m=re.search(r'var GroupZero = Group\{\s*X: Field\{([^}]*)\},\s*Y: Field\{([^}]*)\},\s*Z: Field\{([^}]*)\}',c)
for k,n in enumerate(('GroupZeroX','GroupZeroY','GroupZeroZ'),1): out.append(f'(* pasta/const.go:{lineof(c,m.start())} *)\nDefinition {n} : list Z := {limbs(m.group(k))}.')
m=re.search(r'var AffineOne = Affine\{\s*X: Field\{([^}]*)\},\s*Y: Field\{([^}]*)\}',c)
for k,n in enumerate(('AffineOneX','AffineOneY'),1): out.append(f'(* pasta/const.go:{lineof(c,m.start())} *)\nDefinition {n} : list Z := {limbs(m.group(k))}.')
p=open('/repo/pasta/poseidon_3w.go').read()
for nm,df in (('RoundKeys3W','round_keys'),('MdsMatrix3W','mds_matrix')):
    m=re.search(r'\nvar '+nm+r' = \[\]\[\]Field\{(.*?)\n\}',p,re.S)
    rows=re.findall(r'\{((?:\s*\{[^}]*\},?)+)\s*\}',m.group(1))
    ms=[[limbs(x) for x in re.findall(r'\{([^}]*)\}',r)] for r in rows]
    assert all(len(r)==3 for r in ms); print(nm,len(ms))
    out.append(f'\n(* pasta/poseidon_3w.go:{lineof(p,m.start())+1}, {nm} *)\nDefinition {df} : list (list (list Z)) := [\n  '+';\n  '.join('['+'; '.join(r)+']' for r in ms)+'].')
open('/verif/rocq/theories/ModelPastaCode.v','w').write('\n'.join(out)+'\n')
