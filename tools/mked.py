#!/usr/bin/env python3
"""Translate the straight-line limb code of eddsa/edwards25519/edwards25519.go,
eddsa/edwards25519/const.go and eddsa/x25519.go to rocq/theories/ModelEdCode.v.
Every source line of a translated block must match one of the patterns."""
import re, sys
R='/repo/eddsa/'
src=open(R+'edwards25519/edwards25519.go').read().split('\n')
xs=open(R+'x25519.go').read().split('\n')
cst=open(R+'edwards25519/const.go').read()

def body(lines,name):
    for i,l in enumerate(lines):
        if l.startswith('func '+name+'('):
            j=i
            while lines[j]!='}': j+=1
            return i+1,j+1,[(k+1,lines[k]) for k in range(i+1,j)]
    raise SystemExit(name)

def strip(l):
    l=re.sub(r'/\*.*?\*/','',l); l=re.sub(r'//.*','',l)
    return l.strip()

def nat(x): return str(int(x))

# --- carry / fold statements -------------------------------------------------
def stmts(lines,var):
    """var(s) -> index of limb or None. returns instrs and rest"""
    out=[]; i=0
    ls=[(n,strip(l)) for n,l in lines]
    ls=[(n,l) for n,l in ls if l]
    while i<len(ls):
        n,l=ls[i]
        m=re.fullmatch(r'(c\d+|carry\[\d+\]|carry\d+) = \((\S+) \+ \(1 << (\d+)\)\) >> (\d+)',l) or re.fullmatch(r'(c\d+|carry\[\d+\]|carry\d+) = (\S+) >> (\d+)',l)
        if m:
            if len(m.groups())==4: c,a,r,k=m.groups(); r=1<<int(r)
            else: c,a,k=m.groups(); r=0
            a=var(a); assert a is not None,(n,l)
            n2,l2=ls[i+1]
            m2=re.fullmatch(r'(\S+) \+= '+re.escape(c)+r'( \* (\d+))?',l2)
            if m2:
                j=var(m2.group(1)); mm=int(m2.group(3) or 1)
                n3,l3=ls[i+2]
                m3=re.fullmatch(r'(\S+) -= '+re.escape(c)+r' (?:<< (\d+)|\* \(1 << (\d+)\))',l3)
                assert m3 and var(m3.group(1))==a and (m3.group(2) or m3.group(3))==k,(n3,l3)
                out.append('Carry %d %s %d %d %d'%(r,k,a,j,mm)); i+=3
            else:
                m3=re.fullmatch(r'(\S+) -= '+re.escape(c)+r' (?:<< (\d+)|\* \(1 << (\d+)\))',l2)
                assert m3 and var(m3.group(1))==a and (m3.group(2) or m3.group(3))==k and r==0,(n2,l2)
                out.append('Drop %s %d'%(k,a)); i+=2
            continue
        m=re.fullmatch(r'(\S+) ([+-])= (\S+) \* (\d+)',l)
        if m and var(m.group(3)) is not None:
            srcv=m.group(3); a=var(srcv); fl=[]
            while True:
                n,l=ls[i]
                m=re.fullmatch(r'(\S+) ([+-])= (\S+) \* (\d+)',l)
                if m and m.group(3)==srcv:
                    fl.append('(%d%%nat, %s)'%(var(m.group(1)),('-' if m.group(2)=='-' else '')+m.group(4))); i+=1; continue
                break
            assert re.fullmatch(re.escape(srcv)+r' = 0',l),(n,l)
            i+=1
            out.append('Fold %d [%s]'%(a,'; '.join(fl)))
            continue
        break
    return out,ls[i:]

def pieces(ls,outv,var):
    res=[]
    for k in range(32):
        n,l=ls[k]
        m=re.fullmatch(re.escape(outv)+r'\[(\d+)\] = byte\((.*)\)',l); assert m and int(m.group(1))==k,(n,l)
        e=m.group(2)
        m1=re.fullmatch(r'(\S+) >> (\d+)',e)
        m2=re.fullmatch(r'\((\S+) >> (\d+)\) \| \((\S+) << (\d+)\)',e)
        if m1: res.append('[(%d%%nat, %s)]'%(var(m1.group(1)),m1.group(2)))
        else:
            assert m2,(n,l)
            res.append('[(%d%%nat, %s); (%d%%nat, -%s)]'%(var(m2.group(1)),m2.group(2),var(m2.group(3)),m2.group(4)))
    return res,ls[32:]

def expr(e,env):
    """sum of products of names"""
    ts=[]
    for t in e.split(' + '):
        fs=[env(f) for f in re.split(r' ?\* ?',t)]
        x=fs[0]
        for f in fs[1:]: x='Mul %s %s'%(x,f)
        ts.append(x)
    def par(x): return '(%s)'%x if ' ' in x and not x.startswith('(') else x
    x=ts[0]
    for t in ts[1:]: x='Add %s %s'%(par(x),par(t))
    return par(x)

O=[]
def emit(s): O.append(s)
def emitlist(name,ty,items,comment):
    emit('(** %s *)'%comment)
    emit('Definition %s : %s := ['%(name,ty)); 
    for k,x in enumerate(items): emit('  '+x+(';' if k<len(items)-1 else ''))
    emit('].\n')

emit('(** Generated by tools/mked.py from eddsa/edwards25519/edwards25519.go,')
emit('    eddsa/edwards25519/const.go and eddsa/x25519.go.  No proofs here. *)')
emit('Require Import ZArith List.\nRequire Import Verif.Base Verif.ModelSlp.\nImport ListNotations.\nOpen Scope Z_scope.\n')

hv=lambda s:(int(re.fullmatch(r'h(\d+)',s).group(1)) if re.fullmatch(r'h(\d+)',s) else None)
hb=lambda s:(int(re.fullmatch(r'h\[(\d+)\]',s).group(1)) if re.fullmatch(r'h\[(\d+)\]',s) else None)
sv=lambda s:(int(re.fullmatch(r's(\d+)',s).group(1)) if re.fullmatch(r's(\d+)',s) else None)

# FeCombine
a,b,ls=body(src,'FeCombine')
ls=[(n,l) for n,l in ls if not strip(l).startswith('var ')]
code,rest=stmts(ls,hv)
assert [l for n,l in rest]==['h[%d] = int32(h%d)'%(i,i) for i in range(10)],rest
emitlist('fe_combine_code','list instr',code,'edwards25519.go:%d-%d, FeCombine: the carries.'%(a,b))

# FeMul
def prods(name,outs):
    a,b,ls=body(src,name)
    env={}
    res={}
    for n,l in ls:
        l=strip(l)
        if not l or l=='return' or l.startswith('FeCombine('): continue
        m=re.fullmatch(r'([fg]\d+) := int64\(([fg])\[(\d+)\]\)',l)
        off=lambda v,i:(int(i)+(10 if v=='g' else 0))
        if m: env[m.group(1)]='(V %d)'%off(m.group(2),m.group(3)); continue
        m=re.fullmatch(r'([fg]\d+_\d+) := int64\((\d+) \* ([fg])\[(\d+)\]\)',l)
        if m: env[m.group(1)]='(M32 %s %d)'%(m.group(2),off(m.group(3),m.group(4))); continue
        m=re.fullmatch(r'([fg]\d+_\d+) := (\d+) \* ([fg]\d+)',l)
        if m: env[m.group(1)]='(Mul (K %s) %s)'%(m.group(2),env[m.group(3)]); continue
        m=re.fullmatch(r'h(\d+) :?= (.*)',l); assert m,(n,l)
        res[int(m.group(1))]=expr(m.group(2),lambda f:env[f])
    return a,b,[res[i] for i in range(10)]
a,b,e=prods('FeMul',10)
emitlist('fe_mul_code','list ex',e,'edwards25519.go:%d-%d, FeMul: h0..h9; variables 0-9 are f, 10-19 are g.'%(a,b))
a,b,e=prods('feSquare',10)
emitlist('fe_square_code','list ex',e,'edwards25519.go:%d-%d, feSquare: h0..h9.'%(a,b))

# FeToBytes
a,b,ls=body(src,'FeToBytes')
ls=[(n,strip(l)) for n,l in ls]; ls=[(n,l) for n,l in ls if l and not l.startswith('var ')]
assert ls[0][1]=='q := (19*h[9] + (1 << 24)) >> 25'
q=[]
i=1
while True:
    m=re.fullmatch(r'q = \(h\[(\d+)\] \+ q\) >> (\d+)',ls[i][1])
    if not m: break
    q.append('(%s%%nat, %s)'%m.groups()); i+=1
assert ls[i][1]=='h[0] += 19 * q'
emitlist('fe_tobytes_q','list (nat * Z)',q,'edwards25519.go:%d-%d, FeToBytes: the steps q = (h[i] + q) >> k.'%(a,b))
code,rest=stmts(ls[i+1:],hb)
emitlist('fe_tobytes_code','list instr',code,'edwards25519.go:%d-%d, FeToBytes: the carries.'%(a,b))
ps,rest=pieces(rest,'s',hb); assert not rest
emitlist('fe_tobytes_out','list (list piece)',ps,'edwards25519.go:%d-%d, FeToBytes: the bytes.'%(a,b))

# FeFromBytes
a,b,ls=body(src,'FeFromBytes')
fl=[]
for n,l in ls:
    l=strip(l)
    if not l or l.startswith('FeCombine'): continue
    m=re.fullmatch(r'h(\d+) := load([34])\(src\[(\d*):\]\)( << (\d+))?',l)
    if m: h,c,o,_,s=m.groups(); fl.append('(%s%%nat, %s%%nat, 0, -1, %s)'%(o or 0,c,s or 0)); assert int(h)==len(fl)-1; continue
    m=re.fullmatch(r'h(\d+) := \(load([34])\(src\[(\d*):\]\) & (\d+)\) << (\d+)',l); assert m,(n,l)
    h,c,o,k,s=m.groups(); fl.append('(%s%%nat, %s%%nat, 0, %s, %s)'%(o,c,k,s)); assert int(h)==len(fl)-1
emitlist('fe_frombytes_code','list (load * Z)',fl,'edwards25519.go:%d-%d, FeFromBytes: the loads, each with its left shift.'%(a,b))

# scalars
def loads(ls,v,src_,cast):
    res=[]
    for k,(n,l) in enumerate(ls):
        pre=r'%s%d (:=|=) '%(v,k)
        if cast:
            m=re.fullmatch(pre+r'int64\((.*)\)',l)
            if not m: return res,ls[k:]
            e=m.group(2)
        else:
            m=re.fullmatch(pre+r'(.*)',l)
            if not m: return res,ls[k:]
            e=m.group(2)
        m1=re.fullmatch(r'2097151 & load_?([34])\(%s(?:\[(\d*):\])?\)'%src_,e)
        m2=re.fullmatch(r'2097151 & \(load_?([34])\(%s\[(\d*):\]\) >> (\d+)\)'%src_,e)
        m3=re.fullmatch(r'\(?load_?([34])\(%s\[(\d*):\]\) >> (\d+)\)?'%src_,e)
        if m1: res.append('(%s%%nat, %s%%nat, 0, 2097151)'%(m1.group(2) or 0,m1.group(1)))
        elif m2: res.append('(%s%%nat, %s%%nat, %s, 2097151)'%(m2.group(2),m2.group(1),m2.group(3)))
        elif m3: res.append('(%s%%nat, %s%%nat, %s, -1)'%(m3.group(2),m3.group(1),m3.group(3)))
        else: return res,ls[k:]
    return res,[]
def clean(ls):
    ls=[(n,strip(l)) for n,l in ls]
    return [(n,l) for n,l in ls if l]
a,b,ls=body(src,'ScMulAdd'); ls=clean(ls)
A,ls=loads(ls,'a','a',False); B,ls=loads(ls,'b','b',False); C,ls=loads(ls,'c','c',False)
assert A==B==C and len(A)==12
emitlist('sc_loads12','list load',A,'edwards25519.go:%d-%d, ScMulAdd: the limbs of a (and of b and c, the same).'%(a,b))
assert ls[0][1]=='var carry [23]int64',ls[0]
ls=ls[1:]
pr=[]
def scenv(f):
    if f=='int64(0)': return '(K 0)'
    m=re.fullmatch(r'([abc])(\d+)',f); return '(V %d)'%({'a':0,'b':12,'c':24}[m.group(1)]+int(m.group(2)))
for k in range(24):
    m=re.fullmatch(r's%d := (.*)'%k,ls[k][1]); assert m,ls[k]
    pr.append(expr(m.group(1),scenv))
emitlist('sc_muladd_prods','list ex',pr,'edwards25519.go:%d-%d, ScMulAdd: s0..s23; variables 0-11 a, 12-23 b, 24-35 c.'%(a,b))
code,rest=stmts(ls[24:],sv)
emitlist('sc_muladd_code','list instr',code,'edwards25519.go:%d-%d, ScMulAdd: folds and carries.'%(a,b))
ps,rest=pieces(rest,'s',sv); assert not rest
emitlist('sc_out','list (list piece)',ps,'edwards25519.go:%d-%d, ScMulAdd: the bytes.'%(a,b))
p0=ps

def screduce(lines,name,outv,cast,pfx,where):
    a,b,ls=body(lines,name); ls=[x for x in clean(ls) if x[1] not in ('var carry [17]int64','var (',')')]
    L,ls=loads(ls,'s','s' if True else '',cast); assert len(L)==24,ls[0]
    emitlist(pfx+'_loads','list load',L,'%s:%d-%d, %s: the limbs.'%(where,a,b,name))
    return a,b,ls
a,b,ls=screduce(src,'ScReduce','out',False,'sc_reduce','edwards25519.go')
code,rest=stmts(ls,sv)
emitlist('sc_reduce_code','list instr',code,'edwards25519.go:%d-%d, ScReduce: folds and carries.'%(a,b))
ps,rest=pieces(rest,'out',sv); assert not rest and ps==p0
a,b,ls=screduce(xs,'x25519_sc_reduce','out',True,'x_reduce','x25519.go')
ls=[x for x in ls if not re.fullmatch(r'carry\d+ = int64\(0\)',x[1])]
code,rest=stmts(ls,sv)
emitlist('x_reduce_code','list instr',code,'x25519.go:%d-%d, x25519_sc_reduce: folds and carries.'%(a,b))
assert rest[0][1]=='var ret [32]byte'
ps,rest=pieces(rest[1:],'ret',sv); assert [l for n,l in rest]==['return ret'] and ps==p0

# constants
def fes(t): return [re.sub(r'\s','',x).strip(',').split(',') for x in re.findall(r'FieldElement\s*\{([^}]*)\}',t)]
def fe(x): assert len(x)==10; return '['+'; '.join(x)+']'
def const(name):
    m=re.search(r'var '+name+r' = (FieldElement\{[^}]*\})',cst); return fe(fes(m.group(1))[0])
line=lambda s:cst[:cst.index(s)].count('\n')+1
for g,c in [('d','fe_d'),('d2','fe_d2'),('SqrtM1','fe_sqrtm1'),('A','fe_A')]:
    emit('(** const.go:%d, %s. *)\nDefinition %s : list Z := %s.\n'%(line('var %s = '%g),g,c,const(g)))
tb=cst[cst.index('var bi = '):cst.index('var base = ')]
b8=fes(tb); assert len(b8)==24
emitlist('bi_table','list (list Z * list Z * list Z)',['('+fe(b8[3*i])+', '+fe(b8[3*i+1])+', '+fe(b8[3*i+2])+')' for i in range(8)],'const.go:%d, bi.'%line('var bi = '))
bb=fes(cst[cst.index('var base = '):]); assert len(bb)==768
emit('(** const.go:%d, base. *)\nDefinition base_table : list (list (list Z * list Z * list Z)) := ['%line('var base = '))
for i in range(32):
    emit(' [ '+';\n   '.join('('+fe(bb[24*i+3*j])+', '+fe(bb[24*i+3*j+1])+', '+fe(bb[24*i+3*j+2])+')' for j in range(8))+' ]'+(';' if i<31 else ''))
emit('].\n')
open('/verif/rocq/theories/ModelEdCode.v','w').write('\n'.join(O)+'\n')
