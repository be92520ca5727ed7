#!/usr/bin/env python3
"""Transcribe bls12_381/bls/arithmetic_x86.s into Coq instruction lists.

Pointer registers are resolved (the word behind n(DI) is Ar, Br or Out), and it
is checked that no argument word is read once a result word has been written."""
import re
S='/repo/bls12_381/bls/arithmetic_x86.s'
L=open(S).read().split('\n')
names=[('addAssign','a',True),('add','a',True),('ladd','a',True),('laddAssign','a',True),('sub','a',True),('subAssign','a',True),
 ('lsubAssign','a',True),('double','a',False),('doubleAssign','a',False),('ldouble','a',False),('_neg','a',False),
 ('mulNoADX','a',True),('mulAssignNoADX','a',True),('mulADX','a',True),('mulAssignADX','a',True)]
out=[]; w=out.append
w('''(** * bls12_381/bls/arithmetic_x86.s, instruction by instruction.

    Generated by tools/mkbls.py from the assembly text: one entry per
    instruction, in order.  The loads of the argument pointers
    ([MOVQ x+k(FP), R]) are resolved by the generator and left out; RET is the
    end of the list. *)
From Coq Require Import ZArith List.
From Verif Require Import ModelX86.
Import ListNotations.
Local Open Scope Z_scope.
''')
def strip(text):
    return text
for nm,_,_ in names:
    st=[i for i,l in enumerate(L) if l.startswith('TEXT ·%s('%nm)][0]
    head=L[st]
    assign = nm.endswith('Assign') or 'Assign' in nm
    frame=int(re.search(r'\$(\d+)-',head)[1])
    i=st+1; ptr={}; ins=[]; comment=False; stored=False
    regs='AX BX CX DX SI DI R8 R9 R10 R11 R12 R13 R14 R15'.split()
    while True:
        l=L[i]; i+=1
        l=re.sub(r'/\*.*?\*/','',l).split('//')[0].strip()
        assert '/*' not in l and '*/' not in l,(nm,i,l)
        if l=='RET': break
        if not l: continue
        op,rest=l.split(None,1); ops=[x.strip() for x in rest.split(',')]
        def place(o,write=False):
            global stored
            if o in regs:
                assert write or o not in ptr,(nm,i,o)
                return o
            m=re.fullmatch(r'(\d*)\((\w+)\)',o); assert m,(nm,i,o)
            off=int(m[1] or 0); assert off%8==0
            if m[2]=='SP': return '(St %d)'%(off//8)
            a=ptr[m[2]]
            if write:
                assert a==('a' if assign else 'c'),(nm,i,o)
                return '(Out %d)'%(off//8)
            assert a in 'ab'
            return '(%s %d)'%({'a':'Ar','b':'Br'}[a],off//8)
        def src(o):
            if o[0]=='$': return '(K %d)'%int(o[1:],0)
            m=re.fullmatch(r'·modulus\+(\d+)\(SB\)',o)
            if m: return '(Mw %d)'%(int(m[1])//8)
            if o=='·inp+0(SB)': return 'Inp'
            s='(L %s)'%place(o)
            if 'Ar' in s or 'Br' in s: assert not stored,(nm,i,o)
            return s
        m=re.fullmatch(r'([abc])\+(\d+)\(FP\)',ops[0])
        if m:
            assert op=='MOVQ'
            order=['a','b'] if assign else ['c','a','b']
            assert int(m[2])==8*order.index(m[1])
            ptr[ops[1]]=m[1]; continue
        if op=='MULQ': ins.append('MULQ '+src(ops[0])); continue
        if op=='MULXQ':
            s=src(ops[0]); ins.append('MULXQ %s %s %s'%(s,ops[1],ops[2]))
            for r in ops[1:]: ptr.pop(r,None)
            continue
        if op=='XORQ' and ops[0]==ops[1]:
            ptr.pop(ops[1],None)   # xor of a register with itself is 0 whatever it held
        s=src(ops[0])
        d=place(ops[1],True)
        if d.startswith('(Out'): stored=True; assert op=='MOVQ'
        if op!='MOVQ' and d in regs: assert d not in ptr,(nm,i)
        if d in regs: ptr.pop(d,None)
        assert op in 'MOVQ ADDQ ADCQ ADCXQ ADOXQ SUBQ SBBQ XORQ CMOVQCC'.split(),op
        ins.append('%s %s %s'%(op,s,d))
    nn=nm.lstrip('_')
    w('(** arithmetic_x86.s:%d-%d (%s); declared frame: %d bytes. *)'%(st+1,i,nm,frame))
    w('Definition asm_%s_frame : Z := %d.'%(nn,frame))
    w('Definition asm_%s : list xins :=\n  ['%nn)
    lines=[]; cur='  '
    for k,x in enumerate(ins):
        t=x+('; ' if k<len(ins)-1 else '')
        if len(cur+t)>96: lines.append(cur.rstrip()); cur='   '
        cur+=t
    lines.append(cur)
    out[-1]=out[-1]+lines[0].strip(); out.extend(lines[1:]); out[-1]+='].\n'
open('/verif/rocq/theories/ModelBlsAsm.v','w').write('\n'.join(out))
