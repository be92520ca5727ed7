#!/usr/bin/env python3
# eddsa/curve25519_sha256.go -> rocq/theories/ModelCshaCode.v: the unrolled field code.
import re,ast
src=open('/repo/eddsa/curve25519_sha256.go').read().split('\n')
def func(name):
    i=next(k for k,l in enumerate(src) if l.startswith('func '+name+'('))
    j=next(k for k in range(i,len(src)) if src[k]=='}')
    return i+1,j+1,src[i+1:j]
def ex(node,base,cidx):
    if isinstance(node,ast.BinOp):
        if isinstance(node.op,ast.Add): return f'(Add {ex(node.left,base,cidx)} {ex(node.right,base,cidx)})'
        if isinstance(node.op,ast.Mult): return f'(Mul {ex(node.left,base,cidx)} {ex(node.right,base,cidx)})'
        if isinstance(node.op,ast.RShift):
            assert node.left.id=='t'; shifts.append(node.right.value); return f'(V {cidx})'
    if isinstance(node,ast.Subscript): return f'(V {base[node.value.id]+node.slice.value})'
    if isinstance(node,ast.Constant): return f'(K {node.value})'
    if isinstance(node,ast.Name): return f'(V {base[node.id]})'
    raise Exception(ast.dump(node))
out=['(** GENERATED by tools/mkcsha.py from eddsa/curve25519_sha256.go.  Do not edit.',
'    The rows of the unrolled field functions: the expression for t (where the last',
'    variable is the previous t shifted), the number of bits kept, and the limb stored.',
'    No proofs in this file. *)','Require Import ZArith List.','Require Import Verif.Base Verif.ModelSlp.','Import ListNotations.','Open Scope Z_scope.','Open Scope nat_scope.','']
def rows(name,base,cidx,o):
    global shifts
    a,b,body=func(name); rs=[]; prevk=None
    lines=[l.strip() for l in body]
    i=0
    while i<len(lines)-3:
        m=re.match(r't :?= (.*)$',lines[i]); shifts=[]
        e=ex(ast.parse(m.group(1),mode='eval').body,base,cidx)
        if prevk is None: assert shifts==[]
        else: assert shifts==[prevk],(name,lines[i],shifts,prevk)
        m2=re.match(o+r'\[(\d)\] = \(t & \(\(1 << (\d+)\) - 1\)\)$',lines[i+1])
        rs.append((e,int(m2.group(2)),int(m2.group(1)))); prevk=int(m2.group(2)); i+=2
    assert prevk==25
    assert lines[i:]==[f't = (t >> 25) + {o}[8]',f'{o}[8] = (t & ((1 << 26) - 1))',f'{o}[9] += (t >> 26)'],lines[i:]
    out.append(f'(* curve25519_sha256.go:{a}-{b}, {name} *)')
    out.append(f'Definition cs_{name}_rows : list (ex * Z * nat) :=\n  ['+';\n   '.join(f'({e}, {k}%Z, {l})' for e,k,l in rs)+'].')
rows('mulSmall',{'x':0,'y':10},11,'xy')
rows('mul',{'x':0,'y':10},20,'xy')
rows('sqr',{'x':0},10,'x2')
# unpack
a,b,body=func('unpack')
def ux(n):
    if isinstance(n,ast.Call): return ux(n.args[0])
    if isinstance(n,ast.Subscript): return f'(m {n.slice.value})'
    if isinstance(n,ast.Constant): return str(n.value)
    if isinstance(n,ast.UnaryOp) and isinstance(n.op,ast.Invert): return f'(Z.lnot {ux(n.operand)})'
    op={ast.BitOr:'Z.lor',ast.BitAnd:'Z.land',ast.LShift:'Z.shiftl',ast.RShift:'Z.shiftr'}[type(n.op)]
    return f'({op} {ux(n.left)} {ux(n.right)})'
es=[]
for l in body:
    m=re.match(r'\tx\[(\d)\] = (.*)$',l); assert int(m.group(1))==len(es)
    es.append(ux(ast.parse(m.group(2).replace('& ^','& ~'),mode='eval').body))
out+=['Close Scope nat_scope.',f'(* curve25519_sha256.go:{a}-{b}, unpack *)','Definition cs_unpack (b : bytes) : list Z :=\n  let m i := nth i b 0 in\n  ['+';\n   '.join(re.sub(r'\(m (\d+)\)',r'(m \1%nat)',e) for e in es)+'].']
open('/verif/rocq/theories/ModelCshaCode.v','w').write('\n'.join(out)+'\n')
