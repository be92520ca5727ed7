# Writes rocq/theories/ModelBls.v: the text below with the numeric tables copied
# from /repo/bls12_381/bls/{swu,isogeny,bls12_381}.go.
import re
D='/repo/bls12_381/bls/'
def nums(s): return [int(x,0) for x in re.findall(r'0x[0-9a-f]+|\d+',s)]
def fes(text): return [nums(m) for m in re.findall(r'\bfe\{([^}]*)\}',text)]
def pad(l): return l+[0]*(6-len(l))
def lst(l): return '['+'; '.join(str(x) for x in pad(l))+']'
sw=open(D+'swu.go').read(); iso=open(D+'isogeny.go').read(); con=open(D+'bls12_381.go').read()
def block(t,start):
    i=t.index(start); return t[i:]
def named(t,name):
    m=re.search(r'\n\t'+name+r':\s*&fe\{([^}]*)\}',t); return lst(nums(m[1]))
def named2(t,name):
    m=re.search(r'\n\t'+name+r': &fe2\{\s*fe\{([^}]*)\},\s*fe\{([^}]*)\},\s*\}',t); return '('+lst(nums(m[1]))+',\n    '+lst(nums(m[2]))+')'
g1=sw[sw.index('var swuParamsForG1'):sw.index('var swuParamsForG2')]
g2=sw[sw.index('var swuParamsForG2'):]
i1=iso[iso.index('var isogenyConstansG1'):iso.index('var isogenyConstantsG2')]
i2=iso[iso.index('var isogenyConstantsG2'):]
f1=[nums(m) for m in re.findall(r'&fe\{([^}]*)\}',i1)]; assert len(f1)==64 and all(len(x) in (1,6) or not x for x in f1), [len(x) for x in f1]
f2=fes(i2); print(len(f2))
def table(rows): return '[' + ';\n   '.join('['+';\n    '.join(r)+']' for r in rows)+']'
T1=table([[lst(f1[16*i+j]) for j in range(16)] for i in range(4)])
assert len(f2)==32
T2=table([['('+lst(f2[8*i+2*j])+', '+lst(f2[8*i+2*j+1])+')' for j in range(4)] for i in range(4)])
def var(name):
    m=re.search(r'var '+name+r' = &?(?:Point)?\w*\{?',con); i=con.index('var '+name+' '); j=con.index('\nvar',i+1) if '\nvar' in con[i+1:] else len(con)
    k=con.find('\n\n',i); return con[i:min(j,k) if k>0 else j]
def hexv(name): return re.search(r'var '+name+r' = .*?"(?:0x)?([0-9a-f]+)"',con,re.S)[1]
R1=lst(fes(var('r1'))[0]); R2=lst(fes(var('r2'))[0]); B=lst(fes(var('b'))[0])
G1=fes(var('g1One')); G2=fes(var('g2One')); NEG=fes(var('negativeOne2')); NR1=lst(fes(var('nonResidue1'))[0]); B2=fes(var('b2'))
out=open('/verif/tools/ModelBls.in').read()
sub={'R1':R1,'R2':R2,'CB':B,'CB2':'(%s,\n    %s)'%(lst(B2[0]),lst(B2[1])),'NEG2':'(%s,\n    %s)'%(lst(NEG[0]),lst(NEG[1])),'NR1':NR1,
 'PM34':'0x'+hexv('pMinus3Over4'),'PP14':'0x'+hexv('pPlus1Over4'),'PM12':'0x'+hexv('pMinus1Over2'),'Q':'0x'+hexv('q'),
 'COF2':'0x'+hexv('cofactorEFFG2'),'G1X':lst(G1[0]),'G1Y':lst(G1[1]),
 'SW1A':named(g1,'a'),'SW1B':named(g1,'b'),'SW1Z':named(g1,'z'),'SW1ZI':named(g1,'zInv'),'SW1M':named(g1,'minusBOverA'),
 'SW2A':named2(g2,'a'),'SW2B':named2(g2,'b'),'SW2Z':named2(g2,'z'),'SW2ZI':named2(g2,'zInv'),'SW2M':named2(g2,'minusBOverA'),
 'ISO1':T1,'ISO2':T2,'G2X':'(%s,\n    %s)'%(lst(G2[0]),lst(G2[1])),'G2Y':'(%s,\n    %s)'%(lst(G2[2]),lst(G2[3]))}
for k,v in sub.items(): out=out.replace('@'+k+'@',v)
assert '@' not in out, re.findall(r'@\w+@',out)
open('/verif/rocq/theories/ModelBls.v','w').write(out)
