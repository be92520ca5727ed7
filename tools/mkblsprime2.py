"""Generate theories/BlsPrimes2.v: primality of the largest prime factor of the
cofactor of G2 of BLS12-381, by a chain of Pocklington certificates."""
import os, math
here=os.path.dirname(os.path.abspath(__file__))
P=402096035359507321594726366720466575392706800671181159425656785868777272553337714697862511267018014931937703598282857976535744623203249
Q=4638704574076146691498289350639807119782054683906549022985642612861209609656189848749536921852444848596916990932297
R=26935696298915610574513298451669528361624243820491956655650666425177
S=81162125843606155545104998607900118769099783
T=19931107752921199754119
U=22294303974184787197
def limbs(n,z): return [ (z>>(28*i)) & (2**28-1) for i in range(n)]
def il(l): return '['+'; '.join(map(str,l))+']%uint63'
out=[];w=out.append
w('''(** Primality of the largest prime factor of the cofactor of the group of the
    signatures of BLS12-381, by Pocklington certificates checked in the kernel.
    Generated by tools/mkblsprime2.py. *)
Require Import ZArith List Znumtheory Uint63.
Require Import Verif.Base Verif.Fp Verif.Mont63 Verif.Pock.
Import ListNotations.
Open Scope Z_scope.
''')
def ctx(nm,p):
    n=p.bit_length()//28+1
    R=2**(28*n)
    w(f'''Definition ctx_{nm} : mctx := {{|
  mc_n := {n}; mc_p := {p};
  mc_M := {il(limbs(n,p))};
  mc_mi := {pow(-p,-1,2**28)}%uint63;
  mc_r := {pow(R,-1,p)};
  mc_m1 := {il(limbs(n,(-R)%p))} |}}.
Lemma ctx_{nm}_ok : mctx_ok ctx_{nm} = true.
Proof. vm_compute. reflexivity. Qed.
''')
name={}
def small(q):
    if q in name: return
    w(f'Lemma prime_c{q} : prime {q}.\nProof. apply small_prime_ok. vm_compute. reflexivity. Qed.\n')
    name[q]=f'prime_c{q}'
def cert(nm,n,F):
    prod=1
    for q,e in F: assert (n-1)%q**e==0; prod*=q**e
    assert (prod+1)**2>n,nm
    l=[]
    for q,e in F:
        a=2
        while not (pow(a,n-1,n)==1 and math.gcd(pow(a,(n-1)//q,n)-1,n)==1): a+=1
        l.append(f'({q}, {e}, {a})')
    for q,_ in F:
        if q not in name: small(q)
    ctx(nm,n)
    w(f'''Lemma prime_{nm} : prime {n}.
Proof.
  refine (pocklington ctx_{nm} [{'; '.join(l)}] ctx_{nm}_ok _ _).
  - repeat (apply Forall_cons; [cbn [fst]|]); [{' | '.join('exact '+name[q] for q,_ in F)} | apply Forall_nil].
  - vm_compute. reflexivity.
Qed.
''')
    name[n]='prime_'+nm
def fact(n,lim):
    f=[];d=2
    while d<lim and n>1:
        e=0
        while n%d==0: n//=d;e+=1
        if e: f.append((d,e))
        d+=1
    return f,n
import sys
V=1857858664515398933; W=512088937297519
X=12192593745179
f,c=fact(X-1,4*10**6)
if c>1: f.append((c,1))
f=[t for t in f if t[0]>100]
cert('cx',X,f)
cert('cw',W,[(X,1)])
cert('cv',V,[(W,1)])

cert('cu',U,[(V,1)])
cert('ct',T,[(U,1)])
cert('cs',S,[(T,1)])
cert('cr',R,[(S,1)])
cert('cq',Q,[(R,1)])
cert('cp',P,[(Q,1)])
for q in (13,23,2713,11953,262069): small(q)
open(here+'/../rocq/theories/BlsPrimes2.v','w').write('\n'.join(out))
