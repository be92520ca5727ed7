"""Generate theories/BlsPrimes.v: primality of the group order r of BLS12-381 by a
Pocklington certificate, and the arithmetic context of the field prime."""
import os
here=os.path.dirname(os.path.abspath(__file__))
p=0x1a0111ea397fe69a4b1ba7b6434bacd764774b84f38512bf6730d2a0f6b0f6241eabfffeb153ffffb9feffffffffaaab
r=0x73eda753299d7d483339d80809a1d80553bda402fffe5bfeffffffff00000001
def limbs(n,z): return [ (z>>(28*i)) & (2**28-1) for i in range(n)]
def il(l): return '['+'; '.join(map(str,l))+']%uint63'
out=[];w=out.append
w('''(** Primality of the order of the BLS12-381 groups, by a Pocklington certificate
    checked in the kernel, and the context for arithmetic modulo the field prime.
    Generated by tools/mkblsprime.py. *)
Require Import ZArith List Znumtheory Uint63.
Require Import Verif.Base Verif.Fp Verif.Mont63 Verif.Pock.
Import ListNotations.
Open Scope Z_scope.
''')
def ctx(nm,p,n):
    R=2**(28*n)
    w(f'''Definition ctx_{nm} : mctx := {{|
  mc_n := {n}; mc_p := {p};
  mc_M := {il(limbs(n,p))};
  mc_mi := {pow(-p,-1,2**28)}%uint63;
  mc_r := {pow(R,-1,p)};
  mc_m1 := {il(limbs(n,(-R)%p))} |}}.
Lemma ctx_{nm}_ok : mctx_ok ctx_{nm} = true.
Proof. vm_compute. reflexivity. Qed.
''')
F=[(2,32),(859267,1),(906349,2),(2508409,1),(2529403,1),(125527,1),(10177,1)]
prod=1
for q,e in F: assert (r-1)%q**e==0; prod*=q**e
assert prod*prod>r, (prod.bit_length())
cert=[]
for q,e in F:
    a=2
    while not (pow(a,r-1,r)==1 and __import__('math').gcd(pow(a,(r-1)//q,r)-1,r)==1): a+=1
    cert.append((q,e,a))
    w(f'Lemma prime_b{q} : prime {q}.\nProof. apply small_prime_ok. vm_compute. reflexivity. Qed.\n')
ctx('blsr',r,10)
l='; '.join(f'({q}, {e}, {a})' for q,e,a in cert)
w(f'''Lemma prime_blsr : prime {r}.
Proof.
  refine (pocklington ctx_blsr [{l}] ctx_blsr_ok _ _).
  - repeat (apply Forall_cons; [cbn [fst]|]); [{' | '.join('exact prime_b%d'%q for q,_ in F)} | apply Forall_nil].
  - vm_compute. reflexivity.
Qed.
''')
ctx('blsp',p,14)
open(here+'/../rocq/theories/BlsPrimes.v','w').write('\n'.join(out))
