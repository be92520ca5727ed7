"""Generate theories/Primes.v from tools/primecerts.json."""
import json,sys,os
here=os.path.dirname(os.path.abspath(__file__))
D=json.load(open(here+'/primecerts.json'))
names=D['names'];cert={int(k):v for k,v in D['cert'].items()}
def limbs(n,z): return [ (z>>(28*i)) & (2**28-1) for i in range(n)]
def il(l): return '['+'; '.join(map(str,l))+']%uint63'
out=[];w=out.append
w('''(** Primality of the curve constants, by Pocklington certificates checked in
    the kernel.  Generated by tools/mkprimes.py. *)
Require Import ZArith List Znumtheory Uint63.
Require Import Verif.Base Verif.Fp Verif.Mont63 Verif.Pock.
Import ListNotations.
Open Scope Z_scope.
''')
def ctx(nm,p):
    n=max(2,(p.bit_length()+27)//28+ (1 if p.bit_length()%28==0 or p.bit_length()%28>20 else 0))
    R=2**(28*n)
    w(f'''Definition ctx_{nm} : mctx := {{|
  mc_n := {n}; mc_p := {p};
  mc_M := {il(limbs(n,p))};
  mc_mi := {pow(-p,-1,2**28)}%uint63;
  mc_r := {pow(R,-1,p)};
  mc_m1 := {il(limbs(n,(-R)%p))} |}}.
Lemma ctx_{nm}_ok : mctx_ok ctx_{nm} = true.
Proof. vm_compute. reflexivity. Qed.
''')
done={}
inv={int(v):k for k,v in names.items()}
def emit(n):
    if n in done: return done[n]
    c=cert[n]
    nm=inv.get(n,'q%d'%n if n<10**12 else 'q%d_%d'%(n%10**12,n.bit_length()))
    if c is None:
        w(f'Lemma prime_{nm} : prime {n}.\nProof. apply small_prime_ok. vm_compute. reflexivity. Qed.\n')
    else:
        ds=[emit(q) for q,e,a in c]
        ctx(nm,n)
        l='; '.join(f'({q}, {e}, {a})' for q,e,a in c)
        w(f'''Lemma prime_{nm} : prime {n}.
Proof.
  refine (pocklington ctx_{nm} [{l}] ctx_{nm}_ok _ _).
  - repeat (apply Forall_cons; [cbn [fst]|]); [{' | '.join('exact prime_'+d for d in ds)} | apply Forall_nil].
  - vm_compute. reflexivity.
Qed.
''')
    done[n]=nm
    return nm
for k,v in names.items(): emit(int(v))
open(here+'/../rocq/theories/Primes.v','w').write('\n'.join(out))
