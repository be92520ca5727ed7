"""Generate theories/BlsTors.v: points of each prime order on the curve of the
signatures of BLS12-381, and the exponent of the group of its points."""
import random, os
here=os.path.dirname(os.path.abspath(__file__))
p=0x1a0111ea397fe69a4b1ba7b6434bacd764774b84f38512bf6730d2a0f6b0f6241eabfffeb153ffffb9feffffffffaaab
r=0x73eda753299d7d483339d80809a1d80553bda402fffe5bfeffffffff00000001
h2=0x5d543a95414e7f1091d50792876a202cd91de4547085abaa68a205b2e5a7ddfa628f1cb4d9e82ef21537e293a6691ae1616ec6e786f0c70cf1c38e31c7238e5
P=402096035359507321594726366720466575392706800671181159425656785868777272553337714697862511267018014931937703598282857976535744623203249
N=h2*r
def mul(a,b): return ((a[0]*b[0]-a[1]*b[1])%p,(a[0]*b[1]+a[1]*b[0])%p)
def add(a,b): return ((a[0]+b[0])%p,(a[1]+b[1])%p)
def sub(a,b): return ((a[0]-b[0])%p,(a[1]-b[1])%p)
def inv(a):
    n=pow(a[0]**2+a[1]**2,-1,p); return (a[0]*n%p,-a[1]*n%p)
def sqrt(a):
    n=(a[0]**2+a[1]**2)%p
    s=pow(n,(p+1)//4,p)
    if s*s%p!=n: return None
    for s in (s,-s):
        t=(a[0]+s)*pow(2,-1,p)%p
        c=pow(t,(p+1)//4,p)
        if c*c%p==t and c:
            y=(c,a[1]*pow(2*c,-1,p)%p)
            if mul(y,y)==a: return y
    return None
def padd(P,Q):
    if P is None: return Q
    if Q is None: return P
    if P[0]==Q[0]:
        if add(P[1],Q[1])==(0,0): return None
        l=mul(mul((3,0),mul(P[0],P[0])),inv(mul((2,0),P[1])))
    else: l=mul(sub(Q[1],P[1]),inv(sub(Q[0],P[0])))
    x=sub(sub(mul(l,l),P[0]),Q[0]); return (x,sub(mul(l,sub(P[0],x)),P[1]))
def pm(k,P):
    R=None
    for b in bin(k)[2:]:
        R=padd(R,R)
        if b=='1': R=padd(R,P)
    return R
random.seed(1)
def rnd():
    while 1:
        x=(random.randrange(p),random.randrange(p)); y=sqrt(add(mul(x,mul(x,x)),(4,4)))
        if y: return (x,y)
def point(q,e):
    while 1:
        A=pm(N//q**e,rnd())
        if A is not None: assert pm(q,A) is None; return A
pts=[]
for q in (13,23):
    A=point(q,2)
    ms={pm(k,A)[0] for k in range(1,q)}
    while 1:
        B=point(q,2)
        if B[0] not in ms: break
    pts+=[(f'{q}',q,A),(f'{q}b',q,B)]
for q in (2713,11953,262069): pts.append((str(q),q,point(q,1)))
pts.append(('P',P,point(P,1)))
out=open(here+'/BlsTors.in').read()
s=[]
for n,q,A in pts:
    s.append(f'''Definition tx{n} : Z * Z := ({hex(A[0][0])}, {hex(A[0][1])}).
Definition ty{n} : Z * Z := ({hex(A[1][0])}, {hex(A[1][1])}).
Definition T{n} : g2pt := pt tx{n} ty{n}.
Lemma T{n}_on : t_on ctx_blsp (lz tx{n}) (lz ty{n}) (l2 4 4) = true. Proof. vm_cast_no_check (@eq_refl bool true). Qed.
Lemma T{n}_chk : t_check ctx_blsp (lz tx{n}) (lz ty{n}) (l2 1 0) {'o'+n if n=='P' else q} = true. Proof. vm_cast_no_check (@eq_refl bool true). Qed.
Lemma T{n}_ord : g2_on T{n} /\\ g2_mul {'o'+n if n=='P' else q} T{n} = g2_inf.
Proof. exact (tors tx{n} ty{n} {'o'+n if n=='P' else q} eq_refl T{n}_on T{n}_chk). Qed.
''')
out=out.replace('@POINTS@','\n'.join(s)).replace('@P@',str(P))
open(here+'/../rocq/theories/BlsTors.v','w').write(out)
