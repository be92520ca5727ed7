"""Search Pocklington certificates for the primes used in the development."""
import sys, random, math
SMALL=[q for q in range(2,2000) if all(q%d for d in range(2,int(q**.5)+1))]
def is_pp(n):
    if n<2: return False
    for q in SMALL[:50]:
        if n%q==0: return n==q
    d=n-1;s=0
    while d%2==0: d//=2;s+=1
    for a in SMALL[:20]:
        x=pow(a,d,n)
        if x in(1,n-1): continue
        for _ in range(s-1):
            x=x*x%n
            if x==n-1: break
        else: return False
    return True
def rho(n,lim=1<<17):
    c=random.randrange(1,n);y=random.randrange(n);m=128;g=r=q=1
    it=0
    while g==1:
        x=y
        for _ in range(r): y=(y*y+c)%n
        k=0
        while k<r and g==1:
            ys=y
            for _ in range(min(m,r-k)):
                y=(y*y+c)%n;q=q*abs(x-y)%n
            g=math.gcd(q,n);k+=m
            it+=m
            if it>lim: return None
        r*=2
    if g==n:
        g=1
        while g==1:
            ys=(ys*ys+c)%n;g=math.gcd(abs(x-ys),n)
    return g if g!=n else None
def primes_upto(b):
    s=bytearray([1])*(b+1);s[0:2]=b'\0\0'
    for i in range(2,int(b**.5)+1):
        if s[i]: s[i*i::i]=bytearray(len(range(i*i,b+1,i)))
    return [i for i in range(b+1) if s[i]]
def ecm(n,B1,curves):
    B2=B1*50
    P=primes_upto(B2)
    for _ in range(curves):
        sg=random.randrange(6,n);u=(sg*sg-5)%n;v=4*sg%n
        try: inv=pow(4*u*u*u*v%n,-1,n)
        except ValueError:
            g=math.gcd(4*u**3*v,n)
            if 1<g<n: return g
            continue
        A=(pow(v-u,3,n)*(3*u+v)*inv-2)%n
        try: a24=(A+2)*pow(4,-1,n)%n
        except ValueError: continue
        x,z=pow(u,3,n),pow(v,3,n)
        def dbl(x,z):
            s=(x+z)*(x+z)%n;d=(x-z)*(x-z)%n;t=s-d
            return s*d%n,t*(d+a24*t)%n
        def add(x1,z1,x2,z2,x0,z0):
            a=(x1-z1)*(x2+z2)%n;b=(x1+z1)*(x2-z2)%n
            return z0*(a+b)*(a+b)%n,x0*(a-b)*(a-b)%n
        def mul(k,x,z):
            if k==1: return x,z
            x0,z0=x,z;x1,z1=dbl(x,z)
            for b in bin(k)[3:]:
                if b=='1': x0,z0=add(x1,z1,x0,z0,x,z);x1,z1=dbl(x1,z1)
                else: x1,z1=add(x0,z0,x1,z1,x,z);x0,z0=dbl(x0,z0)
            return x0,z0
        # note: correct ladder ordering
        def mul(k,x,z):
            R0=(x,z);R1=dbl(x,z)
            for b in bin(k)[3:]:
                if b=='1':
                    R0=add(*R0,*R1,x,z);R1=dbl(*R1)
                else:
                    R1=add(*R0,*R1,x,z);R0=dbl(*R0)
            return R0
        for q in P:
            if q>B1: break
            k=q
            while k*q<=B1: k*=q
            x,z=mul(k,x,z)
        g=math.gcd(z,n)
        if 1<g<n: return g
        if g==n: continue
        # stage 2, simple
        S=[None]*0
        D=210
        base={}
        for d in range(1,D//2+1):
            if math.gcd(d,D)==1: base[d]=mul(d,x,z)
        Q=mul(D,x,z)
        start=B1//D
        Ra=mul(start,*Q) if start>0 else None
        Rb=mul(start+1,*Q)
        acc=1;idx={}
        ps=set(p for p in P if p>B1)
        i=start
        cur,prev=Rb,Ra
        i=start+1
        while i*D<B2:
            for d,(bx,bz) in base.items():
                if i*D+d in ps or i*D-d in ps:
                    acc=acc*(cur[0]*bz-cur[1]*bx)%n
            cur,prev=add(*cur,*Q,*prev),cur
            i+=1
        g=math.gcd(acc,n)
        if 1<g<n: return g
    return None
HINTS=[132896956044521568488119,255515944373312847190720520512484175977,205115282021455665897114700593932402728804164701536103180137503955397371,107361793816595537,174723607534414371449,539204044132271846773,8999194758858563409123804352480028797519453,198211423230930754013084525763697,276602624281642239937218680557139826668747]
def factor_some(n,need):
    """factor n until prime part product > need; returns dict"""
    fs={};rest=[]
    for q in HINTS:
        while n%q==0: n//=q;fs[q]=fs.get(q,0)+1
    for q in SMALL:
        while n%q==0: n//=q;fs[q]=fs.get(q,0)+1
    todo=[n] if n>1 else []
    B=2000
    while todo:
        prod=1
        for q,e in fs.items(): prod*=q**e
        if prod*prod>need: break
        m=todo.pop()
        if m==1: continue
        if is_pp(m): fs[m]=fs.get(m,0)+1;continue
        g=rho(m) if B==2000 else None
        if not g: g=ecm(m,B,25)
        if g: todo+= [g,m//g]
        else: todo.append(m);B=int(B*1.6); print("B",B,m,file=sys.stderr)
    return fs
CERT={}
def cert(n):
    if n in CERT: return
    if n<1<<22: CERT[n]=None;return
    fs=factor_some(n-1,n)
    # choose the biggest factors until F^2>n
    use=[];F=1
    for q in sorted(fs,reverse=True):
        if F*F>n: break
        use.append(q);F*=q**fs[q]
    out=[]
    for q in use:
        for a in SMALL:
            if pow(a,n-1,n)==1 and math.gcd(pow(a,(n-1)//q,n)-1,n)==1: break
        else: raise Exception
        out.append((q,fs[q],a))
    for q in use: cert(q)
    CERT[n]=out
NAMES={
 'k1p':2**256-2**32-977,
 'k1n':0xfffffffffffffffffffffffffffffffebaaedce6af48a03bbfd25e8cd0364141,
 'r1p':2**256-2**224+2**192+2**96-1,
 'r1n':0xffffffff00000000ffffffffffffffffbce6faada7179e84f3b9cac2fc632551,
 'sm2p':0xFFFFFFFEFFFFFFFFFFFFFFFFFFFFFFFFFFFFFFFF00000000FFFFFFFFFFFFFFFF,
 'sm2n':0xFFFFFFFEFFFFFFFFFFFFFFFFFFFFFFFF7203DF6B21C6052B53BBF40939D54123,
 'p25519':2**255-19,
 'l25519':2**252+27742317777372353535851937790883648493,
 'pallasp':0x40000000000000000000000000000000224698fc094cf91b992d30ed00000001,
 'pallasq':0x40000000000000000000000000000000224698fc0994a8dd8c46eb2100000001,
 'bls381p':0x1a0111ea397fe69a4b1ba7b6434bacd764774b84f38512bf6730d2a0f6b0f6241eabfffeb153ffffb9feffffffffaaab,
 'bls381r':0x73eda753299d7d483339d80809a1d80553bda402fffe5bfeffffffff00000001}
if __name__=='__main__':
    nm=sys.argv[1]
    random.seed(int(sys.argv[2]) if len(sys.argv)>2 else 1)
    cert(NAMES[nm])
    print(repr((nm,CERT)))
