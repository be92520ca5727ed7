"""Translates the unrolled products of sm2_stdMul and sm2_stdSquare (sm2_std.go:583-721) and the
precomputed table to Coq text; prints the definitions used in ModelSM2F.v / ModelSM2P.v."""
import re,sys
src=open('/repo/sm2_std.go').read()
def body(name):
    i=src.index('func '+name+'('); j=src.index('\n}\n',i); return src[i:j]
def products(name):
    b=body(name); out=[]
    for m in re.finditer(r'tmp\[(\d+)\] = (.*?)(?=\n\ttmp\[|\n\n|\n\tsm2_stdReduceDegree)',b,re.S):
        e=re.sub(r'\s+',' ',m.group(2))
        e=re.sub(r'uint64\((\w)\[(\d)\]\)',r'\1\2',e)
        e=re.sub(r'\((\w\d) ?<< ?(\d)\)',lambda k:k.group(1) if k.group(2)=='0' else f'({k.group(1)} * {2**int(k.group(2))})',e)
        e=re.sub(r' ?\* ?',' * ',e)
        out.append((int(m.group(1)),e))
    assert [k for k,_ in out]==list(range(17)),[k for k,_ in out]
    return out
def table():
    i=src.index('sm2_stdPrecomputed = '); i=src.index('{',i); j=src.index('\n}',i)
    t=[int(x,16) for x in re.findall(r'0x[0-9a-fA-F]+',src[i:j])]
    assert len(t)==540; return t
if __name__=='__main__':
    w=sys.argv[1]
    if w=='table':
        t=table(); rows=[t[9*i:9*i+9] for i in range(60)]
        print('['+';\n   '.join('['+'; '.join(hex(v) for v in r)+']' for r in rows)+']')
    else:
        print('      ['+';\n       '.join(f'u64 ({e})' for _,e in products(w))+']')
