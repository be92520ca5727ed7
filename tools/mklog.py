"""Turns the results of seed.py into /verif/seeded/LOG.jsonl.
usage: mklog.py results.jsonl ... ; notes keyed by (file, definition, new text) below."""
import json,sys
TIGHT={("ModelSM2S","sm2_kdf"):("C67_sm2_encryption_standard_partial","survived: C24 only relates encryption and decryption, which change together; C67 (equality with the standard) was added"),
("ModelBlsF","madd2s"):("C72_portable_square_partial","survived: the portable square was only refuted, so nothing constrained it; the partial theorem (words below 2^63) was added and the edit now stops its proof"),
("ModelBlsF","fb_square"):("C72_portable_square_partial","survived: the portable square was only refuted, so nothing constrained it; the partial theorem (words below 2^63) was added and the edit now stops its proof")}
EQ={("ModelBlsGT","preCompute"):"survived: pairs with a point at infinity are dropped before (addPair), so the case is not reached and no claim is false",
("ModelK1","k1_double"):"survived: the difference is reduced by the next operation, so the results are equal and no claim is false",
("ModelBls","exp_pos"):"survived: in the last step z is the Montgomery form of 1, so z z a = z a and no claim is false",
("ModelBls","inv_loop"):"survived: r stays below 2p < 2^382 in the loop, so the carry is 0 and no claim is false",
("ModelEdCode","fe_A"):"survived: the constant is not used by any function a property is about"}
out=[]
for f in sys.argv[1:]:
    for l in open(f):
        d=json.loads(l)
        k=(d['file'],d['defn'])
        r={"definition":f"{d['file']}.{d['defn']}","edit":f"{d['old']}  ==>  {d['new'] or '(removed)'}","claim":d['claim'],
           "theorems_failed":[f"{a}.{b}" for a,b in d['failed']],"theorems_tightened":[]}
        if not d['failed']:
            if k in TIGHT: r["theorems_tightened"]=[TIGHT[k][0]]; r["note"]=TIGHT[k][1]
            elif k in EQ: r["note"]=EQ[k]
            else: r["note"]=d.get('note','survived')
        else: r["note"]="the build stops at the listed lemmas, on which the property theorem rests"
        out.append(r)
with open('/verif/seeded/LOG.jsonl','w') as f:
    for r in out: f.write(json.dumps(r,ensure_ascii=False)+"\n")
print(len(out),[r['definition'] for r in out if not r['theorems_failed']])
