#!/usr/bin/env python3
"""Generate rocq/theories/EdHint.v: points of edwards25519 in Montgomery limb
form (R = 2^280, 28-bit limbs).  Hints only: EdCurve.v and ProofEdT.v check
every relation between them."""
p = 2**255 - 19
d = -121665 * pow(121666, -1, p) % p
L = 2**252 + 27742317777372353535851937790883648493
By = 4 * pow(5, -1, p) % p
def sqrt(a):
    x = pow(a, (p + 3) // 8, p)
    if x * x % p != a % p: x = x * pow(2, (p - 1) // 4, p) % p
    assert x * x % p == a % p
    return x
Bx = sqrt((By * By - 1) * pow(d * By * By + 1, -1, p))
if Bx % 2: Bx = p - Bx
B = (Bx, By)
def add(P, Q):
    (x1, y1), (x2, y2) = P, Q
    m = d * x1 * x2 * y1 * y2 % p
    return ((x1*y2 + x2*y1) * pow(1 + m, -1, p) % p, (y1*y2 + x1*x2) * pow(1 - m, -1, p) % p)
def limbs(z):
    z = z * 2**280 % p
    return "[" + ";".join(str((z >> 28*i) & (2**28 - 1)) for i in range(10)) + "]"
def pt(P): return "(%s,%s)" % (limbs(P[0]), limbs(P[1]))
out = ["(** Generated by tools/mkedhint.py: points of the curve in Montgomery form, used as",
       "    hints by the checkers of EdCurve.v and ProofEdT.v. *)",
       "Require Import List Uint63.", "Import ListNotations.", "Open Scope uint63_scope.", "",
       "Definition lpt : Type := (list int * list int)%type.",
       "Definition h_B : lpt := %s." % pt(B),
       "Definition h_d : list int := %s." % limbs(d),
       "Definition h_one : list int := %s." % limbs(1)]
# the chain of doublings and additions of B that leads to L B
ops = []
P = B
for b in bin(L)[3:]:
    P = add(P, P); ops.append("(true,%s)" % pt(P))
    if b == '1':
        P = add(P, B); ops.append("(false,%s)" % pt(P))
assert P == (0, 1)
out.append("Definition h_order : list (bool * lpt) := [\n%s]." % ";\n".join(ops))
# the rows of the base table, followed by the doublings that lead to the next row
rows = []
P = B
for i in range(32):
    r = [P]
    for j in range(7): r.append(add(r[-1], P))
    dbl = []
    Q = r[7]
    for _ in range(5):
        Q = add(Q, Q); dbl.append(Q)
    rows.append("([%s],\n[%s])" % (";\n".join(map(pt, r[1:])), ";\n".join(map(pt, dbl))))
    P = Q
out.append("Definition h_rows : list (list lpt * list lpt) := [\n%s]." % ";\n".join(rows))
odd = []
Q = B; B2 = add(B, B)
for k in range(8):
    Q = add(Q, B2)
    if k < 7: odd.append(Q)
out.append("Definition h_odd : list lpt := [\n%s]." % ";\n".join(map(pt, odd)))
out.append("Definition h_B2 : lpt := %s." % pt(B2))
open("/verif/rocq/theories/EdHint.v", "w").write("\n".join(out) + "\n")
print(Bx, By, d)
