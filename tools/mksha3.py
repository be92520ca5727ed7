#!/usr/bin/env python3
"""Translate the assignments of /repo/sha3/keccakf.go, line by line, into
theories/ModelSha3Code.v.  Any line of an unknown shape is an error."""
import re
src = open('/repo/sha3/keccakf.go').read().split('\n')
V = {'t': 25}
for i in range(5):
    V['bc%d' % i] = 26 + i
    V['d%d' % i] = 31 + i
def var(s):
    m = re.fullmatch(r'a\[(\d+)\]', s)
    return int(m.group(1)) if m else V[s]
A = r'(a\[\d+\]|bc\d|d\d|t)'
rounds, rc, start = [], [], False
for n, l in enumerate(src, 1):
    l = l.split('//')[0].strip() if not l.strip().startswith('// Round') else l.strip()
    m = re.fullmatch(r'0x([0-9A-Fa-f]{16}),', l)
    if m: rc.append(int(m.group(1), 16)); continue
    if l.startswith('// Round'):
        rounds.append((n, [])); start = True; continue
    if not start or l in ('', '}'): continue
    ins = None
    m = re.fullmatch(rf'{A} = {A} \^ {A} \^ {A} \^ {A} \^ {A}', l)
    if m: ins = 'Xor5 %d %d %d %d %d %d' % tuple(var(x) for x in m.groups())
    m = m or re.fullmatch(rf'{A} = {A} \^ \({A}<<1 \| {A}>>63\)', l)
    if m and not ins:
        assert m.group(3) == m.group(4); ins = 'XorRol1 %d %d %d' % tuple(var(x) for x in m.groups()[:3])
    m = m or re.fullmatch(rf'{A} = {A} \^ {A}', l)
    if m and not ins: ins = 'Xor2 %d %d %d' % tuple(var(x) for x in m.groups())
    m = m or re.fullmatch(rf'{A} = {A}<<(\d+) \| {A}>>\(64-(\d+)\)', l)
    if m and not ins:
        g = m.groups(); assert g[1] == g[3] and g[2] == g[4]; ins = 'Rol %d %d %s' % (var(g[0]), var(g[1]), g[2])
    m = m or re.fullmatch(rf'{A} = {A} \^ \({A} &\^ {A}\)', l)
    if m and not ins: ins = 'Chi %d %d %d %d' % tuple(var(x) for x in m.groups())
    m = m or re.fullmatch(rf'{A} = {A} \^ \({A} &\^ {A}\) \^ rc\[i(?:\+(\d))?\]', l)
    if m and not ins:
        g = m.groups(); ins = 'ChiRc %d %d %d %d %s' % (tuple(var(x) for x in g[:4]) + (g[4] or '0',))
    assert ins, (n, l)
    rounds[-1][1].append(ins)
assert len(rc) == 24 and len(rounds) == 4
o = ['(** Generated by tools/mksha3.py from /repo/sha3/keccakf.go; do not edit. *)',
     'From Coq Require Import ZArith List.', 'Import ListNotations.', 'Open Scope Z_scope.', '',
     '(** One assignment of keccakF1600.  The variables are numbered: a[i] is i, t is 25,',
     '    bc0 to bc4 are 26 to 30, d0 to d4 are 31 to 35. *)',
     'Inductive kinstr : Set :=',
     '| Xor5 (x a b c d e : nat)    (* x = a ^ b ^ c ^ d ^ e *)',
     '| XorRol1 (x a b : nat)       (* x = a ^ (b<<1 | b>>63) *)',
     '| Xor2 (x a b : nat)          (* x = a ^ b *)',
     '| Rol (x a k : nat)           (* x = a<<k | a>>(64-k) *)',
     '| Chi (x a b c : nat)         (* x = a ^ (b &^ c) *)',
     '| ChiRc (x a b c k : nat).    (* x = a ^ (b &^ c) ^ rc[i+k] *)', '',
     '(* keccakf.go:10-35 *)', 'Definition keccak_rc : list Z :=', '  [' + ';\n   '.join(
         '; '.join('0x%016X' % x for x in rc[i:i+3]) for i in range(0, 24, 3)) + '].', '']
for j, (n, body) in enumerate(rounds):
    o.append('(* keccakf.go:%d on: "Round %d" *)' % (n, j + 1))
    o.append('Definition keccak_code_%d : list kinstr :=' % j)
    o.append('  [' + ';\n   '.join('; '.join(body[i:i+4]) for i in range(0, len(body), 4)) + '].')
o.append('')
o.append('Definition keccak_code : list kinstr := keccak_code_0 ++ keccak_code_1 ++ keccak_code_2 ++ keccak_code_3.')
open('/verif/rocq/theories/ModelSha3Code.v', 'w').write('\n'.join(o) + '\n')
