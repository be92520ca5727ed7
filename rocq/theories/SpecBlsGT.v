(** The field of p^12 elements of the BLS12-381 pairing, as the draft of the pairing
    curves defines it: F_p(i)[v]/(v^3 - (1 + i))[w]/(w^2 - v).  That it is a field is
    proved in Tower and BlsTower. *)
From Coq Require Import ZArith.
From Verif Require Import SpecBls Fp BlsFp2 SpecBlsSig SpecBlsMap.
From Verif Require Tower Group.
Local Open Scope Z_scope.
Definition xi : Fp2 := q2 bls_p 1 1.
(** a0 + a1 v + a2 v^2 and b0 + b1 w *)
Notation F6 := (Tower.t6 Fp2).
Notation F12 := (Tower.t12 Fp2).
Notation zz2 := (q2 bls_p 0 0).
Notation oo2 := (q2 bls_p 1 0).
Notation Z6 := (Tower.z6 Fp2 zz2).
Notation O6 := (Tower.o6 Fp2 zz2 oo2).
Notation Add6 := (Tower.add6 Fp2 q2_add).
Notation Sub6 := (Tower.sub6 Fp2 q2_sub).
Notation Opp6 := (Tower.opp6 Fp2 q2_opp).
Notation Mul6 := (Tower.mul6 Fp2 q2_add q2_mul xi).
Notation Inv6 := (Tower.inv6 Fp2 oo2 q2_add q2_mul q2_sub q2_div xi).
Notation Div6 := (Tower.div6 Fp2 oo2 q2_add q2_mul q2_sub q2_div xi).
Notation Z12 := (Tower.z12 Fp2 zz2).
Notation O12 := (Tower.o12 Fp2 zz2 oo2).
Notation Add12 := (Tower.add12 Fp2 q2_add).
Notation Sub12 := (Tower.sub12 Fp2 q2_sub).
Notation Opp12 := (Tower.opp12 Fp2 q2_opp).
Notation Mul12 := (Tower.mul12 Fp2 zz2 oo2 q2_add q2_mul xi).
Notation Conj12 := (Tower.conj12 Fp2 q2_opp).
Notation Inv12 := (Tower.inv12 Fp2 zz2 oo2 q2_add q2_mul q2_sub q2_opp q2_div xi).
Notation Div12 := (Tower.div12 Fp2 zz2 oo2 q2_add q2_mul q2_sub q2_opp q2_div xi).
(** a multiplied by itself k times, and the inverse of that for negative k *)
Definition zp (k : Z) (a : F12) : F12 := Group.zmul O12 Mul12 Inv12 k a.
