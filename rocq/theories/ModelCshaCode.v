(** GENERATED by tools/mkcsha.py from eddsa/curve25519_sha256.go.  Do not edit.
    The rows of the unrolled field functions: the expression for t (where the last
    variable is the previous t shifted), the number of bits kept, and the limb stored.
    No proofs in this file. *)
Require Import ZArith List.
Require Import Verif.Base Verif.ModelSlp.
Import ListNotations.
Open Scope Z_scope.
Open Scope nat_scope.

(* curve25519_sha256.go:318-342, mulSmall *)
Definition cs_mulSmall_rows : list (ex * Z * nat) :=
  [((Mul (V 8) (V 10)), 26%Z, 8);
   ((Add (V 11) (Mul (V 9) (V 10))), 25%Z, 9);
   ((Add (Mul (K 19) (V 11)) (Mul (V 0) (V 10))), 26%Z, 0);
   ((Add (V 11) (Mul (V 1) (V 10))), 25%Z, 1);
   ((Add (V 11) (Mul (V 2) (V 10))), 26%Z, 2);
   ((Add (V 11) (Mul (V 3) (V 10))), 25%Z, 3);
   ((Add (V 11) (Mul (V 4) (V 10))), 26%Z, 4);
   ((Add (V 11) (Mul (V 5) (V 10))), 25%Z, 5);
   ((Add (V 11) (Mul (V 6) (V 10))), 26%Z, 6);
   ((Add (V 11) (Mul (V 7) (V 10))), 25%Z, 7)].
(* curve25519_sha256.go:344-368, mul *)
Definition cs_mul_rows : list (ex * Z * nat) :=
  [((Add (Add (Add (Add (Add (Add (Mul (V 0) (V 18)) (Mul (V 2) (V 16))) (Mul (V 4) (V 14))) (Mul (V 6) (V 12))) (Mul (V 8) (V 10))) (Mul (K 2) (Add (Add (Add (Mul (V 1) (V 17)) (Mul (V 3) (V 15))) (Mul (V 5) (V 13))) (Mul (V 7) (V 11))))) (Mul (K 38) (Mul (V 9) (V 19)))), 26%Z, 8);
   ((Add (Add (Add (Add (Add (Add (Add (Add (Add (Add (V 20) (Mul (V 0) (V 19))) (Mul (V 1) (V 18))) (Mul (V 2) (V 17))) (Mul (V 3) (V 16))) (Mul (V 4) (V 15))) (Mul (V 5) (V 14))) (Mul (V 6) (V 13))) (Mul (V 7) (V 12))) (Mul (V 8) (V 11))) (Mul (V 9) (V 10))), 25%Z, 9);
   ((Add (Add (Mul (V 0) (V 10)) (Mul (K 19) (Add (Add (Add (Add (V 20) (Mul (V 2) (V 18))) (Mul (V 4) (V 16))) (Mul (V 6) (V 14))) (Mul (V 8) (V 12))))) (Mul (K 38) (Add (Add (Add (Add (Mul (V 1) (V 19)) (Mul (V 3) (V 17))) (Mul (V 5) (V 15))) (Mul (V 7) (V 13))) (Mul (V 9) (V 11))))), 26%Z, 0);
   ((Add (Add (Add (V 20) (Mul (V 0) (V 11))) (Mul (V 1) (V 10))) (Mul (K 19) (Add (Add (Add (Add (Add (Add (Add (Mul (V 2) (V 19)) (Mul (V 3) (V 18))) (Mul (V 4) (V 17))) (Mul (V 5) (V 16))) (Mul (V 6) (V 15))) (Mul (V 7) (V 14))) (Mul (V 8) (V 13))) (Mul (V 9) (V 12))))), 25%Z, 1);
   ((Add (Add (Add (Add (Add (V 20) (Mul (V 0) (V 12))) (Mul (V 2) (V 10))) (Mul (K 19) (Add (Add (Mul (V 4) (V 18)) (Mul (V 6) (V 16))) (Mul (V 8) (V 14))))) (Mul (K 2) (Mul (V 1) (V 11)))) (Mul (K 38) (Add (Add (Add (Mul (V 3) (V 19)) (Mul (V 5) (V 17))) (Mul (V 7) (V 15))) (Mul (V 9) (V 13))))), 26%Z, 2);
   ((Add (Add (Add (Add (Add (V 20) (Mul (V 0) (V 13))) (Mul (V 1) (V 12))) (Mul (V 2) (V 11))) (Mul (V 3) (V 10))) (Mul (K 19) (Add (Add (Add (Add (Add (Mul (V 4) (V 19)) (Mul (V 5) (V 18))) (Mul (V 6) (V 17))) (Mul (V 7) (V 16))) (Mul (V 8) (V 15))) (Mul (V 9) (V 14))))), 25%Z, 3);
   ((Add (Add (Add (Add (Add (Add (V 20) (Mul (V 0) (V 14))) (Mul (V 2) (V 12))) (Mul (V 4) (V 10))) (Mul (K 19) (Add (Mul (V 6) (V 18)) (Mul (V 8) (V 16))))) (Mul (K 2) (Add (Mul (V 1) (V 13)) (Mul (V 3) (V 11))))) (Mul (K 38) (Add (Add (Mul (V 5) (V 19)) (Mul (V 7) (V 17))) (Mul (V 9) (V 15))))), 26%Z, 4);
   ((Add (Add (Add (Add (Add (Add (Add (V 20) (Mul (V 0) (V 15))) (Mul (V 1) (V 14))) (Mul (V 2) (V 13))) (Mul (V 3) (V 12))) (Mul (V 4) (V 11))) (Mul (V 5) (V 10))) (Mul (K 19) (Add (Add (Add (Mul (V 6) (V 19)) (Mul (V 7) (V 18))) (Mul (V 8) (V 17))) (Mul (V 9) (V 16))))), 25%Z, 5);
   ((Add (Add (Add (Add (Add (Add (Add (V 20) (Mul (V 0) (V 16))) (Mul (V 2) (V 14))) (Mul (V 4) (V 12))) (Mul (V 6) (V 10))) (Mul (K 19) (Mul (V 8) (V 18)))) (Mul (K 2) (Add (Add (Mul (V 1) (V 15)) (Mul (V 3) (V 13))) (Mul (V 5) (V 11))))) (Mul (K 38) (Add (Mul (V 7) (V 19)) (Mul (V 9) (V 17))))), 26%Z, 6);
   ((Add (Add (Add (Add (Add (Add (Add (Add (Add (V 20) (Mul (V 0) (V 17))) (Mul (V 1) (V 16))) (Mul (V 2) (V 15))) (Mul (V 3) (V 14))) (Mul (V 4) (V 13))) (Mul (V 5) (V 12))) (Mul (V 6) (V 11))) (Mul (V 7) (V 10))) (Mul (K 19) (Add (Mul (V 8) (V 19)) (Mul (V 9) (V 18))))), 25%Z, 7)].
(* curve25519_sha256.go:370-394, sqr *)
Definition cs_sqr_rows : list (ex * Z * nat) :=
  [((Add (Add (Add (Mul (V 4) (V 4)) (Mul (K 2) (Add (Mul (V 0) (V 8)) (Mul (V 2) (V 6))))) (Mul (K 38) (Mul (V 9) (V 9)))) (Mul (K 4) (Add (Mul (V 1) (V 7)) (Mul (V 3) (V 5))))), 26%Z, 8);
   ((Add (V 10) (Mul (K 2) (Add (Add (Add (Add (Mul (V 0) (V 9)) (Mul (V 1) (V 8))) (Mul (V 2) (V 7))) (Mul (V 3) (V 6))) (Mul (V 4) (V 5))))), 25%Z, 9);
   ((Add (Add (Add (Mul (K 19) (V 10)) (Mul (V 0) (V 0))) (Mul (K 38) (Add (Add (Mul (V 2) (V 8)) (Mul (V 4) (V 6))) (Mul (V 5) (V 5))))) (Mul (K 76) (Add (Mul (V 1) (V 9)) (Mul (V 3) (V 7))))), 26%Z, 0);
   ((Add (Add (V 10) (Mul (K 2) (Mul (V 0) (V 1)))) (Mul (K 38) (Add (Add (Add (Mul (V 2) (V 9)) (Mul (V 3) (V 8))) (Mul (V 4) (V 7))) (Mul (V 5) (V 6))))), 25%Z, 1);
   ((Add (Add (Add (Add (V 10) (Mul (K 19) (Mul (V 6) (V 6)))) (Mul (K 2) (Add (Mul (V 0) (V 2)) (Mul (V 1) (V 1))))) (Mul (K 38) (Mul (V 4) (V 8)))) (Mul (K 76) (Add (Mul (V 3) (V 9)) (Mul (V 5) (V 7))))), 26%Z, 2);
   ((Add (Add (V 10) (Mul (K 2) (Add (Mul (V 0) (V 3)) (Mul (V 1) (V 2))))) (Mul (K 38) (Add (Add (Mul (V 4) (V 9)) (Mul (V 5) (V 8))) (Mul (V 6) (V 7))))), 25%Z, 3);
   ((Add (Add (Add (Add (Add (V 10) (Mul (V 2) (V 2))) (Mul (K 2) (Mul (V 0) (V 4)))) (Mul (K 38) (Add (Mul (V 6) (V 8)) (Mul (V 7) (V 7))))) (Mul (K 4) (Mul (V 1) (V 3)))) (Mul (K 76) (Mul (V 5) (V 9)))), 26%Z, 4);
   ((Add (Add (V 10) (Mul (K 2) (Add (Add (Mul (V 0) (V 5)) (Mul (V 1) (V 4))) (Mul (V 2) (V 3))))) (Mul (K 38) (Add (Mul (V 6) (V 9)) (Mul (V 7) (V 8))))), 25%Z, 5);
   ((Add (Add (Add (Add (V 10) (Mul (K 19) (Mul (V 8) (V 8)))) (Mul (K 2) (Add (Add (Mul (V 0) (V 6)) (Mul (V 2) (V 4))) (Mul (V 3) (V 3))))) (Mul (K 4) (Mul (V 1) (V 5)))) (Mul (K 76) (Mul (V 7) (V 9)))), 26%Z, 6);
   ((Add (Add (V 10) (Mul (K 2) (Add (Add (Add (Mul (V 0) (V 7)) (Mul (V 1) (V 6))) (Mul (V 2) (V 5))) (Mul (V 3) (V 4))))) (Mul (K 38) (Mul (V 8) (V 9)))), 25%Z, 7)].
Close Scope nat_scope.
(* curve25519_sha256.go:194-205, unpack *)
Definition cs_unpack (b : bytes) : list Z :=
  let m i := nth i b 0 in
  [(Z.lor (Z.lor (Z.lor (m 0%nat) (Z.shiftl (m 1%nat) 8)) (Z.shiftl (m 2%nat) 16)) (Z.shiftl (Z.land (m 3%nat) 3) 24));
   (Z.lor (Z.lor (Z.lor (Z.shiftr (Z.land (m 3%nat) (Z.lnot 3)) 2) (Z.shiftl (m 4%nat) 6)) (Z.shiftl (m 5%nat) 14)) (Z.shiftl (Z.land (Z.land (m 6%nat) 255) 7) 22));
   (Z.lor (Z.lor (Z.lor (Z.shiftr (Z.land (m 6%nat) (Z.lnot 7)) 3) (Z.shiftl (m 7%nat) 5)) (Z.shiftl (m 8%nat) 13)) (Z.shiftl (Z.land (m 9%nat) 31) 21));
   (Z.lor (Z.lor (Z.lor (Z.shiftr (Z.land (m 9%nat) (Z.lnot 31)) 5) (Z.shiftl (m 10%nat) 3)) (Z.shiftl (Z.land (m 11%nat) 255) 11)) (Z.shiftl (Z.land (m 12%nat) 63) 19));
   (Z.lor (Z.lor (Z.lor (Z.shiftr (Z.land (Z.land (m 12%nat) 255) (Z.lnot 63)) 6) (Z.shiftl (m 13%nat) 2)) (Z.shiftl (m 14%nat) 10)) (Z.shiftl (m 15%nat) 18));
   (Z.lor (Z.lor (Z.lor (m 16%nat) (Z.shiftl (m 17%nat) 8)) (Z.shiftl (m 18%nat) 16)) (Z.shiftl (Z.land (m 19%nat) 1) 24));
   (Z.lor (Z.lor (Z.lor (Z.shiftr (Z.land (Z.land (m 19%nat) 255) (Z.lnot 1)) 1) (Z.shiftl (m 20%nat) 7)) (Z.shiftl (m 21%nat) 15)) (Z.shiftl (Z.land (m 22%nat) 7) 23));
   (Z.lor (Z.lor (Z.lor (Z.shiftr (Z.land (m 22%nat) (Z.lnot 7)) 3) (Z.shiftl (m 23%nat) 5)) (Z.shiftl (m 24%nat) 13)) (Z.shiftl (Z.land (m 25%nat) 15) 21));
   (Z.lor (Z.lor (Z.lor (Z.shiftr (Z.land (m 25%nat) (Z.lnot 15)) 4) (Z.shiftl (m 26%nat) 4)) (Z.shiftl (m 27%nat) 12)) (Z.shiftl (Z.land (m 28%nat) 63) 20));
   (Z.lor (Z.lor (Z.lor (Z.shiftr (Z.land (m 28%nat) (Z.lnot 63)) 6) (Z.shiftl (m 29%nat) 2)) (Z.shiftl (m 30%nat) 10)) (Z.shiftl (m 31%nat) 18))].
