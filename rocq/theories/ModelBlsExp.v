(** Exp of the target group (/repo/bls12_381/bls/fp12.go:257-266, gt.go:121-123) for every
    big integer, also a negative one: the loop as written. ModelBlsGT.gt_Exp is its value
    for exponents that are not negative. *)
From Coq Require Import ZArith List Bool.
From Verif Require Import Base ModelBlsF ModelBls ModelBlsGT.
Import ListNotations.
Local Open Scope Z_scope.

(** big.Int.BitLen: the length of the absolute value, 0 for 0 *)
Definition BitLen (s : Z) : nat := if s =? 0 then 0%nat else Z.to_nat (Z.log2 (Z.abs s) + 1).
(** big.Int.Bit: for a negative number that of the two's complement *)
Definition Bit (s : Z) (i : nat) : bool := Z.testbit s (Z.of_nat i).
Section Exp.
Variable F : fbuild.
(** fp12.go:259-264: the turns for i = n-1 down to 0 *)
Fixpoint cyc_loop (a : fe12) (s : Z) (n : nat) (z : fe12) : fe12 :=
  match n with
  | O => z
  | S i =>
      let z := fp12_cyclotomicSquare F z in
      cyc_loop a s i (if Bit s i then fp12_mul F z a else z)
  end.
(** fp12.go:257-266 *)
Definition gt_ExpBig (a : fe12) (s : Z) : fe12 := cyc_loop a s (BitLen s) fp12_one.
End Exp.
