(** The optimal ate pairing of BLS12-381: Miller's algorithm for the parameter
    x = -0xd201000000010000 and the exponent 3 (p^12 - 1) / r. *)
From Coq Require Import ZArith List Bool.
From Verif Require Import SpecBls Fp BlsFp2 Weier SpecBlsSig SpecBlsMap SpecBlsGT.
From Verif Require Tower Group.
Import ListNotations.
Local Open Scope Z_scope.
(** The slope of the line through two points of y^2 = x^3 + 4 (1 + i), of the tangent
    if they agree *)
Definition slope (R S : g2pt) : Fp2 :=
  match R, S with
  | Weier.Aff _ x1 y1, Weier.Aff _ x2 y2 =>
      if q2_dec x1 x2 then q2_div (q2_mul (q2 bls_p 3 0) (q2_mul x1 x1)) (q2_mul (q2 bls_p 2 0) y1)
      else q2_div (q2_sub y2 y1) (q2_sub x2 x1)
  | _, _ => q2 bls_p 0 0
  end.
(** a number of F_p among those of F_p(i) *)
Definition of_p (a : fp bls_p) : Fp2 := (a, fp_of bls_p 0).
(** (x, y) -> (x / w^2, y / w^3) takes that curve to y^2 = x^3 + 4.  This is w^3 times
    the line through the images of R and S, at P:
    yP w^3 - l xP w^2 + l xR - yR, where w^2 = v *)
Definition line_at (R S : g2pt) (P : g1pt) : F12 :=
  match R, P with
  | Weier.Aff _ xR yR, Weier.Aff _ xP yP =>
      Tower.T12 Fp2 (Tower.T6 Fp2 (q2_sub (q2_mul (slope R S) xR) yR) (q2_opp (q2_mul (slope R S) (of_p xP))) zz2)
                    (Tower.T6 Fp2 zz2 (of_p yP) zz2)
  | _, _ => O12
  end.
(** Miller's algorithm: the bits below the highest, from above *)
Fixpoint miller (bits : list bool) (f : F12) (R Q : g2pt) (P : g1pt) : F12 :=
  match bits with
  | [] => f
  | b :: bits =>
      let f := Mul12 (Mul12 f f) (line_at R R P) in
      let R := g2_add R R in
      if b then miller bits (Mul12 f (line_at R Q P)) (g2_add R Q) Q P else miller bits f R Q P
  end.
Definition ate_bits : list bool := map (fun i => Z.testbit 0xd201000000010000 (Z.of_nat i)) (rev (seq 0 63)).
(** the parameter is negative: conjugate *)
Definition ate (P : g1pt) (Q : g2pt) : F12 :=
  match P, Q with
  | Weier.Aff _ _ _, Weier.Aff _ _ _ => zp (3 * ((bls_p ^ 12 - 1) / bls_r)) (Conj12 (miller ate_bits O12 Q Q P))
  | _, _ => O12
  end.
