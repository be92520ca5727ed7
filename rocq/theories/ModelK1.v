(** Model of /repo/secp256k1.go: curve arithmetic on math/big integers.
    big.Int.Mod with a positive modulus is Euclidean, which is Z.modulo. *)
Require Import ZArith List Bool.
Require Import Verif.Base Verif.Fp.
Import ListNotations.
Open Scope Z_scope.

(* secp256k1.go:30-38, initsecp256k1Param *)
Definition k1_P : Z := 0xfffffffffffffffffffffffffffffffffffffffffffffffffffffffefffffc2f.
Definition k1_N : Z := 0xfffffffffffffffffffffffffffffffebaaedce6af48a03bbfd25e8cd0364141.
Definition k1_B : Z := 7.
Definition k1_Gx : Z := 0x79be667ef9dcbbac55a06295ce870b07029bfcdb2dce28d959f2815b16f81798.
Definition k1_Gy : Z := 0x483ada7726a3c4655da4fbfc0e1108a8fd17b448a68554199c47d08ffb10d4b8.

(* utils.go:28-34, zForAffine *)
Definition z_for_affine (x y : Z) : Z :=
  if negb (x =? 0) || negb (y =? 0) then 1 else 0.

(* secp256k1.go:44-56, IsOnCurve *)
Definition k1_is_on_curve (x y : Z) : bool :=
  (x * x * x + k1_B) mod k1_P =? (y * y) mod k1_P.

(* secp256k1.go:65-79, affineFromJacobian.  ModInverse returns nil only when z
   is 0 modulo the prime P; big.Int.Mul with a nil operand then panics.  The
   model returns (0, 0) in that case; k1_affine_inverse_some in ProofK1.v shows
   it is unreachable for 0 < z < P. *)
Definition k1_affine (p : Z * Z * Z) : Z * Z :=
  let '(x, y, z) := p in
  if z =? 0 then (0, 0)
  else match mod_inverse z k1_P with
       | None => (0, 0)
       | Some zinv =>
           let zinvsq := zinv * zinv in
           ((x * zinvsq) mod k1_P, (y * (zinvsq * zinv)) mod k1_P)
       end.

(* secp256k1.go:167-217, doubleJacobian *)
Definition k1_double (x y z : Z) : Z * Z * Z :=
  let P := k1_P in
  let a := (x * x) mod P in
  let b := (y * y) mod P in
  let c := (b * b) mod P in
  let d := 2 * ((x + b) * (x + b) - a - c) in
  let d := if d <? 0 then d + P else d mod P in
  let e := (3 * a) mod P in
  let f := (e * e) mod P in
  let x3 := f - 2 * d in
  let x3 := if x3 <? 0 then x3 + P else x3 mod P in
  let y3 := e * (d - x3) - 8 * c in
  let y3 := if y3 <? 0 then y3 + P else y3 mod P in
  let z3 := (2 * (y * z)) mod P in
  (x3, y3, z3).

(* secp256k1.go:89-163, addJacobian *)
Definition k1_add_jac (x1 y1 z1 x2 y2 z2 : Z) : Z * Z * Z :=
  let P := k1_P in
  if z1 =? 0 then (x2, y2, z2)
  else if z2 =? 0 then (x1, y1, z1)
  else
    let z1z1 := (z1 * z1) mod P in
    let z2z2 := (z2 * z2) mod P in
    let u1 := (x1 * z2z2) mod P in
    let u2 := (x2 * z1z1) mod P in
    let h := u2 - u1 in
    let xEqual := h =? 0 in
    let h := if h <? 0 then h + P else h in
    let i := (2 * h) * (2 * h) in
    let j := h * i in
    let s1 := (y1 * z2 * z2z2) mod P in
    let s2 := (y2 * z1 * z1z1) mod P in
    let r := s2 - s1 in
    let r := if r <? 0 then r + P else r in
    let yEqual := r =? 0 in
    if xEqual && yEqual then k1_double x1 y1 z1
    else
      let r := 2 * r in
      let v := u1 * i in
      let x3 := (r * r - j - v - v) mod P in
      let y3 := (r * (v - x3) - 2 * (s1 * j)) mod P in
      let z3 := (((z1 + z2) * (z1 + z2) - z1z1 - z2z2) * h) mod P in
      (x3, y3, z3).

(* secp256k1.go:81-85, Add *)
Definition k1_add (x1 y1 x2 y2 : Z) : Z * Z :=
  k1_affine (k1_add_jac x1 y1 (z_for_affine x1 y1) x2 y2 (z_for_affine x2 y2)).

(* secp256k1.go:58-61, Double *)
Definition k1_double_affine (x1 y1 : Z) : Z * Z :=
  k1_affine (k1_double x1 y1 (z_for_affine x1 y1)).

(* secp256k1.go:224-231, the inner loop of ScalarMult over the 8 bits of one
   byte; n iterations remain, byte <<= 1 is modulo 256. *)
Fixpoint k1_smul_bits (n : nat) (bx by_ : Z) (byte : Z) (acc : Z * Z * Z) : Z * Z * Z :=
  match n with
  | O => acc
  | S n' =>
      let '(x, y, z) := acc in
      let '(x, y, z) := k1_double x y z in
      let acc' := if Z.land byte 128 =? 128 then k1_add_jac bx by_ 1 x y z else (x, y, z) in
      k1_smul_bits n' bx by_ ((2 * byte) mod 256) acc'
  end.

(* secp256k1.go:219-234, ScalarMult *)
Definition k1_scalar_mult (bx by_ : Z) (k : bytes) : Z * Z :=
  k1_affine (fold_left (fun acc byte => k1_smul_bits 8 bx by_ byte acc) k (0, 0, 0)).

(* secp256k1.go:236-238, ScalarBaseMult *)
Definition k1_scalar_base_mult (k : bytes) : Z * Z := k1_scalar_mult k1_Gx k1_Gy k.
