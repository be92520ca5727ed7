(** bls12_381/bls/g2.go: EncodeToCurve *)
From Coq Require Import ZArith List Bool.
From Verif Require Import Base ModelApi ModelBlsF ModelBls.
Import ListNotations.
Local Open Scope Z_scope.

Section Encode.
Variables (H : bytes -> bytes) (F : fbuild).
(** g2.go:521-532, after the hash *)
Definition g2_encode_u (u : fe2) : point fe2 :=
  let '(x, y) := swuMapG2 F u in
  let '(x, y) := isogenyMap (C2 F) isogenyG2 x y in
  g_Affine (C2 F) (g_MulScalar (C2 F) (mkP x y fp2_one) cofactorEFFG2).
(** g2.go:516-533 *)
Definition g2_EncodeToCurve (msg domain : bytes) : outcome (option (point fe2)) :=
  match hashToFp H F msg domain 2 with
  | Panic => Panic
  | Ret (Some [a; b]) => Ret (Some (g2_encode_u (a, b)))
  | Ret _ => Ret None
  end.
End Encode.
