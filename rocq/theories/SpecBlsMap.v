(** RFC 9380: hash_to_field (5.2), the simplified SWU map (6.6.2), the isogeny of
    appendix E.3 and clear_cofactor, for BLS12381G2_XMD:SHA-256_SSWU. *)
From Coq Require Import ZArith List Bool.
From Verif Require Import Base SpecBls Fp BlsFp2 Weier Group SpecBlsSig SpecBlsHash.
Import ListNotations.
Local Open Scope Z_scope.

Notation Fp2 := (fp2 bls_p).
(** ** hash_to_field: element i of the field is the i-th group of 64 bytes, as a
    big-endian integer modulo p *)
Definition field_element (H : bytes -> bytes) (msg tag : bytes) (count i : nat) : fp bls_p :=
  fp_of bls_p (be2z (firstn 64 (skipn (i * 64) (expand_message_xmd H msg tag (Z.of_nat count * 64))))).
(** element i of F_p(i) *)
Definition hash_u (H : bytes -> bytes) (msg tag : bytes) (count i : nat) : Fp2 :=
  (field_element H msg tag (2 * count) (2 * i), field_element H msg tag (2 * count) (2 * i + 1)).

(** ** The curve E1: y^2 = x^3 + A x + B *)
Definition iso_A : Fp2 := q2 bls_p 0 240.
Definition iso_B : Fp2 := q2 bls_p 1012 1012.
Definition iso_Z : Fp2 := q2 bls_p (-2) (-1).
Definition e1_on : g2pt -> Prop := Weier.on_curve Fp2 q2_add q2_mul iso_A iso_B.
Definition e1_add : g2pt -> g2pt -> g2pt :=
  Weier.padd Fp2 (q2 bls_p 1 0) q2_add q2_mul q2_sub q2_opp q2_div q2_dec iso_A.
Definition e1_rhs (x : Fp2) : Fp2 := q2_add (q2_add (q2_mul (q2_mul x x) x) (q2_mul iso_A x)) iso_B.

(** ** The simplified SWU map *)
Definition is_square (a : Fp2) : Prop := exists s, q2_mul s s = a.
(** section 4.1 *)
Definition sgn0 (a : Fp2) : bool :=
  Z.odd (fval (fst a)) || ((fval (fst a) =? 0) && Z.odd (fval (snd a))).
Definition swu_t (u : Fp2) : Fp2 :=
  let zu := q2_mul iso_Z (q2_mul u u) in q2_add (q2_mul zu zu) zu.
Definition swu_x1 (u : Fp2) : Fp2 :=
  if q2_dec (swu_t u) (q2 bls_p 0 0) then q2_div iso_B (q2_mul iso_Z iso_A)
  else q2_mul (q2_div (q2_opp iso_B) iso_A) (q2_add (q2 bls_p 1 0) (q2_div (q2 bls_p 1 0) (swu_t u))).
Definition swu_x2 (u x1 : Fp2) : Fp2 := q2_mul (q2_mul iso_Z (q2_mul u u)) x1.
(** the point (x, y) belongs to u, where x1 is the first candidate *)
Definition swu_point (u x1 : Fp2) (Q : g2pt) : Prop :=
  exists x y, Q = Weier.Aff _ x y /\
    ((is_square (e1_rhs x1) /\ x = x1) \/ (~ is_square (e1_rhs x1) /\ x = swu_x2 u x1)) /\
    q2_mul y y = e1_rhs x /\ sgn0 y = sgn0 u.
Definition sswu (u : Fp2) (Q : g2pt) : Prop := swu_point u (swu_x1 u) Q.

(** ** The 3-isogeny, appendix E.3 *)
Definition k10 := q2 bls_p 0x5c759507e8e333ebb5b7a9a47d7ed8532c52d39fd3a042a88b58423c50ae15d5c2638e343d9c71c6238aaaaaaaa97d6 0x5c759507e8e333ebb5b7a9a47d7ed8532c52d39fd3a042a88b58423c50ae15d5c2638e343d9c71c6238aaaaaaaa97d6.
Definition k11 := q2 bls_p 0 0x11560bf17baa99bc32126fced787c88f984f87adf7ae0c7f9a208c6b4f20a4181472aaa9cb8d555526a9ffffffffc71a.
Definition k12 := q2 bls_p 0x11560bf17baa99bc32126fced787c88f984f87adf7ae0c7f9a208c6b4f20a4181472aaa9cb8d555526a9ffffffffc71e 0x8ab05f8bdd54cde190937e76bc3e447cc27c3d6fbd7063fcd104635a790520c0a395554e5c6aaaa9354ffffffffe38d.
Definition k13 := q2 bls_p 0x171d6541fa38ccfaed6dea691f5fb614cb14b4e7f4e810aa22d6108f142b85757098e38d0f671c7188e2aaaaaaaa5ed1 0.
Definition k20 := q2 bls_p 0 0x1a0111ea397fe69a4b1ba7b6434bacd764774b84f38512bf6730d2a0f6b0f6241eabfffeb153ffffb9feffffffffaa63.
Definition k21 := q2 bls_p 0xc 0x1a0111ea397fe69a4b1ba7b6434bacd764774b84f38512bf6730d2a0f6b0f6241eabfffeb153ffffb9feffffffffaa9f.
Definition k30 := q2 bls_p 0x1530477c7ab4113b59a4c18b076d11930f7da5d4a07f649bf54439d87d27e500fc8c25ebf8c92f6812cfc71c71c6d706 0x1530477c7ab4113b59a4c18b076d11930f7da5d4a07f649bf54439d87d27e500fc8c25ebf8c92f6812cfc71c71c6d706.
Definition k31 := q2 bls_p 0 0x5c759507e8e333ebb5b7a9a47d7ed8532c52d39fd3a042a88b58423c50ae15d5c2638e343d9c71c6238aaaaaaaa97be.
Definition k32 := q2 bls_p 0x11560bf17baa99bc32126fced787c88f984f87adf7ae0c7f9a208c6b4f20a4181472aaa9cb8d555526a9ffffffffc71c 0x8ab05f8bdd54cde190937e76bc3e447cc27c3d6fbd7063fcd104635a790520c0a395554e5c6aaaa9354ffffffffe38f.
Definition k33 := q2 bls_p 0x124c9ad43b6cf79bfbf7043de3811ad0761b0f37a1e26286b0e977c69aa274524e79097a56dc4bd9e1b371c71c718b10 0.
Definition k40 := q2 bls_p 0x1a0111ea397fe69a4b1ba7b6434bacd764774b84f38512bf6730d2a0f6b0f6241eabfffeb153ffffb9feffffffffa8fb 0x1a0111ea397fe69a4b1ba7b6434bacd764774b84f38512bf6730d2a0f6b0f6241eabfffeb153ffffb9feffffffffa8fb.
Definition k41 := q2 bls_p 0 0x1a0111ea397fe69a4b1ba7b6434bacd764774b84f38512bf6730d2a0f6b0f6241eabfffeb153ffffb9feffffffffa9d3.
Definition k42 := q2 bls_p 0x12 0x1a0111ea397fe69a4b1ba7b6434bacd764774b84f38512bf6730d2a0f6b0f6241eabfffeb153ffffb9feffffffffaa99.
(** c0 + c1 x + c2 x^2 + c3 x^3 *)
Definition poly3 (c0 c1 c2 c3 x : Fp2) : Fp2 :=
  q2_add (q2_add (q2_add c0 (q2_mul c1 x)) (q2_mul c2 (q2_mul x x))) (q2_mul c3 (q2_mul (q2_mul x x) x)).
Definition iso_map (Q : g2pt) : g2pt :=
  match Q with
  | Weier.Inf _ => g2_inf
  | Weier.Aff _ x y =>
      Weier.Aff _ (q2_div (poly3 k10 k11 k12 k13 x) (poly3 k20 k21 (q2 bls_p 1 0) (q2 bls_p 0 0) x))
        (q2_mul y (q2_div (poly3 k30 k31 k32 k33 x) (poly3 k40 k41 k42 (q2 bls_p 1 0) x)))
  end.

(** ** clear_cofactor, section 8.8.2 *)
Definition h_eff : Z := 0xbc69f08f2ee75b3584c6a0ea91b352888e2a8e9145ad7689986ff031508ffe1329c2f178731db956d82bf015d1212b02ec0ec69d7477c1ae954cbc06689f6a359894c0adebbf6b4e8020005aaa95551.
