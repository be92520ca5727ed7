(** The group of the signatures and of the public keys of BLS12-381, and their
    compressed encodings. *)
From Coq Require Import ZArith List Bool.
From Verif Require Import Base SpecBls Fp BlsFp2 Weier Group.
Import ListNotations.
Local Open Scope Z_scope.

(** The order of the groups *)
Definition bls_r : Z := 0x73eda753299d7d483339d80809a1d80553bda402fffe5bfeffffffff00000001.

(** a is smaller than -a, as numbers below p *)
Definition low1 (a : fp bls_p) : bool := 2 * fval a <? bls_p.
(** The same for a + b i: the imaginary part decides, if it is not 0 *)
Definition low2 (a : fp2 bls_p) : bool := if fp_dec (snd a) (fp_of bls_p 0) then low1 (fst a) else low1 (snd a).

(** The curve y^2 = x^3 + 4 (1 + i) over F_p(i) *)
Definition g2pt : Type := Weier.point (fp2 bls_p).
Definition g2_inf : g2pt := Weier.Inf _.
Definition g2_on : g2pt -> Prop := Weier.on_curve (fp2 bls_p) q2_add q2_mul (q2 bls_p 0 0) (q2 bls_p 4 4).
Definition g2_add : g2pt -> g2pt -> g2pt :=
  Weier.padd (fp2 bls_p) (q2 bls_p 1 0) q2_add q2_mul q2_sub q2_opp q2_div q2_dec (q2 bls_p 0 0).
Definition g2_neg : g2pt -> g2pt := Weier.pneg (fp2 bls_p) q2_opp.
Definition g2_mul : Z -> g2pt -> g2pt := zmul g2_inf g2_add g2_neg.
(** The points whose order divides r *)
Definition in_G2 (Q : g2pt) : Prop := g2_on Q /\ g2_mul bls_r Q = g2_inf.

(** The curve y^2 = x^3 + 4 over F_p *)
Definition g1pt : Type := Weier.point (fp bls_p).
Definition g1_inf : g1pt := Weier.Inf _.
Definition g1_on : g1pt -> Prop := Weier.on_curve (fp bls_p) fp_add fp_mul (fp_of bls_p 0) (fp_of bls_p 4).
Definition g1_add : g1pt -> g1pt -> g1pt :=
  Weier.padd (fp bls_p) (fp_of bls_p 1) fp_add fp_mul fp_sub fp_opp fp_div fp_dec (fp_of bls_p 0).
Definition g1_neg : g1pt -> g1pt := Weier.pneg (fp bls_p) fp_opp.
Definition g1_mul : Z -> g1pt -> g1pt := zmul g1_inf g1_add g1_neg.
Definition in_G1 (Q : g1pt) : Prop := g1_on Q /\ g1_mul bls_r Q = g1_inf.

(** The generator of G1 *)
Definition g1_gen : g1pt := Weier.Aff _
  (fp_of bls_p 0x17f1d3a73197d7942695638c4fa9ac0fc3688c4f9774b905a14e3a3f171bac586c55e83ff97a1aeffb3af00adb22c6bb)
  (fp_of bls_p 0x8b3f481e3aaa0f1a09e30ed741d8ae4fcf5e095d5d00af600db18cb2c04b3edd03cc744a2888ae40caa232946c5e7e1).
(** A pairing of the multiples of the generator with G2: bilinear, into a
    commutative group, and the generator separates the points of G2 *)
Record pairing {GT : Type} (one : GT) (mul : GT -> GT -> GT) (inv : GT -> GT) (ok : GT -> Prop)
  (e : g1pt -> g2pt -> GT) : Prop := {
  gt_group : is_group GT one mul inv ok;
  e_ok : forall a Q, in_G2 Q -> ok (e (g1_mul a g1_gen) Q);
  e_add_l : forall a b Q, in_G2 Q ->
    e (g1_mul (a + b) g1_gen) Q = mul (e (g1_mul a g1_gen) Q) (e (g1_mul b g1_gen) Q);
  e_add_r : forall a Q Q', in_G2 Q -> in_G2 Q' ->
    e (g1_mul a g1_gen) (g2_add Q Q') = mul (e (g1_mul a g1_gen) Q) (e (g1_mul a g1_gen) Q');
  e_sep : forall Q, in_G2 Q -> e g1_gen Q = one -> Q = g2_inf }.

(** The compressed encodings: infinity is c0 00 .. 00.  Otherwise the x-coordinate
    big-endian, the imaginary part first, with the top bit set, and the third
    highest set unless y is the smaller of y and -y. *)
Definition top_bits (low : bool) : Z := if low then 2 ^ 383 else 2 ^ 383 + 2 ^ 381.
Definition sig_bytes (Q : g2pt) : bytes :=
  match Q with
  | Weier.Inf _ => 0xc0 :: repeat 0 95
  | Weier.Aff _ x y => z2be 48 (top_bits (low2 y) + fval (snd x)) ++ z2be 48 (fval (fst x))
  end.
Definition key_bytes (Q : g1pt) : bytes :=
  match Q with
  | Weier.Inf _ => 0xc0 :: repeat 0 47
  | Weier.Aff _ x y => z2be 48 (top_bits (low1 y) + fval x)
  end.
