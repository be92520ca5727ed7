(** Short Weierstrass curves over prime fields: the specification the curve
    models are compared with. *)
Require Import ZArith Lia Znumtheory Ring Field.
Require Import Verif.Base Verif.Fp Verif.Weier Verif.Jac Verif.Group.
Open Scope Z_scope.

(** Domain parameters: field prime, coefficients, base point, order. *)
Record wcurve := { w_p : Z; w_a : Z; w_b : Z; w_gx : Z; w_gy : Z; w_n : Z }.

Section Curve.
Variable c : wcurve.
Let p := w_p c.

Definition pt : Type := point (fp p).
Definition pinf : pt := Inf (fp p).
(** The affine point whose coordinates are the residues of two integers. *)
Definition paff (x y : Z) : pt := Aff (fp p) (fp_of p x) (fp_of p y).
Definition w_add : pt -> pt -> pt :=
  padd (fp p) (fp_of p 1) fp_add fp_mul fp_sub fp_opp fp_div fp_dec (fp_of p (w_a c)).
Definition w_neg : pt -> pt := pneg (fp p) fp_opp.
(** P satisfies y^2 = x^3 + a x + b (or is infinity). *)
Definition w_on : pt -> Prop :=
  on_curve (fp p) fp_add fp_mul (fp_of p (w_a c)) (fp_of p (w_b c)).
(** Integer multiples [k]P. *)
Definition w_mul : Z -> pt -> pt := zmul pinf w_add w_neg.
Definition w_G : pt := paff (w_gx c) (w_gy c).

(** x-coordinate of a finite point as an integer in [0, p); 0 for infinity. *)
Definition px (P : pt) : Z := match P with Inf _ => 0 | Aff _ x _ => fval x end.
Definition py (P : pt) : Z := match P with Inf _ => 0 | Aff _ _ y => fval y end.

(** Valid field and coefficients: p an odd prime, non-zero discriminant. *)
Record w_field_ok : Prop := {
  wv_prime : prime p;
  wv_odd : 2 < p;
  wv_disc : (4 * w_a c ^ 3 + 27 * w_b c ^ 2) mod p <> 0 }.

(** Valid domain parameters: moreover the base point is on the curve and has
    prime order n. *)
Record w_valid : Prop := {
  wv_field : w_field_ok;
  wv_nprime : prime (w_n c);
  wv_Gon : w_on w_G;
  wv_nG : w_mul (w_n c) w_G = pinf }.

Lemma paff_on_iff x y : w_on (paff x y) <->
  (y * y) mod p = (x * x * x + w_a c * x + w_b c) mod p.
Proof.
  unfold w_on, paff. cbn [on_curve]. rewrite <- !fp_of_mul, <- !fp_of_add.
  symmetry. apply fp_of_eq.
Qed.

Hypothesis Hf : w_field_ok.
Let Hp := wv_prime Hf.
Let Kf := fp_field p Hp.
Add Field KFE : Kf.

Lemma w_char2 : fp_add (fp_of p 1) (fp_of p 1) <> fp_of p 0.
Proof.
  rewrite <- fp_of_add. apply fp_of_ne0. pose proof (wv_odd Hf). unfold p in *. lia.
Qed.

Lemma w_nonsing : forall x y : fp p,
  fp_mul y y = fp_add (fp_add (fp_mul (fp_mul x x) x) (fp_mul (fp_of p (w_a c)) x)) (fp_of p (w_b c)) ->
  fp_mul (fp_add (fp_of p 1) (fp_of p 1)) y = fp_of p 0 ->
  fp_add (fp_mul (fp_add (fp_add (fp_of p 1) (fp_of p 1)) (fp_of p 1)) (fp_mul x x)) (fp_of p (w_a c)) = fp_of p 0 ->
  False.
Proof.
  intros x y H1 H2 H3.
  destruct (k_integral _ _ _ _ _ _ _ _ _ Kf fp_dec _ _ H2) as [E|E].
  { exact (w_char2 E). }
  subst y.
  apply (wv_disc Hf). fold p. apply fp_of_0.
  replace (4 * w_a c ^ 3 + 27 * w_b c ^ 2)
    with (4 * (w_a c * w_a c * w_a c) + 27 * (w_b c * w_b c)) by ring.
  rewrite !fp_of_add, !fp_of_mul.
  assert (Ea : fp_of p (w_a c) = fp_opp (fp_mul (fp_of p 3) (fp_mul x x))).
  { change 3 with (1 + 1 + 1). rewrite !fp_of_add.
    transitivity (fp_sub (fp_of p 0) (fp_mul (fp_add (fp_add (fp_of p 1) (fp_of p 1)) (fp_of p 1)) (fp_mul x x))); [|ring].
    rewrite <- H3. ring. }
  assert (Eb : fp_of p (w_b c) = fp_mul (fp_of p 2) (fp_mul (fp_mul x x) x)).
  { transitivity (fp_sub (fp_mul (fp_of p 0) (fp_of p 0))
       (fp_add (fp_mul (fp_mul x x) x) (fp_mul (fp_of p (w_a c)) x))).
    - rewrite H1. ring.
    - rewrite Ea. change 2 with (1 + 1). change 3 with (1 + 1 + 1). rewrite !fp_of_add. ring. }
  rewrite Ea, Eb.
  change 27 with ((1 + 1 + 1) * (1 + 1 + 1) * (1 + 1 + 1)).
  change 4 with ((1 + 1) * (1 + 1)).
  change 3 with (1 + 1 + 1). change 2 with (1 + 1).
  rewrite !fp_of_mul, !fp_of_add. ring.
Qed.

Lemma w_group : is_group pt pinf w_add w_neg w_on.
Proof.
  constructor.
  - exact I.
  - intros P Q. apply (padd_on _ _ _ _ _ _ _ _ _ Kf fp_dec _ _ w_char2).
  - intros P. apply (pneg_on _ _ _ _ _ _ _ _ _ Kf).
  - intros P Q R. apply (padd_assoc _ _ _ _ _ _ _ _ _ Kf fp_dec _ _ w_char2 w_nonsing).
  - intros P Q. apply (padd_comm _ _ _ _ _ _ _ _ _ Kf fp_dec _ _ w_char2).
  - intros P _. reflexivity.
  - intros P _. apply (padd_neg_r _ _ _ _ _ _ _ _ _ Kf).
Qed.

End Curve.
