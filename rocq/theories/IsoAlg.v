(** The algebra of the simplified SWU map and of the 3-isogeny, over any field.
    Specification and mathematics only. *)
Require Import Ring Field.

Section IsoAlg.
Variable K : Type.
Variables (k0 k1 : K) (kadd kmul ksub : K -> K -> K) (kopp : K -> K)
          (kdiv : K -> K -> K) (kinv : K -> K).
Variable Kfield : field_theory k0 k1 kadd kmul ksub kopp kdiv kinv (@eq K).
Add Field KFiso : Kfield.
Declare Scope I_scope.
Delimit Scope I_scope with I.
Local Open Scope I_scope.
Notation "0" := k0 : I_scope.
Notation "1" := k1 : I_scope.
Infix "+" := kadd : I_scope.
Infix "*" := kmul : I_scope.
Infix "-" := ksub : I_scope.
Notation "- x" := (kopp x) : I_scope.
Infix "/" := kdiv : I_scope.
Notation "2" := (1 + 1) : I_scope.
Notation "3" := (1 + 1 + 1) : I_scope.
Notation "5" := (2 * 2 + 1) : I_scope.

(** the second candidate *)
Lemma swu_second A B s : A <> 0 -> s * s + s <> 0 ->
  let x1 := - B / A * (1 + 1 / (s * s + s)) in
  let x2 := s * x1 in
  x2 * x2 * x2 + A * x2 + B = s * s * s * (x1 * x1 * x1 + A * x1 + B).
Proof. intros NA NS. cbv zeta. field. split; assumption. Qed.

Variables (v A B b : K).
(** A = -120 v^2, B = 506 v^3, b = 2 v^3 *)
Definition n120 := 2 * 2 * 2 * 3 * 5.
Definition n11 := 2 * 5 + 1.
Definition n23 := 2 * (2 * 5 + 1) + 1.
Hypothesis HA : A = - (n120 * (v * v)).
Hypothesis HB : B = 2 * n11 * n23 * (v * v * v).
Hypothesis Hb : b = 2 * (v * v * v).
Definition d x := x - 2 * 3 * v.
Definition isoX x := (x - 2 * 2 * 2 * 3 * (v * v) / d x + 2 * 2 * 2 * (v * v * v) / (d x * d x)) / (3 * 3).
Definition isoY x y := - (y * (1 + 2 * 2 * 2 * 3 * (v * v) / (d x * d x) - 2 * 2 * 2 * 2 * (v * v * v) / (d x * d x * d x)) / (3 * 3 * 3)).
Hypothesis char3 : 3 <> 0.
Lemma mul_ne x y : x <> 0 -> y <> 0 -> x * y <> 0.
Proof using Kfield. intros NX NY E. apply NY. transitivity (x * y / x); [field; exact NX|]. rewrite E. field. exact NX. Qed.
Lemma c9 : 3 * 3 <> 0. Proof using Kfield char3. apply mul_ne; exact char3. Qed.
Lemma c27 : 3 * 3 * 3 <> 0. Proof using Kfield char3. apply mul_ne; [exact c9|exact char3]. Qed.
Lemma c81 : 3 * 3 * 3 * 3 <> 0. Proof using Kfield char3. apply mul_ne; [exact c27|exact char3]. Qed.
Lemma c729 : 3 * 3 * 3 * (3 * 3 * 3) <> 0. Proof using Kfield char3. apply mul_ne; exact c27. Qed.
Ltac nz := repeat split; try assumption;
  match goal with |- ?a <> 0 => first
    [ replace a with 3 by ring; exact char3 | replace a with (3 * 3) by ring; exact c9
    | replace a with (3 * 3 * 3) by ring; exact c27 | replace a with (3 * 3 * 3 * 3) by ring; exact c81
    | replace a with (3 * 3 * 3 * (3 * 3 * 3)) by ring; exact c729 ] end.
(** the image lies on y^2 = x^3 + b *)
Lemma iso_on x y : d x <> 0 -> y * y = x * x * x + A * x + B ->
  isoY x y * isoY x y = isoX x * isoX x * isoX x + 0 * isoX x + b.
Proof.
  intros ND E.
  assert (Q : isoY x y * isoY x y = y * y * ((1 + 2 * 2 * 2 * 3 * (v * v) / (d x * d x) - 2 * 2 * 2 * 2 * (v * v * v) / (d x * d x * d x)) / (3 * 3 * 3)) * ((1 + 2 * 2 * 2 * 3 * (v * v) / (d x * d x) - 2 * 2 * 2 * 2 * (v * v * v) / (d x * d x * d x)) / (3 * 3 * 3))).
  { unfold isoY. field. nz. }
  rewrite Q, E, HA, HB, Hb. unfold isoX.
  clear E Q. remember (d x) as D eqn:ED. assert (EX : x = D + 2 * 3 * v) by (rewrite ED; unfold d; ring). clear ED. subst x.
  unfold n120, n11, n23. field. nz.
Qed.
(** the kernel: where the denominators vanish *)
Lemma iso_kernel x y : d x = 0 -> y * y = x * x * x + A * x + B -> y * y = b.
Proof.
  intros ND ->. rewrite HA, HB, Hb. remember (d x) as D eqn:ED. assert (EX : x = D + 2 * 3 * v) by (rewrite ED; unfold d; ring). clear ED. subst x D. unfold n120, n11, n23. ring.
Qed.
(** the map as quotients of polynomials *)
Variables (k10 k11 k12 k13 k20 k21 k30 k31 k32 k33 k40 k41 k42 : K).
Hypothesis H13 : 3 * 3 * k13 = 1.
Hypothesis H12 : 3 * k12 = - (2 * 2 * v).
Hypothesis H11 : 3 * k11 = 2 * 2 * (v * v).
Hypothesis H10 : 3 * 3 * k10 = 2 * 2 * 2 * (2 * 3 * 3 + 1) * (v * v * v).
Hypothesis H21 : k21 = - (2 * 2 * 3 * v).
Hypothesis H20 : k20 = 2 * 2 * 3 * 3 * (v * v).
Hypothesis H33 : 3 * 3 * 3 * k33 = - (1).
Hypothesis H32 : 3 * k32 = 2 * v.
Hypothesis H31 : 3 * 3 * k31 = - (2 * 2 * n11 * (v * v)).
Hypothesis H30 : 3 * 3 * 3 * k30 = 2 * 2 * 2 * (2 * n23 + 1) * (v * v * v).
Hypothesis H42 : k42 = - (2 * 3 * 3 * v).
Hypothesis H41 : k41 = 2 * 2 * 3 * 3 * 3 * (v * v).
Hypothesis H40 : k40 = - (2 * 2 * 2 * 3 * 3 * 3 * (v * v * v)).
Definition pol c0 c1 c2 c3 x := c0 + c1 * x + c2 * (x * x) + c3 * (x * x * x).
Lemma third a c : 3 * a = c -> a = c / 3.
Proof using Kfield char3. intros <-. field. nz. Qed.
Lemma ninth a c : 3 * 3 * a = c -> a = c / (3 * 3).
Proof using Kfield char3. intros <-. field. nz. Qed.
Lemma n27th a c : 3 * 3 * 3 * a = c -> a = c / (3 * 3 * 3).
Proof using Kfield char3. intros <-. field. nz. Qed.
Lemma xden x : pol k20 k21 1 0 x = d x * d x.
Proof using Kfield H20 H21. unfold pol, d. rewrite H20, H21. ring. Qed.
Lemma yden x : pol k40 k41 k42 1 x = d x * d x * d x.
Proof using Kfield H40 H41 H42. unfold pol, d. rewrite H40, H41, H42. ring. Qed.
Lemma iso_polX x : d x <> 0 -> pol k10 k11 k12 k13 x / pol k20 k21 1 0 x = isoX x.
Proof using Kfield char3 H10 H11 H12 H13 H20 H21.
  intros N. rewrite xden. unfold pol, isoX. rewrite (ninth _ _ H10), (third _ _ H11), (third _ _ H12), (ninth _ _ H13).
  remember (d x) as D eqn:ED. assert (EX : x = D + 2 * 3 * v) by (rewrite ED; unfold d; ring). clear ED. subst x. field. nz.
Qed.
Lemma iso_polY x y : d x <> 0 -> y * (pol k30 k31 k32 k33 x / pol k40 k41 k42 1 x) = isoY x y.
Proof using Kfield char3 H30 H31 H32 H33 H40 H41 H42.
  intros N. rewrite yden. unfold pol, isoY. rewrite (n27th _ _ H30), (ninth _ _ H31), (third _ _ H32), (n27th _ _ H33).
  remember (d x) as D eqn:ED. assert (EX : x = D + 2 * 3 * v) by (rewrite ED; unfold d; ring). clear ED. subst x. unfold n11, n23. field. nz.
Qed.
End IsoAlg.
