(** The group of the complete twisted Edwards curve -x^2 + y^2 = 1 + d x^2 y^2
    over a field where -1 is a square and d is not. *)
Require Import Field ZArith.
Require Import Verif.Group.

Section Edwards.
Variable K : Type.
Variables (k0 k1 : K) (kadd kmul ksub : K -> K -> K) (kopp : K -> K)
          (kdiv : K -> K -> K) (kinv : K -> K).
Variable Kfield : field_theory k0 k1 kadd kmul ksub kopp kdiv kinv (@eq K).
Variable Kdec : forall x y : K, {x = y} + {x <> y}.
Variables cd ci : K.

Add Field KE : Kfield.
Declare Scope K_scope.
Delimit Scope K_scope with K.
Local Open Scope K_scope.
Notation "0" := k0 : K_scope.
Notation "1" := k1 : K_scope.
Infix "+" := kadd : K_scope.
Infix "*" := kmul : K_scope.
Infix "-" := ksub : K_scope.
Infix "/" := kdiv : K_scope.
Notation "- x" := (kopp x) : K_scope.
Notation "2" := (1 + 1) : K_scope.

Definition epoint : Type := (K * K)%type.
Definition e_on (P : epoint) : Prop :=
  let '(x, y) := P in y * y - x * x = 1 + cd * (x * x) * (y * y).
Definition e_zero : epoint := (0, 1).
Definition e_neg (P : epoint) : epoint := let '(x, y) := P in (- x, y).
Definition e_add (P Q : epoint) : epoint :=
  let '(x1, y1) := P in
  let '(x2, y2) := Q in
  let m := cd * (x1 * x2) * (y1 * y2) in
  ((x1 * y2 + x2 * y1) / (1 + m), (y1 * y2 + x1 * x2) / (1 - m)).

Hypothesis char2 : 2 <> 0.
Hypothesis Hi : ci * ci = - (1).
Hypothesis Hd : forall t, t * t <> cd.

Lemma ek_integral x y : x * y = 0 -> x = 0 \/ y = 0.
Proof.
  intros H. destruct (Kdec x 0) as [->|N]; [now left|right].
  transitivity ((x * y) / x); [field; exact N|]. rewrite H. field. exact N.
Qed.
Lemma ek_mul_ne x y : x <> 0 -> y <> 0 -> x * y <> 0.
Proof. intros A B H. destruct (ek_integral _ _ H); auto. Qed.
Lemma ek_sub0 x y : x - y = 0 -> x = y.
Proof. intros H. transitivity (x - y + y); [ring|]. rewrite H. ring. Qed.

(** If cd x1 x2 y1 y2 = e with e^2 = 1 then cd is a square. *)
Lemma e_complete_aux x1 y1 x2 y2 e : e * e = 1 -> e_on (x1, y1) -> e_on (x2, y2) ->
  cd * (x1 * x2) * (y1 * y2) <> e.
Proof.
  intros He H1 H2 E. cbn [e_on] in H1, H2.
  assert (Ne : e <> 0). { intros ->. apply char2. transitivity (0 * 0 + 0 * 0); [|ring]. rewrite He. ring. }
  assert (Nx : x1 * y1 <> 0). { intros Z. apply Ne. rewrite <- E. transitivity (cd * (x1 * y1) * (x2 * y2)); [ring|]. rewrite Z. ring. }
  assert (N2 : y2 <> 0). { intros Z. apply Ne. rewrite <- E, Z. ring. }
  assert (S1 : forall s, s * s = - (1) -> cd * (x1 * x1) * (y1 * y1) * ((s * x2 + y2) * (s * x2 + y2)) = (s * x1 + e * y1) * (s * x1 + e * y1)).
  { intros s Hs.
    transitivity (cd * (x1 * x1) * (y1 * y1) * (s * s * (x2 * x2) + y2 * y2) + (1 + 1) * s * (cd * (x1 * x2) * (y1 * y2)) * (x1 * y1)); [ring|].
    rewrite Hs, E. replace (- (1) * (x2 * x2) + y2 * y2) with (y2 * y2 - x2 * x2) by ring. rewrite H2.
    transitivity (cd * (x1 * x1) * (y1 * y1) + (cd * (x1 * x2) * (y1 * y2)) * (cd * (x1 * x2) * (y1 * y2)) + (1 + 1) * s * e * (x1 * y1)); [ring|].
    rewrite E, He.
    transitivity (s * s * (x1 * x1) + e * e * (y1 * y1) + (1 + 1) * s * e * (x1 * y1)); [|ring].
    rewrite Hs, He. replace (- (1) * (x1 * x1) + 1 * (y1 * y1)) with (y1 * y1 - x1 * x1) by ring. rewrite H1. ring. }
  assert (S2 : forall s, s * s = - (1) -> s * x2 + y2 = 0).
  { intros s Hs. destruct (Kdec (s * x2 + y2) 0) as [Z|N]; [exact Z|exfalso].
    assert (NN : x1 * y1 * (s * x2 + y2) <> 0) by (apply ek_mul_ne; assumption).
    apply (Hd ((s * x1 + e * y1) / (x1 * y1 * (s * x2 + y2)))).
    transitivity ((s * x1 + e * y1) * (s * x1 + e * y1) / (x1 * y1 * (s * x2 + y2) * (x1 * y1 * (s * x2 + y2)))).
    - field. repeat split; try assumption; intros Z; apply Nx; rewrite Z; ring.
    - rewrite <- (S1 s Hs). field. repeat split; try assumption; intros Z; apply Nx; rewrite Z; ring. }
  pose proof (S2 ci Hi) as A1. assert (Hi' : - ci * - ci = - (1)) by (transitivity (ci * ci); [ring|exact Hi]).
  pose proof (S2 (- ci) Hi') as A2.
  assert (Z : 2 * y2 = 0) by (transitivity ((ci * x2 + y2) + (- ci * x2 + y2)); [ring|]; rewrite A1, A2; ring).
  destruct (ek_integral _ _ Z); auto.
Qed.

Lemma e_complete x1 y1 x2 y2 : e_on (x1, y1) -> e_on (x2, y2) ->
  1 + cd * (x1 * x2) * (y1 * y2) <> 0 /\ 1 - cd * (x1 * x2) * (y1 * y2) <> 0.
Proof.
  intros H1 H2. split; intros Z.
  - apply (e_complete_aux x1 y1 x2 y2 (- (1))); [ring|exact H1|exact H2|].
    transitivity (1 + cd * (x1 * x2) * (y1 * y2) - 1); [ring|]. rewrite Z. ring.
  - apply (e_complete_aux x1 y1 x2 y2 1); [ring|exact H1|exact H2|]. symmetry. now apply ek_sub0.
Qed.

Lemma e_on_eq x y : e_on (x, y) -> cd * (x * x) * (y * y) = y * y - x * x - 1.
Proof. cbn [e_on]. intros ->. ring. Qed.

Lemma e_zero_on : e_on e_zero.
Proof. cbn. ring. Qed.
Lemma e_neg_on P : e_on P -> e_on (e_neg P).
Proof. destruct P as [x y]. cbn. intros H. replace (- x * - x) with (x * x) by ring. exact H. Qed.

Lemma e_add_on P Q : e_on P -> e_on Q -> e_on (e_add P Q).
Proof.
  destruct P as [x1 y1], Q as [x2 y2]. intros H1 H2. destruct (e_complete _ _ _ _ H1 H2) as [A B].
  pose proof (e_on_eq _ _ H1) as E1. pose proof (e_on_eq _ _ H2) as E2. cbn [e_add e_on]. cbv zeta.
  field_simplify_eq; [|repeat split; assumption]. ring [E1 E2].
Qed.
Lemma e_add_comm P Q : e_add P Q = e_add Q P.
Proof.
  destruct P as [x1 y1], Q as [x2 y2]. cbn [e_add]. cbv zeta.
  replace (cd * (x2 * x1) * (y2 * y1)) with (cd * (x1 * x2) * (y1 * y2)) by ring. f_equal; f_equal; ring.
Qed.
Lemma one_ne0 : 1 <> 0.
Proof. intros Z. apply char2. rewrite Z. ring. Qed.
Lemma div_1 x z : z = 1 -> x / z = x.
Proof. intros ->. field. apply one_ne0. Qed.
Lemma e_add_0 P : e_add e_zero P = P.
Proof.
  destruct P as [x y]. unfold e_add, e_zero. cbv zeta. rewrite !div_1 by ring. f_equal; ring.
Qed.
Lemma e_add_neg P : e_on P -> e_add P (e_neg P) = e_zero.
Proof.
  destruct P as [x y]. intros H. pose proof (e_neg_on _ H) as H'. destruct (e_complete _ _ _ _ H H') as [A B].
  pose proof (e_on_eq _ _ H) as E. cbn [e_add e_neg]. cbv zeta. unfold e_zero. f_equal.
  - field. exact A.
  - field_simplify_eq; [|exact B]. ring [E].
Qed.

Lemma cross n1 d1 n2 d2 : d1 <> 0 -> d2 <> 0 -> n1 * d2 = n2 * d1 -> n1 / d1 = n2 / d2.
Proof. intros A B H. field_simplify_eq; [|split; assumption]. rewrite H. ring. Qed.
(** A sum whose left operand is (a/b, c/e). *)
Lemma e_add_frac a b c e x y : b <> 0 -> e <> 0 -> e_on (a / b, c / e) -> e_on (x, y) ->
  let m := cd * (a * c) * (x * y) in
  b * e + m <> 0 /\ b * e - m <> 0 /\
  e_add (a / b, c / e) (x, y) = ((a * e * y + x * c * b) / (b * e + m), (c * b * y + a * e * x) / (b * e - m)).
Proof.
  intros Hb He H1 H2 m. destruct (e_complete _ _ _ _ H1 H2) as [A B].
  assert (EA : b * e + m = b * e * (1 + cd * (a / b * x) * (c / e * y))) by (unfold m; field; split; assumption).
  assert (EB : b * e - m = b * e * (1 - cd * (a / b * x) * (c / e * y))) by (unfold m; field; split; assumption).
  assert (NA : b * e + m <> 0) by (rewrite EA; apply ek_mul_ne; [now apply ek_mul_ne|exact A]).
  assert (NB : b * e - m <> 0) by (rewrite EB; apply ek_mul_ne; [now apply ek_mul_ne|exact B]).
  split; [exact NA|]. split; [exact NB|]. cbn [e_add]. cbv zeta. f_equal; apply cross; try assumption.
  - rewrite EA. field. split; assumption.
  - rewrite EB. field. split; assumption.
Qed.

Theorem e_assoc P Q R : e_on P -> e_on Q -> e_on R -> e_add P (e_add Q R) = e_add (e_add P Q) R.
Proof.
  intros H1 H2 H3. rewrite (e_add_comm P). pose proof (e_add_on Q R H2 H3) as H23. pose proof (e_add_on P Q H1 H2) as H12.
  destruct P as [x1 y1], Q as [x2 y2], R as [x3 y3].
  destruct (e_complete _ _ _ _ H1 H2) as [A B]. destruct (e_complete _ _ _ _ H2 H3) as [C D].
  pose proof (e_on_eq _ _ H1) as E1. pose proof (e_on_eq _ _ H2) as E2. pose proof (e_on_eq _ _ H3) as E3.
  change (e_add (x2, y2) (x3, y3)) with ((x2 * y3 + x3 * y2) / (1 + cd * (x2 * x3) * (y2 * y3)), (y2 * y3 + x2 * x3) / (1 - cd * (x2 * x3) * (y2 * y3))) in *.
  change (e_add (x1, y1) (x2, y2)) with ((x1 * y2 + x2 * y1) / (1 + cd * (x1 * x2) * (y1 * y2)), (y1 * y2 + x1 * x2) / (1 - cd * (x1 * x2) * (y1 * y2))) in *.
  destruct (e_add_frac _ _ _ _ _ _ C D H23 H1) as (N1 & N2 & ->).
  destruct (e_add_frac _ _ _ _ _ _ A B H12 H3) as (N3 & N4 & ->).
  cbv zeta in *. f_equal; apply cross; try assumption; ring [E1 E2 E3].
Qed.

Theorem e_group : is_group epoint e_zero e_add e_neg e_on.
Proof.
  split.
  - exact e_zero_on.
  - exact e_add_on.
  - exact e_neg_on.
  - exact e_assoc.
  - intros; apply e_add_comm.
  - intros; apply e_add_0.
  - exact e_add_neg.
Qed.
End Edwards.
