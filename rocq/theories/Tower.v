(** The tower K[v]/(v^3 - xi)[w]/(w^2 - v) over a field K in which xi is neither a
    cube nor a square is a field.  Mathematics only. *)
From Coq Require Import Ring Field.

Section Tower.
Variable K : Type.
Variables (k0 k1 : K) (kadd kmul ksub : K -> K -> K) (kopp : K -> K)
          (kdiv : K -> K -> K) (kinv : K -> K).
Variable Kfield : field_theory k0 k1 kadd kmul ksub kopp kdiv kinv (@eq K).
Variable Kdec : forall x y : K, {x = y} + {x <> y}.
Add Field KFW : Kfield.
Declare Scope W_scope.
Delimit Scope W_scope with W.
Local Open Scope W_scope.
Notation "0" := k0 : W_scope.
Notation "1" := k1 : W_scope.
Infix "+" := kadd : W_scope.
Infix "*" := kmul : W_scope.
Infix "-" := ksub : W_scope.
Infix "/" := kdiv : W_scope.
Notation "- x" := (kopp x) : W_scope.
Variable xi : K.

(** ** Degree 3: a0 + a1 v + a2 v^2 *)
Record t6 := T6 { a0 : K; a1 : K; a2 : K }.
Definition z6 : t6 := T6 0 0 0.
Definition o6 : t6 := T6 1 0 0.
Definition add6 (a b : t6) : t6 := T6 (a0 a + a0 b) (a1 a + a1 b) (a2 a + a2 b).
Definition sub6 (a b : t6) : t6 := T6 (a0 a - a0 b) (a1 a - a1 b) (a2 a - a2 b).
Definition opp6 (a : t6) : t6 := T6 (- a0 a) (- a1 a) (- a2 a).
Definition mul6 (a b : t6) : t6 :=
  T6 (a0 a * a0 b + xi * (a1 a * a2 b + a2 a * a1 b))
     (a0 a * a1 b + a1 a * a0 b + xi * (a2 a * a2 b))
     (a0 a * a2 b + a1 a * a1 b + a2 a * a0 b).
Definition v6 : t6 := T6 0 1 0.
Definition n6 (a : t6) : K :=
  a0 a * a0 a * a0 a + xi * (a1 a * a1 a * a1 a) + xi * xi * (a2 a * a2 a * a2 a) - (1 + 1 + 1) * xi * (a0 a * a1 a * a2 a).
Definition inv6 (a : t6) : t6 :=
  T6 ((a0 a * a0 a - xi * (a1 a * a2 a)) / n6 a)
     ((xi * (a2 a * a2 a) - a0 a * a1 a) / n6 a)
     ((a1 a * a1 a - a0 a * a2 a) / n6 a).
Definition div6 (a b : t6) : t6 := mul6 a (inv6 b).
Lemma t6_ext a b : a0 a = a0 b -> a1 a = a1 b -> a2 a = a2 b -> a = b.
Proof. destruct a, b. cbn. intros -> -> ->. reflexivity. Qed.
Lemma n6_mul a b : n6 (mul6 a b) = n6 a * n6 b.
Proof. unfold n6, mul6. cbn [a0 a1 a2]. ring. Qed.
Lemma n6_v : n6 v6 = xi. Proof. unfold n6, v6. cbn. ring. Qed.
Lemma n6_1 : n6 o6 = 1. Proof. unfold n6, o6. cbn. ring. Qed.

Hypothesis no_cube : forall s, s * s * s <> xi.
Hypothesis no_square : forall s, s * s <> xi.
Lemma K_int x y : x * y = 0 -> x = 0 \/ y = 0.
Proof using Kfield Kdec.
  intros E. destruct (Kdec x 0) as [|N]; [auto|right]. transitivity (x * y / x); [field; exact N|]. rewrite E. field. exact N.
Qed.
Lemma cube_0 x : x * x * x = 0 -> x = 0.
Proof using Kfield Kdec. intros E. apply K_int in E. destruct E as [E|E]; [apply K_int in E; tauto|exact E]. Qed.
Lemma n6_lin x y : n6 (T6 x y 0) = 0 -> x = 0 /\ y = 0.
Proof using Kfield Kdec no_cube.
  unfold n6. cbn [a0 a1 a2]. intros E. assert (E' : x * x * x + xi * (y * y * y) = 0) by (rewrite <- E; ring). clear E.
  destruct (Kdec y 0) as [->|N].
  - split; [|reflexivity]. apply cube_0. rewrite <- E'. ring.
  - exfalso. apply (no_cube (- x / y)). transitivity (xi - (x * x * x + xi * (y * y * y)) / (y * y * y)); [field; exact N|]. rewrite E'. field. exact N.
Qed.
Lemma n6_0 a : n6 a = 0 -> a = z6.
Proof using Kfield Kdec no_cube.
  intros E. destruct a as [x y z]. destruct (Kdec z 0) as [->|N].
  - apply n6_lin in E. destruct E as [-> ->]. reflexivity.
  - exfalso. set (b := T6 y (- z) 0).
    assert (M : mul6 (T6 x y z) b = T6 (x * y - xi * (z * z)) (y * y - x * z) 0) by (unfold mul6, b; apply t6_ext; cbn [a0 a1 a2]; ring).
    pose proof (n6_mul (T6 x y z) b) as NM. rewrite E, M in NM. replace (0 * n6 b) with 0 in NM by ring.
    apply n6_lin in NM. destruct NM as [E1 E2].
    apply (no_cube (y / z)).
    transitivity (xi + (y * (y * y - x * z) + z * (x * y - xi * (z * z))) / (z * z * z)); [field; exact N|]. rewrite E1, E2. field. exact N.
Qed.
Lemma t6_dec (a b : t6) : {a = b} + {a <> b}.
Proof using Kdec. destruct a as [x y z], b as [x' y' z'], (Kdec x x'), (Kdec y y'), (Kdec z z'); subst; auto; right; congruence. Qed.
Lemma T6field : field_theory z6 o6 add6 mul6 sub6 opp6 div6 inv6 (@eq t6).
Proof using Kfield Kdec no_cube.
  constructor.
  - constructor; intros; unfold z6, o6, add6, mul6, sub6, opp6; apply t6_ext; cbn [a0 a1 a2]; ring.
  - intros E. apply (f_equal a0) in E. cbn in E. apply (F_1_neq_0 Kfield). exact E.
  - intros; reflexivity.
  - intros a N. assert (M : n6 a <> 0) by (intros E; apply N, n6_0, E).
    unfold inv6, mul6, o6. apply t6_ext; cbn [a0 a1 a2].
    all: remember (n6 a) as n eqn:En; unfold n6 in En; destruct a as [x y z]; cbn [a0 a1 a2] in *.
    + match type of En with _ = ?e => transitivity (e / n) end; [clear En; field; exact M|]. rewrite <- En. field. exact M.
    + field. exact M.
    + field. exact M.
Qed.
Add Field KF6 : T6field.

(** ** Degree 6 over K: b0 + b1 w *)
Record t12 := T12 { b0 : t6; b1 : t6 }.
Definition z12 : t12 := T12 z6 z6.
Definition o12 : t12 := T12 o6 z6.
Definition add12 (a b : t12) : t12 := T12 (add6 (b0 a) (b0 b)) (add6 (b1 a) (b1 b)).
Definition sub12 (a b : t12) : t12 := T12 (sub6 (b0 a) (b0 b)) (sub6 (b1 a) (b1 b)).
Definition opp12 (a : t12) : t12 := T12 (opp6 (b0 a)) (opp6 (b1 a)).
Definition mul12 (a b : t12) : t12 :=
  T12 (add6 (mul6 (b0 a) (b0 b)) (mul6 v6 (mul6 (b1 a) (b1 b)))) (add6 (mul6 (b0 a) (b1 b)) (mul6 (b1 a) (b0 b))).
Definition conj12 (a : t12) : t12 := T12 (b0 a) (opp6 (b1 a)).
Definition n12 (a : t12) : t6 := sub6 (mul6 (b0 a) (b0 a)) (mul6 v6 (mul6 (b1 a) (b1 a))).
Definition inv12 (a : t12) : t12 := T12 (div6 (b0 a) (n12 a)) (opp6 (div6 (b1 a) (n12 a))).
Definition div12 (a b : t12) : t12 := mul12 a (inv12 b).
Lemma t12_ext a b : b0 a = b0 b -> b1 a = b1 b -> a = b.
Proof. destruct a, b. cbn. intros -> ->. reflexivity. Qed.
Lemma n12_0 a : n12 a = z6 -> a = z12.
Proof using Kfield Kdec no_cube no_square.
  destruct a as [x y]. unfold n12. cbn [b0 b1]. intros E. destruct (t6_dec y z6) as [->|N].
  - unfold z12. apply (f_equal (fun t => T12 t z6)). assert (E' : mul6 x x = z6) by (rewrite <- E; ring). apply (f_equal n6) in E'. rewrite n6_mul in E'.
    replace (n6 z6) with 0 in E' by (unfold n6, z6; cbn; ring). apply K_int in E'. apply n6_0. tauto.
  - exfalso. apply (no_square (n6 (div6 x y))). rewrite <- n6_mul, <- n6_v. f_equal.
    transitivity (add6 v6 (div6 (sub6 (mul6 x x) (mul6 v6 (mul6 y y))) (mul6 y y))); [field; exact N|]. rewrite E. field. exact N.
Qed.
Lemma t12_dec (a b : t12) : {a = b} + {a <> b}.
Proof using Kdec. destruct a as [x y], b as [x' y'], (t6_dec x x'), (t6_dec y y'); subst; auto; right; congruence. Qed.
Lemma T12field : field_theory z12 o12 add12 mul12 sub12 opp12 div12 inv12 (@eq t12).
Proof using Kfield Kdec no_cube no_square.
  constructor.
  - constructor; intros; unfold z12, o12, add12, mul12, sub12, opp12; apply t12_ext; cbn [b0 b1]; ring.
  - intros E. apply (f_equal b0) in E. cbn in E. apply (F_1_neq_0 T6field). exact E.
  - intros; reflexivity.
  - intros a N. assert (M : n12 a <> z6) by (intros E; apply N, n12_0, E).
    unfold inv12, mul12, o12. apply t12_ext; cbn [b0 b1].
    all: remember (n12 a) as n eqn:En; unfold n12 in En; destruct a as [x y]; cbn [b0 b1] in *.
    + match type of En with _ = ?e => transitivity (div6 e n) end; [clear En; field; exact M|]. rewrite <- En. field. exact M.
    + field. exact M.
Qed.
Add Field KF12 : T12field.
Lemma conj_mul a b : conj12 (mul12 a b) = mul12 (conj12 a) (conj12 b).
Proof using Kfield Kdec no_cube. unfold conj12, mul12. apply t12_ext; cbn [b0 b1]; ring. Qed.
Lemma conj_conj a : conj12 (conj12 a) = a.
Proof using Kfield Kdec no_cube. unfold conj12. apply t12_ext; cbn [b0 b1]; ring. Qed.
Lemma conj_1 : conj12 o12 = o12.
Proof using Kfield. unfold conj12, o12, opp6, z6. cbn [b0 b1 a0 a1 a2]. f_equal. apply t6_ext; cbn; ring. Qed.
End Tower.
