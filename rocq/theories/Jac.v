(** Jacobian coordinates over an arbitrary field: the textbook addition and
    doubling formulas compute the chord-and-tangent law of Weier.v. *)
Require Import Ring Field.
Require Import Verif.Weier.

Section Jacobian.

Variable K : Type.
Variables (k0 k1 : K) (kadd kmul ksub : K -> K -> K) (kopp : K -> K)
          (kdiv : K -> K -> K) (kinv : K -> K).
Variable Kfield : field_theory k0 k1 kadd kmul ksub kopp kdiv kinv (@eq K).
Variable Kdec : forall x y : K, {x = y} + {x <> y}.
Variables ca cb : K.

Add Field KFJ : Kfield.

Declare Scope K_scope.
Delimit Scope K_scope with K.
Local Open Scope K_scope.
Notation "0" := k0 : K_scope.
Notation "1" := k1 : K_scope.
Infix "+" := kadd : K_scope.
Infix "*" := kmul : K_scope.
Infix "-" := ksub : K_scope.
Notation "- x" := (kopp x) : K_scope.
Infix "/" := kdiv : K_scope.
Notation "2" := (1 + 1) : K_scope.
Notation "3" := (1 + 1 + 1) : K_scope.

Notation point := (point K).
Notation Inf := (Inf K).
Notation Aff := (Aff K).
Notation padd := (padd K k1 kadd kmul ksub kopp kdiv Kdec ca).
Notation on_curve := (on_curve K kadd kmul ca cb).

Hypothesis char2 : 2 <> 0.

(** The point with Jacobian coordinates (X : Y : Z). *)
Definition jac (X Y Z : K) : point :=
  if Kdec Z 0 then Inf else Aff (X / (Z * Z)) (Y / (Z * Z * Z)).

Lemma jac_0 X Y : jac X Y 0 = Inf.
Proof. unfold jac. destruct (Kdec 0 0); congruence. Qed.

Lemma jac_1 X Y : jac X Y 1 = Aff X Y.
Proof.
  unfold jac. destruct (Kdec 1 0) as [E|n].
  - exfalso. exact (F_1_neq_0 Kfield E).
  - f_equal; field; auto.
Qed.

Lemma jac_ne X Y Z : Z <> 0 -> jac X Y Z = Aff (X / (Z * Z)) (Y / (Z * Z * Z)).
Proof. unfold jac. destruct (Kdec Z 0); congruence. Qed.

Let integral := k_integral K k0 k1 kadd kmul ksub kopp kdiv kinv Kfield Kdec.
Let mul_ne := k_mul_ne K k0 k1 kadd kmul ksub kopp kdiv kinv Kfield Kdec.
Let sub_ne := k_sub_ne K k0 k1 kadd kmul ksub kopp kdiv kinv Kfield.
Let sub0 := k_sub0 K k0 k1 kadd kmul ksub kopp kdiv kinv Kfield.
Let cancel := k_cancel K k0 k1 kadd kmul ksub kopp kdiv kinv Kfield Kdec.

Lemma div_eq a b c d : b <> 0 -> d <> 0 -> a / b = c / d -> a * d = c * b.
Proof.
  intros Hb Hd E. replace a with (a / b * b) by (field; auto). rewrite E. field. auto.
Qed.

(** Addition, general case: x-coordinates differ. *)
Lemma jac_add_ne X1 Y1 Z1 X2 Y2 Z2 :
  Z1 <> 0 -> Z2 <> 0 ->
  let u1 := X1 * (Z2 * Z2) in let u2 := X2 * (Z1 * Z1) in
  let s1 := Y1 * Z2 * (Z2 * Z2) in let s2 := Y2 * Z1 * (Z1 * Z1) in
  let h := u2 - u1 in let r := 2 * (s2 - s1) in
  let i := (2 * h) * (2 * h) in let j := h * i in let v := u1 * i in
  h <> 0 ->
  forall X3, X3 = r * r - j - v - v ->
  padd (jac X1 Y1 Z1) (jac X2 Y2 Z2) =
  jac X3 (r * (v - X3) - 2 * (s1 * j))
      (((Z1 + Z2) * (Z1 + Z2) - Z1 * Z1 - Z2 * Z2) * h).
Proof.
  intros H1 H2 u1 u2 s1 s2 h r i j v Hh X3 E3.
  assert (HZ : ((Z1 + Z2) * (Z1 + Z2) - Z1 * Z1 - Z2 * Z2) * h <> 0).
  { replace (((Z1 + Z2) * (Z1 + Z2) - Z1 * Z1 - Z2 * Z2) * h) with (2 * Z1 * Z2 * h) by ring.
    auto. }
  rewrite !jac_ne by auto. cbn [Weier.padd].
  destruct (Kdec (X1 / (Z1 * Z1)) (X2 / (Z2 * Z2))) as [E|nx].
  { exfalso. apply Hh. apply div_eq in E; auto. unfold h, u1, u2. rewrite <- E. ring. }
  assert (Hx : X2 / (Z2 * Z2) - X1 / (Z1 * Z1) <> 0) by (apply sub_ne; auto).
  set (l := (Y2 / (Z2 * Z2 * Z2) - Y1 / (Z1 * Z1 * Z1)) / (X2 / (Z2 * Z2) - X1 / (Z1 * Z1))).
  assert (El : l = (s2 - s1) / (Z1 * Z2 * h)).
  { unfold l, s2, s1, h, u1, u2. field. repeat split; auto. }
  rewrite El. clearbody l. clear El l.
  assert (EX1 : X1 = u1 / (Z2 * Z2)) by (unfold u1; field; auto).
  assert (EX2 : X2 = (u1 + h) / (Z1 * Z1)) by (unfold h, u2; field; auto).
  assert (EY1 : Y1 = s1 / (Z2 * Z2 * Z2)) by (unfold s1; field; auto).
  subst X3. unfold r, j, v, i. rewrite EX1, EX2, EY1.
  clearbody s1 s2 h u1. clear u2 EX1 EX2 EY1 Hx nx HZ r i j v.
  f_equal; field; repeat split; auto.
  all: replace ((Z1 + Z2) * (Z1 + Z2) - Z1 * Z1 - Z2 * Z2) with (2 * Z1 * Z2) by ring; auto.
Qed.

(** Addition of a point and its opposite: the formula yields Z3 = 0. *)
Lemma jac_add_opp X1 Y1 Z1 X2 Y2 Z2 :
  Z1 <> 0 -> Z2 <> 0 ->
  X2 * (Z1 * Z1) = X1 * (Z2 * Z2) ->
  Y2 * Z1 * (Z1 * Z1) <> Y1 * Z2 * (Z2 * Z2) ->
  on_curve (jac X1 Y1 Z1) -> on_curve (jac X2 Y2 Z2) ->
  padd (jac X1 Y1 Z1) (jac X2 Y2 Z2) = Inf.
Proof.
  intros H1 H2 Hx Hy C1 C2. rewrite !jac_ne in * by auto.
  cbn [Weier.padd Weier.on_curve] in *.
  assert (Ex : X1 / (Z1 * Z1) = X2 / (Z2 * Z2)).
  { replace X1 with (X2 * (Z1 * Z1) / (Z2 * Z2)) by (rewrite Hx; field; auto). field; auto. }
  destruct (Kdec (X1 / (Z1 * Z1)) (X2 / (Z2 * Z2))) as [_|n]; [|contradiction].
  destruct (Kdec (Y1 / (Z1 * Z1 * Z1)) (- (Y2 / (Z2 * Z2 * Z2)))) as [_|n]; [reflexivity|].
  exfalso. rewrite <- Ex in C2.
  set (y1 := Y1 / (Z1 * Z1 * Z1)) in *. set (y2 := Y2 / (Z2 * Z2 * Z2)) in *.
  destruct (integral (y1 - y2) (y1 + y2)) as [E|E].
  - replace ((y1 - y2) * (y1 + y2)) with (y1 * y1 - y2 * y2) by ring.
    rewrite C1, C2. ring.
  - apply sub0 in E. apply Hy. unfold y1, y2 in E. apply div_eq in E; auto.
    replace (Y2 * Z1 * (Z1 * Z1)) with (Y2 * (Z1 * Z1 * Z1)) by ring.
    rewrite <- E. ring.
  - apply n. apply sub0. rewrite <- E. ring.
Qed.

(** Equal points in two Jacobian representations. *)
Lemma jac_eq X1 Y1 Z1 X2 Y2 Z2 :
  Z1 <> 0 -> Z2 <> 0 ->
  X2 * (Z1 * Z1) = X1 * (Z2 * Z2) ->
  Y2 * Z1 * (Z1 * Z1) = Y1 * Z2 * (Z2 * Z2) ->
  jac X2 Y2 Z2 = jac X1 Y1 Z1.
Proof.
  intros H1 H2 Hx Hy. rewrite !jac_ne by auto. f_equal.
  - replace X1 with (X2 * (Z1 * Z1) / (Z2 * Z2)) by (rewrite Hx; field; auto). field; auto.
  - replace Y1 with (Y2 * Z1 * (Z1 * Z1) / (Z2 * (Z2 * Z2))); [field; auto|].
    rewrite Hy. field; auto.
Qed.

(** Doubling for a = 0 (dbl-2009-l). *)
Lemma jac_dbl_a0 X Y Z : ca = 0 ->
  let a := X * X in let b := Y * Y in let c := b * b in
  let d := 2 * ((X + b) * (X + b) - a - c) in
  let e := 3 * a in let f := e * e in
  forall X3, X3 = f - 2 * d ->
  padd (jac X Y Z) (jac X Y Z) =
  jac X3 (e * (d - X3) - 2 * 2 * 2 * c) (2 * (Y * Z)).
Proof.
  intros Hca a b c d e f X3 E3.
  destruct (Kdec Z 0) as [->|HZ].
  { replace (2 * (Y * 0)) with 0 by ring. rewrite !jac_0. reflexivity. }
  destruct (Kdec Y 0) as [HY|HY].
  { replace (2 * (Y * Z)) with 0 by (rewrite HY; ring). rewrite jac_0.
    rewrite jac_ne by auto. cbn [Weier.padd].
    destruct (Kdec (X / (Z * Z)) (X / (Z * Z))) as [_|n]; [|congruence].
    destruct (Kdec (Y / (Z * Z * Z)) (- (Y / (Z * Z * Z)))) as [_|n]; [reflexivity|].
    exfalso. apply n. rewrite HY. field. auto. }
  assert (HZ3 : 2 * (Y * Z) <> 0) by auto.
  rewrite !jac_ne by auto. cbn [Weier.padd].
  destruct (Kdec (X / (Z * Z)) (X / (Z * Z))) as [_|n]; [|congruence].
  destruct (Kdec (Y / (Z * Z * Z)) (- (Y / (Z * Z * Z)))) as [E|n].
  { exfalso. apply (k_2y K k0 k1 kadd kmul ksub kopp kdiv kinv Kfield Kdec char2) in E.
    apply HY. replace Y with (Y / (Z * Z * Z) * (Z * Z * Z)) by (field; auto). rewrite E. ring. }
  rewrite Hca. subst X3. unfold f, e, d, c, b, a.
  f_equal; field; repeat split; auto.
Qed.

(** Doubling for a general a, in the form Z3 = 2YZ. *)
Lemma jac_dbl_gen X Y Z :
  let s := 2 * 2 * (X * (Y * Y)) in
  let m := 3 * (X * X) + ca * (Z * Z * (Z * Z)) in
  forall X3, X3 = m * m - 2 * s ->
  padd (jac X Y Z) (jac X Y Z) =
  jac X3 (m * (s - X3) - 2 * 2 * 2 * (Y * Y * (Y * Y))) (2 * (Y * Z)).
Proof.
  intros s m X3 E3.
  destruct (Kdec Z 0) as [->|HZ].
  { replace (2 * (Y * 0)) with 0 by ring. rewrite !jac_0. reflexivity. }
  destruct (Kdec Y 0) as [HY|HY].
  { replace (2 * (Y * Z)) with 0 by (rewrite HY; ring). rewrite jac_0.
    rewrite jac_ne by auto. cbn [Weier.padd].
    destruct (Kdec (X / (Z * Z)) (X / (Z * Z))) as [_|n]; [|congruence].
    destruct (Kdec (Y / (Z * Z * Z)) (- (Y / (Z * Z * Z)))) as [_|n]; [reflexivity|].
    exfalso. apply n. rewrite HY. field. auto. }
  assert (HZ3 : 2 * (Y * Z) <> 0) by auto.
  rewrite !jac_ne by auto. cbn [Weier.padd].
  destruct (Kdec (X / (Z * Z)) (X / (Z * Z))) as [_|n]; [|congruence].
  destruct (Kdec (Y / (Z * Z * Z)) (- (Y / (Z * Z * Z)))) as [E|n].
  { exfalso. apply (k_2y K k0 k1 kadd kmul ksub kopp kdiv kinv Kfield Kdec char2) in E.
    apply HY. replace Y with (Y / (Z * Z * Z) * (Z * Z * Z)) by (field; auto). rewrite E. ring. }
  subst X3. unfold m, s.
  f_equal; field; repeat split; auto.
Qed.

(** Mixed addition in the short form used by the order checker. *)
Lemma jac_madd X Y Z x2 y2 :
  let h := x2 * (Z * Z) - X in let r := y2 * (Z * (Z * Z)) - Y in
  let hh := h * h in let hhh := h * hh in let v := X * hh in
  Z <> 0 -> h <> 0 ->
  forall X3, X3 = r * r - hhh - (v + v) ->
  padd (jac X Y Z) (Aff x2 y2) = jac X3 (r * (v - X3) - Y * hhh) (Z * h).
Proof.
  intros h r hh hhh v HZ Hh X3 E3.
  rewrite !jac_ne by auto. cbn [Weier.padd].
  destruct (Kdec (X / (Z * Z)) x2) as [E|nx].
  { exfalso. apply Hh. unfold h. rewrite <- E. field. auto. }
  assert (Hx : x2 - X / (Z * Z) <> 0) by (apply sub_ne; auto).
  set (l := (y2 - Y / (Z * Z * Z)) / (x2 - X / (Z * Z))).
  assert (El : l = r / (Z * h)) by (unfold l, r, h; field; repeat split; auto).
  rewrite El. clearbody l. clear El l.
  assert (E2 : x2 = (h + X) / (Z * Z)) by (unfold h; field; auto).
  subst X3. unfold v, hhh, hh. rewrite E2. clearbody h r. clear E2 Hx nx.
  f_equal; field; repeat split; auto.
Qed.

End Jacobian.
