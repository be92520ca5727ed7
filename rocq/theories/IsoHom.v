(** The 3-isogeny of IsoAlg.v sends the three points of a line to the three points
    of a line.  Mathematics only. *)
Require Import Ring Field.
From Verif Require Import IsoAlg Weier.

Section IsoHom.
Variable K : Type.
Variables (k0 k1 : K) (kadd kmul ksub : K -> K -> K) (kopp : K -> K)
          (kdiv : K -> K -> K) (kinv : K -> K).
Variable Kfield : field_theory k0 k1 kadd kmul ksub kopp kdiv kinv (@eq K).
Add Field KFisoh : Kfield.
Declare Scope H_scope.
Delimit Scope H_scope with H.
Local Open Scope H_scope.
Notation "0" := k0 : H_scope.
Notation "1" := k1 : H_scope.
Infix "+" := kadd : H_scope.
Infix "*" := kmul : H_scope.
Infix "-" := ksub : H_scope.
Notation "- x" := (kopp x) : H_scope.
Infix "/" := kdiv : H_scope.
Notation "2" := (1 + 1) : H_scope.
Notation "3" := (1 + 1 + 1) : H_scope.
Notation "5" := (2 * 2 + 1) : H_scope.
Notation isoX := (isoX K k1 kadd kmul ksub kdiv).
Notation isoY := (isoY K k1 kadd kmul ksub kopp kdiv).
Notation dd := (d K k1 kadd kmul ksub).
Variables (v A B b : K).
Hypothesis HA : A = - (n120 K k1 kadd kmul * (v * v)).
Hypothesis HB : B = 2 * n11 K k1 kadd kmul * n23 K k1 kadd kmul * (v * v * v).
Hypothesis Hb : b = 2 * (v * v * v).
Hypothesis char3 : 3 <> 0.

(** sum of N(X_i) N(X_j) X_k^2 in the elementary symmetric functions *)
Lemma sym2 a b0 c X1 X2 X3 :
  let s1 := X1 + X2 + X3 in let s2 := X1 * X2 + X1 * X3 + X2 * X3 in let s3 := X1 * X2 * X3 in
  let N x := x * x * x + a * (x * x) + b0 * x + c in
  N X1 * N X2 * (X3 * X3) + N X1 * N X3 * (X2 * X2) + N X2 * N X3 * (X1 * X1) =
  s2 * s3 * s3 + 2 * s1 * s3 * s3 * a + s1 * s2 * s3 * b0 + s1 * s2 * s2 * c - 2 * s1 * s1 * s3 * c + 3 * s3 * s3 * a * a - 3 * s3 * s3 * b0 + 2 * s2 * s3 * a * b0 - s2 * s3 * c + 2 * s2 * s2 * a * c + s1 * s3 * b0 * b0 - 2 * 2 * s1 * s3 * a * c + s1 * s2 * b0 * c + s1 * s1 * c * c - 3 * s3 * b0 * c - 2 * s2 * c * c.
Proof using Kfield. cbv beta zeta. ring. Qed.

Section Line.
(** the line y = l X + m in the coordinate X = x - 6v *)
Variables (l m : K).
Definition e3 := m * m - 2 * (v * v * v).
Hypothesis Ne : e3 <> 0.
Definition al := - (2 * 2 * 2 * (v * v * v) * l + 2 * 2 * 2 * 3 * (v * v) * m) / e3.
Definition be := 2 * 2 * 2 * 2 * (v * v * v) * m / e3.
Definition Ls := l - al.
Definition Ms := m - 2 * 3 * v * Ls - al * (2 * 3 * 3 * v - l * l) - be.
Definition ff X := X * X * X + (2 * 3 * 3 * v - l * l) * (X * X) - (2 * 2 * 3 * (v * v) + 2 * l * m) * X - e3.
Lemma poly_id X : (l * X + m) * (X * X * X + 2 * 2 * 2 * 3 * (v * v) * X - 2 * 2 * 2 * 2 * (v * v * v))
  - Ls * (X * X * X * X + 2 * 3 * v * (X * X * X) - 2 * 2 * 2 * 3 * (v * v) * (X * X) + 2 * 2 * 2 * (v * v * v) * X) - Ms * (X * X * X)
  = (al * X + be) * ff X.
Proof using Kfield Ne. unfold Ms, Ls, ff, al, be. unfold e3 in *. field. exact Ne. Qed.
Definition gg X := (X * X * X + 2 * 3 * v * (X * X) - 2 * 2 * 2 * 3 * (v * v) * X + 2 * 2 * 2 * (v * v * v)) / (X * X).
Lemma root_id X : X <> 0 -> ff X = 0 ->
  (l * X + m) * (X * X * X + 2 * 2 * 2 * 3 * (v * v) * X - 2 * 2 * 2 * 2 * (v * v * v)) / (X * X * X) = Ls * gg X + Ms.
Proof using Kfield Ne.
  intros N E. pose proof (poly_id X) as P. rewrite E in P.
  assert (Q : (l * X + m) * (X * X * X + 2 * 2 * 2 * 3 * (v * v) * X - 2 * 2 * 2 * 2 * (v * v * v)) =
    Ls * (X * X * X * X + 2 * 3 * v * (X * X * X) - 2 * 2 * 2 * 3 * (v * v) * (X * X) + 2 * 2 * 2 * (v * v * v) * X) + Ms * (X * X * X)).
  { set (u := (l * X + m) * _) in *. set (w := Ls * (_ + _)) in *. transitivity (u - w - Ms * (X * X * X) + w + Ms * (X * X * X)); [ring|]. rewrite P. ring. }
  rewrite Q. unfold gg. generalize Ls Ms. clear - Kfield N. intros L0 M0. field. exact N.
Qed.
Variables (X1 X2 X3 : K).
Hypothesis N1 : X1 <> 0.
Hypothesis N2 : X2 <> 0.
Hypothesis N3 : X3 <> 0.
Hypothesis S1 : X1 + X2 + X3 = l * l - 2 * 3 * 3 * v.
Hypothesis S2 : X1 * X2 + X1 * X3 + X2 * X3 = - (2 * 2 * 3 * (v * v) + 2 * l * m).
Hypothesis S3 : X1 * X2 * X3 = e3.
Lemma ff_root X : (X - X1) * (X - X2) * (X - X3) = 0 -> ff X = 0.
Proof using Kfield S1 S2 S3.
  intros E. unfold ff. rewrite <- S3.
  replace (2 * 3 * 3 * v - l * l) with (- (X1 + X2 + X3)) by (rewrite S1; ring).
  replace (2 * 2 * 3 * (v * v) + 2 * l * m) with (- (X1 * X2 + X1 * X3 + X2 * X3)) by (rewrite S2; ring).
  rewrite <- E. ring.
Qed.
Lemma sum_id : gg X1 + gg X2 + gg X3 = Ls * Ls.
Proof using Kfield Ne N1 N2 N3 S1 S2 S3.
  assert (E : gg X1 + gg X2 + gg X3 = (X1 + X2 + X3) + 2 * 3 * 3 * v - 2 * 2 * 2 * 3 * (v * v) * ((X1 * X2 + X1 * X3 + X2 * X3) / (X1 * X2 * X3))
    + 2 * 2 * 2 * (v * v * v) * (((X1 * X2 + X1 * X3 + X2 * X3) * (X1 * X2 + X1 * X3 + X2 * X3) - 2 * (X1 + X2 + X3) * (X1 * X2 * X3)) / ((X1 * X2 * X3) * (X1 * X2 * X3)))).
  { unfold gg. clear - Kfield N1 N2 N3. field. repeat split; assumption. }
  rewrite E, S1, S2, S3. unfold Ls, al. clear E. unfold e3 in *. field. exact Ne.
Qed.
Lemma pair_id : gg X1 * gg X2 + gg X1 * gg X3 + gg X2 * gg X3 = - (2 * Ls * Ms).
Proof using Kfield Ne N1 N2 N3 S1 S2 S3.
  pose proof (sym2 (2 * 3 * v) (- (2 * 2 * 2 * 3 * (v * v))) (2 * 2 * 2 * (v * v * v)) X1 X2 X3) as P. cbv beta zeta in P. rewrite S1, S2, S3 in P.
  match type of P with ?lhs = ?rhs => assert (E : gg X1 * gg X2 + gg X1 * gg X3 + gg X2 * gg X3 = lhs / ((X1 * X2 * X3) * (X1 * X2 * X3))) end.
  { unfold gg. clear - Kfield N1 N2 N3. field. repeat split; assumption. }
  rewrite E, P, S3. clear E P. unfold Ms, Ls, al, be. unfold e3 in *. field. exact Ne.
Qed.
End Line.

Ltac nz3 := repeat split; try assumption; match goal with |- ?a <> 0 => first
  [ exact char3 | replace a with 3 by ring; exact char3 | replace a with (3 * 3) by ring | replace a with (3 * 3 * 3) by ring | replace a with (3 * 3 * 3 * 3) by ring
  | replace a with (3 * 3 * 3 * 3 * 3) by ring | replace a with (3 * 3 * 3 * 3 * 3 * 3) by ring | replace a with (3 * 3 * 3 * 3 * 3 * 3 * 3) by ring
  | replace a with (3 * 3 * 3 * 3 * 3 * 3 * 3 * 3) by ring ]; repeat apply (mul_ne _ _ _ _ _ _ _ _ _ Kfield); exact char3 end.
Lemma gg_iso x : dd v x <> 0 -> isoX v x = gg (dd v x) / (3 * 3).
Proof using Kfield char3.
  intros N. unfold IsoAlg.isoX, gg. remember (dd v x) as D eqn:ED. assert (EX : x = D + 2 * 3 * v) by (rewrite ED; unfold d; ring). clear ED. subst x.
  field. nz3.
Qed.
(** the three points of a line of E1 go to the three points of a line of E2 *)
Theorem iso_line x1 y1 x2 y2 x3 y3 l : dd v x1 <> 0 -> dd v x2 <> 0 -> dd v x3 <> 0 ->
  (forall s, s * s <> b) ->
  y2 = y1 + l * (x2 - x1) -> y3 = y1 + l * (x3 - x1) -> x1 + x2 + x3 = l * l ->
  x1 * x2 + x1 * x3 + x2 * x3 = A - 2 * l * (y1 - l * x1) ->
  x1 * x2 * x3 = (y1 - l * x1) * (y1 - l * x1) - B ->
  exists L, let X1 := isoX v x1 in let X2 := isoX v x2 in let X3 := isoX v x3 in
    let Y1 := isoY v x1 y1 in let Y2 := isoY v x2 y2 in let Y3 := isoY v x3 y3 in
    Y2 = Y1 + L * (X2 - X1) /\ Y3 = Y1 + L * (X3 - X1) /\ X1 + X2 + X3 = L * L /\
    X1 * X2 + X1 * X3 + X2 * X3 = 0 - 2 * L * (Y1 - L * X1).
Proof using Kfield HA HB Hb char3.
  intros D1 D2 D3 NS E2 E3 T1 T2 T3.
  set (m := y1 - l * dd v x1).
  assert (Ne : e3 m <> 0) by (unfold e3; intros Z; apply (NS m); rewrite Hb; transitivity (m * m - 2 * (v * v * v) + 2 * (v * v * v)); [ring|rewrite Z; ring]).
  assert (S1 : dd v x1 + dd v x2 + dd v x3 = l * l - 2 * 3 * 3 * v) by (rewrite <- T1; unfold d; ring).
  assert (S2 : dd v x1 * dd v x2 + dd v x1 * dd v x3 + dd v x2 * dd v x3 = - (2 * 2 * 3 * (v * v) + 2 * l * m)).
  { transitivity ((x1 * x2 + x1 * x3 + x2 * x3) - 2 * 2 * 3 * v * (x1 + x2 + x3) + 2 * 2 * 3 * 3 * 3 * (v * v)); [unfold d; ring|].
    rewrite T2, T1, HA. unfold m, n120, d. ring. }
  assert (S3 : dd v x1 * dd v x2 * dd v x3 = e3 m).
  { transitivity (x1 * x2 * x3 - 2 * 3 * v * (x1 * x2 + x1 * x3 + x2 * x3) + 2 * 2 * 3 * 3 * (v * v) * (x1 + x2 + x3) - 2 * 2 * 2 * 3 * 3 * 3 * (v * v * v)); [unfold d; ring|].
    rewrite T3, T2, T1, HA, HB. unfold e3, m, n120, n11, n23, d. ring. }
  assert (Y : forall x y, dd v x <> 0 -> (dd v x - dd v x1) * (dd v x - dd v x2) * (dd v x - dd v x3) = 0 -> y = l * dd v x + m ->
    isoY v x y = - (Ls l m / 3) * isoX v x - Ms l m / (3 * 3 * 3)).
  { intros x y N R EY. apply (ff_root l m _ _ _ S1 S2 S3) in R. pose proof (root_id l m Ne _ N R) as Q.
    rewrite (gg_iso x N), EY. unfold IsoAlg.isoY. set (D := dd v x) in *. clearbody D.
    transitivity (- ((l * D + m) * (D * D * D + 2 * 2 * 2 * 3 * (v * v) * D - 2 * 2 * 2 * 2 * (v * v * v)) / (D * D * D)) / (3 * 3 * 3)).
    - clear - Kfield N char3. field. nz3.
    - rewrite Q. set (g := gg D). set (L0 := Ls l m). set (M0 := Ms l m). clearbody g L0 M0. clear - Kfield char3.
      field. nz3. }
  assert (Y1 := Y x1 y1 D1 ltac:(ring) ltac:(unfold m; ring)).
  assert (Y2 := Y x2 y2 D2 ltac:(ring) ltac:(rewrite E2; unfold m, d; ring)).
  assert (Y3 := Y x3 y3 D3 ltac:(ring) ltac:(rewrite E3; unfold m, d; ring)).
  exists (- (Ls l m / 3)). cbv zeta. rewrite Y1, Y2, Y3, !gg_iso by assumption.
  pose proof (sum_id l m Ne _ _ _ D1 D2 D3 S1 S2 S3) as P1. pose proof (pair_id l m Ne _ _ _ D1 D2 D3 S1 S2 S3) as P2.
  set (g1 := gg (dd v x1)) in *. set (g2 := gg (dd v x2)) in *. set (g3 := gg (dd v x3)) in *.
  set (L0 := Ls l m) in *. set (M0 := Ms l m) in *. clearbody g1 g2 g3 L0 M0. clear - Kfield char3 P1 P2.
  refine (conj _ (conj _ (conj _ _))).
  - ring.
  - ring.
  - transitivity ((g1 + g2 + g3) / (3 * 3)); [|rewrite P1]; field; nz3.
  - transitivity ((g1 * g2 + g1 * g3 + g2 * g3) / (3 * 3 * 3 * 3)); [|rewrite P2]; field; nz3.
Qed.

(** the map of points is a homomorphism *)
Variable Kdec : forall x y : K, {x = y} + {x <> y}.
Hypothesis char2 : 2 <> 0.
Hypothesis b_ns : forall s, s * s <> b.
Notation pt := (point K).
Notation on1 := (on_curve K kadd kmul A B).
Notation on2 := (on_curve K kadd kmul 0 b).
Notation add1 := (padd K k1 kadd kmul ksub kopp kdiv Kdec A).
Notation add2 := (padd K k1 kadd kmul ksub kopp kdiv Kdec 0).
Notation neg := (pneg K kopp).
Hypothesis no_two : forall x y, on2 (Aff K x y) -> y <> 0.
Definition isoP (P : pt) : pt := match P with Inf _ => Inf K | Aff _ x y => Aff K (isoX v x) (isoY v x y) end.
Lemma d_ne x y : on1 (Aff K x y) -> dd v x <> 0.
Proof using Kfield HA HB Hb b_ns.
  intros E D. apply (b_ns y). exact (iso_kernel _ _ _ _ _ _ _ _ _ Kfield v A B b HA HB Hb x y D E).
Qed.
Lemma isoP_on P : on1 P -> on2 (isoP P).
Proof using Kfield HA HB Hb b_ns char3.
  destruct P as [|x y]; [intros _; exact I|]. intros E. exact (iso_on _ _ _ _ _ _ _ _ _ Kfield v A B b HA HB Hb char3 x y (d_ne x y E) E).
Qed.
Lemma isoP_neg P : on1 P -> isoP (neg P) = neg (isoP P).
Proof using Kfield HA HB Hb b_ns char3.
  destruct P as [|x y]; [reflexivity|]. intros E. pose proof (d_ne x y E) as D. cbn [isoP pneg]. f_equal. unfold IsoAlg.isoY.
  set (w := dd v x) in *. clearbody w. field. nz3.
Qed.
Theorem isoP_add P Q : on1 P -> on1 Q -> isoP (add1 P Q) = add2 (isoP P) (isoP Q).
Proof using Kfield HA HB Hb b_ns char3 char2 no_two.
  intros HP HQ. destruct (point_dec K Kdec P (neg Q)) as [->|n].
  { rewrite (padd_neg_l _ _ _ _ _ _ _ _ _ Kfield Kdec A), isoP_neg by exact HQ. rewrite (padd_neg_l _ _ _ _ _ _ _ _ _ Kfield Kdec 0). reflexivity. }
  destruct P as [|x1 y1]; [reflexivity|]. destruct Q as [|x2 y2]; [reflexivity|].
  destruct (line_exists _ _ _ _ _ _ _ _ _ Kfield Kdec A B char2 x1 y1 x2 y2 HP HQ n) as (x3 & y3 & l & HL & ->).
  assert (H3 : on1 (Aff K x3 y3)).
  { apply (line_swap23 _ _ _ _ _ _ _ _ _ Kfield) in HL. apply (line_swap12 _ _ _ _ _ _ _ _ _ Kfield) in HL. exact (line_on1 _ _ _ _ _ _ _ _ _ Kfield _ _ _ _ _ _ _ _ _ HL). }
  destruct HL as (L2 & L3 & T1 & T2 & T3).
  destruct (iso_line x1 y1 x2 y2 x3 y3 l (d_ne _ _ HP) (d_ne _ _ HQ) (d_ne _ _ H3) b_ns L2 L3 T1 T2 T3) as (L & E2 & E3 & U1 & U2).
  pose proof (isoP_on _ HP) as O1. change (isoP (Aff K x3 (- y3))) with (isoP (neg (Aff K x3 y3))). rewrite isoP_neg by exact H3.
  cbn [isoP] in *. pose proof (no_two _ _ O1) as NY.
  set (X1 := isoX v x1) in *. set (X2 := isoX v x2) in *. set (X3 := isoX v x3) in *.
  set (Y1 := isoY v x1 y1) in *. set (Y2 := isoY v x2 y2) in *. set (Y3 := isoY v x3 y3) in *. clearbody X1 X2 X3 Y1 Y2 Y3. cbn [pneg].
  symmetry. apply (padd_line _ _ _ _ _ _ _ _ _ Kfield Kdec 0 b char2 X1 Y1 X2 Y2 X3 Y3 L).
  - intros E. cbn [pneg] in E. injection E as EX EY. apply NY. rewrite <- EX in E2. assert (Z : Y2 = Y1) by (rewrite E2; ring).
    rewrite Z in EY. transitivity ((Y1 + Y1) / 2); [field; exact char2|]. rewrite EY at 1. field. exact char2.
  - refine (conj E2 (conj E3 (conj U1 (conj U2 _)))). cbn [on_curve] in O1.
    transitivity (X1 * X1 * X1 - (X1 + X2 + X3) * (X1 * X1) + (X1 * X2 + X1 * X3 + X2 * X3) * X1); [ring|].
    rewrite U1, U2. transitivity (Y1 * Y1 - b - L * L * (X1 * X1) + (0 - 2 * L * (Y1 - L * X1)) * X1); [rewrite O1|]; ring.
Qed.
End IsoHom.
