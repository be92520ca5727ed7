(** The two steps of Miller's algorithm in homogeneous coordinates.  Algebra only. *)
From Coq Require Import Ring Field.
Section Alg.
Variable K : Type.
Variables (k0 k1 : K) (kadd kmul ksub : K -> K -> K) (kopp : K -> K) (kdiv : K -> K -> K) (kinv : K -> K).
Variable Kfield : field_theory k0 k1 kadd kmul ksub kopp kdiv kinv (@eq K).
Add Field KFAte : Kfield.
Declare Scope A_scope.
Delimit Scope A_scope with A.
Local Open Scope A_scope.
Notation "0" := k0 : A_scope.
Notation "1" := k1 : A_scope.
Infix "+" := kadd : A_scope.
Infix "*" := kmul : A_scope.
Infix "-" := ksub : A_scope.
Infix "/" := kdiv : A_scope.
Notation "- x" := (kopp x) : A_scope.
Notation "2" := (1 + 1) : A_scope.
Notation "3" := (1 + 1 + 1) : A_scope.
Variable two : 2 <> 0.
(** doubling *)
Definition dE b Z := b * (3 * (Z * Z)).
Definition dX h b X Y Z := (Y * Y - 3 * dE b Z) * (X * Y * h).
Definition dY h b Y Z := ((Y * Y + 3 * dE b Z) * h) * ((Y * Y + 3 * dE b Z) * h) - 3 * (dE b Z * dE b Z).
Definition dZ Y Z := Y * Y * (2 * (Y * Z)).
Definition d0' b Y Z := dE b Z - Y * Y.
Lemma half h : 2 * h = 1 -> h = 1 / 2.
Proof using Kfield two. intros H. transitivity ((2 * h) / 2); [field; exact two|rewrite H; reflexivity]. Qed.
Section D.
Variables (h b x y Z : K).
Hypothesis Hh : 2 * h = 1.
Hypothesis On : y * y = x * x * x + 0 * x + b.
Hypothesis Hy : y <> 0.
Hypothesis HZ : Z <> 0.
Notation l := ((3 * (x * x) + 0) / (2 * y)).
Lemma b_is : b = y * y - x * x * x.
Proof using Kfield On. rewrite On. ring. Qed.
Lemma mul_nz u v : u <> 0 -> v <> 0 -> u * v <> 0.
Proof using Kfield. intros U V E. apply V. transitivity (u * v / u); [field; exact U|]. rewrite E. field. exact U. Qed.
Lemma dZ_nz : dZ (y * Z) Z <> 0.
Proof using Kfield two Hy HZ. unfold dZ. repeat apply mul_nz; assumption. Qed.
Lemma dbl_x : dX h b (x * Z) (y * Z) Z / dZ (y * Z) Z = l * l - 2 * x.
Proof using Kfield two Hh On Hy HZ. unfold dX, dE, dZ. rewrite (half h Hh), b_is. field. repeat split; assumption. Qed.
Lemma dbl_y : dY h b (y * Z) Z / dZ (y * Z) Z = l * (x - (l * l - 2 * x)) - y.
Proof using Kfield two Hh On Hy HZ. unfold dY, dE, dZ. rewrite (half h Hh), b_is. field. repeat split; assumption. Qed.
Lemma dbl_l0 : d0' b (y * Z) Z = (- (2 * (y * Z * Z))) * (3 * (x * x) / (2 * y) * x - y).
Proof using Kfield two On Hy. unfold d0', dE. rewrite b_is. field. repeat split; assumption. Qed.
Lemma dbl_l1 xP : 3 * ((x * Z) * (x * Z)) * xP = (- (2 * (y * Z * Z))) * (- (3 * (x * x) / (2 * y) * xP)).
Proof using Kfield two Hy. field. repeat split; assumption. Qed.
Lemma dbl_l2 yP : (- (2 * (y * Z * Z))) * yP = (- (2 * (y * Z * Z))) * yP.
Proof using. reflexivity. Qed.
Lemma dbl_c : - (2 * (y * Z * Z)) <> 0.
Proof using Kfield two Hy HZ. intros E. apply (mul_nz 2 (y * Z * Z)); [exact two|repeat apply mul_nz; assumption|]. transitivity (- - (2 * (y * Z * Z))); [ring|rewrite E; ring]. Qed.
End D.
(** addition *)
Definition a0' Y Z yq := Y - yq * Z.
Definition a1' X Z xq := X - xq * Z.
Definition a5 t0 t1 X Z := t1 * (t1 * t1) - 2 * (X * (t1 * t1)) + Z * (t0 * t0).
Definition aX t0 t1 X Z := t1 * a5 t0 t1 X Z.
Definition aY t0 t1 X Y Z := (X * (t1 * t1) - a5 t0 t1 X Z) * t0 - Y * (t1 * (t1 * t1)).
Definition aZ t1 Z := Z * (t1 * (t1 * t1)).
Section S.
Variables (x y Z xq yq : K).
Hypothesis HZ : Z <> 0.
Hypothesis Hx : x <> xq.
Notation l := ((yq - y) / (xq - x)).
Notation t0 := (a0' (y * Z) Z yq).
Notation t1 := (a1' (x * Z) Z xq).
Lemma sub_nz : xq - x <> 0. Proof using Kfield Hx. intros E. apply Hx. transitivity (xq - (xq - x)); [ring|rewrite E; ring]. Qed.
Lemma sub_nz' : x - xq <> 0. Proof using Kfield Hx. intros E. apply Hx. transitivity ((x - xq) + xq); [ring|rewrite E; ring]. Qed.
Lemma t1_is : t1 = (x - xq) * Z. Proof using Kfield. unfold a1'. ring. Qed.
Lemma t0_is : t0 = (y - yq) * Z. Proof using Kfield. unfold a0'. ring. Qed.
Lemma t1_nz : t1 <> 0. Proof using Kfield HZ Hx. rewrite t1_is. apply mul_nz; [exact sub_nz'|exact HZ]. Qed.
Lemma aZ_nz : aZ t1 Z <> 0. Proof using Kfield HZ Hx. unfold aZ. pose proof t1_nz. repeat apply mul_nz; assumption. Qed.
Lemma add_x : aX t0 t1 (x * Z) Z / aZ t1 Z = l * l - x - xq.
Proof using Kfield HZ Hx. unfold aX, a5, aZ. rewrite t1_is, t0_is. pose proof sub_nz. pose proof sub_nz'. field. repeat split; assumption. Qed.
Lemma add_y : aY t0 t1 (x * Z) (y * Z) Z / aZ t1 Z = l * (x - (l * l - x - xq)) - y.
Proof using Kfield HZ Hx. unfold aY, a5, aZ. rewrite t1_is, t0_is. pose proof sub_nz. pose proof sub_nz'. field. repeat split; assumption. Qed.
Lemma add_l0 : t0 * xq - t1 * yq = t1 * (l * x - y).
Proof using Kfield Hx. rewrite t1_is, t0_is. pose proof sub_nz. field. assumption. Qed.
Lemma add_l1 xP : - t0 * xP = t1 * (- (l * xP)).
Proof using Kfield Hx. rewrite t1_is, t0_is. pose proof sub_nz. field. assumption. Qed.
End S.
End Alg.
