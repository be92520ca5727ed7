(** The group code of g1.go and g2.go computes the chord-and-tangent law, for every
    coordinate field whose code is exact. *)
From Coq Require Import ZArith List Bool Lia Ring Field.
From Verif Require Import Base Weier Jac Group ModelBls.
Import ListNotations.

Lemma bits_check : forallb (fun n => let h := Z.of_nat n in
  let f := (h / 32)%Z in let l := (h mod 32)%Z in
  (Z.land h 31 =? l)%Z && Bool.eqb (Z.land h 128 =? 0)%Z (f <? 4)%Z &&
  Bool.eqb (Z.land h 64 =? 0)%Z (negb (Z.testbit f 1)) && Bool.eqb (Z.land h 32 =? 0)%Z (negb (Z.odd f)) &&
  (negb (h <? 32)%Z || ((Z.lor h 32 =? h + 32)%Z && (Z.lor (h + 32) 128 =? h + 160)%Z && (Z.lor h 128 =? h + 128)%Z))) (seq 0 256) = true.
Proof. vm_compute. reflexivity. Qed.
Lemma bits h : byte_ok h -> (Z.land h 31 = h mod 32 /\ (Z.land h 128 =? 0) = (h / 32 <? 4) /\
  (Z.land h 64 =? 0) = negb (Z.testbit (h / 32) 1) /\ (Z.land h 32 =? 0) = negb (Z.odd (h / 32)) /\
  (h < 32 -> Z.lor h 32 = h + 32 /\ Z.lor (h + 32) 128 = h + 160 /\ Z.lor h 128 = h + 128))%Z.
Proof.
  intros H. pose proof bits_check as B. rewrite forallb_forall in B. unfold byte_ok in H.
  specialize (B (Z.to_nat h) ltac:(apply in_seq; lia)). cbv zeta in B. rewrite Z2Nat.id in B by lia.
  repeat (apply andb_true_iff in B; destruct B as [B ?]). apply Z.eqb_eq in B. apply eqb_prop in H3, H2, H1.
  split; [exact B|]. split; [exact H3|]. split; [exact H2|]. split; [exact H1|]. intros L.
  rewrite (proj2 (Z.ltb_lt h 32) L) in H0. cbn [negb orb] in H0.
  repeat (apply andb_true_iff in H0; destruct H0 as [H0 ?]). apply Z.eqb_eq in H0, H4, H5. auto.
Qed.
Lemma only_first_iff h b : only_first h b = true <-> b = h :: repeat 0%Z (length b - 1) /\ b <> [].
Proof.
  destruct b as [|x r]; cbn [only_first length]; [split; [discriminate|intros [_ H]; congruence]|].
  rewrite andb_true_iff, Z.eqb_eq. cbn [Nat.sub]. rewrite Nat.sub_0_r.
  assert (E : forallb (Z.eqb 0) r = true <-> r = repeat 0%Z (length r)).
  { clear. induction r as [|y r IH]; cbn [forallb repeat length]; [tauto|]. rewrite andb_true_iff, IH, Z.eqb_eq. split; [intros [<- E]; f_equal; exact E|intros E; injection E as -> E; auto]. }
  rewrite E. split; [intros [-> E']; split; [f_equal; exact E'|discriminate]|intros [H _]; injection H; auto].
Qed.
Section CurveRep.
Variable K : Type.
Variables (k0 k1 : K) (kadd kmul ksub : K -> K -> K) (kopp : K -> K)
          (kdiv : K -> K -> K) (kinv : K -> K).
Variable Kfield : field_theory k0 k1 kadd kmul ksub kopp kdiv kinv (@eq K).
Variable Kdec : forall x y : K, {x = y} + {x <> y}.
Variable cb : K.
Add Field KFG : Kfield.
Declare Scope G_scope.
Delimit Scope G_scope with G.
Local Open Scope G_scope.
Notation "0" := k0 : G_scope.
Notation "1" := k1 : G_scope.
Infix "+" := kadd : G_scope.
Infix "*" := kmul : G_scope.
Infix "-" := ksub : G_scope.
Notation "- x" := (kopp x) : G_scope.
Infix "/" := kdiv : G_scope.

Notation wpt := (Weier.point K).
Notation Inf := (Weier.Inf K).
Notation Aff := (Weier.Aff K).
Notation padd := (Weier.padd K k1 kadd kmul ksub kopp kdiv Kdec k0).
Notation pneg := (Weier.pneg K kopp).
Notation on_curve := (Weier.on_curve K kadd kmul k0 cb).
Notation jac := (Jac.jac K k0 kmul kdiv Kdec).
Notation zm := (zmul Inf padd pneg).

Context {T : Type}.
Variable C : cfield T.
Variable rep : T -> K -> Prop.
(** the elements the code inverts correctly *)
Variable invok : T -> Prop.

(** The code [C] computes exactly in the field, on representations [rep] *)
Record crep : Prop := {
  cr_fun : forall x a b, rep x a -> rep x b -> a = b;
  cr_inj : forall x y a, rep x a -> rep y a -> x = y;
  cr_zero : rep (c_zero C) 0;
  cr_one : rep (c_one C) 1;
  cr_b : rep (c_b C) cb;
  cr_add : forall x y a b, rep x a -> rep y b -> rep (c_add C x y) (a + b);
  cr_sub : forall x y a b, rep x a -> rep y b -> rep (c_sub C x y) (a - b);
  cr_mul : forall x y a b, rep x a -> rep y b -> rep (c_mul C x y) (a * b);
  cr_double : forall x a, rep x a -> rep (c_double C x) (a + a);
  cr_neg : forall x a, rep x a -> rep (c_neg C x) (- a);
  cr_square : forall x a, rep x a -> rep (c_square C x) (a * a);
  cr_inverse : forall x a, invok x -> rep x a -> a <> 0 -> rep (c_inverse C x) (1 / a);
  cr_equal : forall x y a b, rep x a -> rep y b -> c_equal C x y = if Kdec a b then true else false;
  cr_isZero : forall x a, rep x a -> c_isZero C x = if Kdec a 0 then true else false }.
Hypothesis R : crep.
Hypothesis char2 : 1 + 1 <> 0.
Hypothesis nonsing : forall x y, y * y = x * x * x + 0 * x + cb ->
  (1 + 1) * y = 0 -> (1 + 1 + 1) * (x * x) + 0 = 0 -> False.

(** [jrep P Q]: the triple [P] of the code stands for the point [Q] *)
Definition jrep (P : point T) (Q : wpt) : Prop :=
  exists X Y Z, rep (px P) X /\ rep (py P) Y /\ rep (pz P) Z /\ jac X Y Z = Q.
Definition grp : is_group wpt Inf padd pneg on_curve.
Proof.
  constructor.
  - exact I.
  - intros P Q. apply (padd_on _ _ _ _ _ _ _ _ _ Kfield Kdec _ _ char2).
  - intros P. apply (pneg_on _ _ _ _ _ _ _ _ _ Kfield).
  - intros P Q S. apply (padd_assoc _ _ _ _ _ _ _ _ _ Kfield Kdec _ _ char2). exact nonsing.
  - intros P Q. apply (padd_comm _ _ _ _ _ _ _ _ _ Kfield Kdec _ _ char2).
  - intros P _. reflexivity.
  - intros P _. apply (padd_neg_r _ _ _ _ _ _ _ _ _ Kfield).
Defined.

Lemma dec_eq {A} (a b : K) (x y : A) : a = b -> (if Kdec a b then x else y) = x.
Proof. intros ->. destruct (Kdec b b); congruence. Qed.
Lemma dec_ne {A} (a b : K) (x y : A) : a <> b -> (if Kdec a b then x else y) = y.
Proof. intros N. destruct (Kdec a b); congruence. Qed.
Lemma isz P X Y Z : rep (px P) X -> rep (py P) Y -> rep (pz P) Z -> g_IsZero C P = if Kdec Z 0 then true else false.
Proof. intros _ _ HZ. unfold g_IsZero. exact (cr_isZero R _ _ HZ). Qed.
Lemma j_zero : jrep (g_Zero C) Inf.
Proof. exists 0, 1, 0. repeat split; try apply R. apply (jac_0 K). Qed.
Lemma j_blank : jrep (g_Blank C) Inf.
Proof. exists 0, 0, 0. repeat split; try apply R. apply (jac_0 K). Qed.
Lemma j_iszero P Q : jrep P Q -> g_IsZero C P = match Q with Weier.Inf _ => true | _ => false end.
Proof.
  intros (X & Y & Z & HX & HY & HZ & <-). rewrite (isz P X Y Z) by assumption. unfold Jac.jac. destruct (Kdec Z 0); reflexivity.
Qed.
Ltac rp := first [eassumption|eapply (cr_add R); rp|eapply (cr_sub R); rp|eapply (cr_mul R); rp|eapply (cr_double R); rp|eapply (cr_neg R); rp|eapply (cr_square R); rp|apply (cr_b R)|apply (cr_one R)|apply (cr_zero R)].
Lemma j_double P Q : jrep P Q -> jrep (g_Double C P) (padd Q Q).
Proof.
  intros (X & Y & Z & HX & HY & HZ & <-). unfold g_Double. rewrite (isz P X Y Z) by assumption.
  destruct (Kdec Z 0) as [->|NZ].
  { exists X, Y, 0. repeat split; try assumption. rewrite (jac_0 K). reflexivity. }
  cbv zeta. eexists _, _, _. cbn [px py pz]. split; [rp|]. split; [rp|]. split; [rp|].
  pose proof (jac_dbl_a0 _ _ _ _ _ _ _ _ _ Kfield Kdec 0 char2 X Y Z eq_refl _ eq_refl) as E. cbv zeta in E. rewrite E.
  apply f_equal3; ring.
Qed.
Lemma j_add P1 P2 Q1 Q2 : jrep P1 Q1 -> jrep P2 Q2 -> on_curve Q1 -> on_curve Q2 -> jrep (g_Add C P1 P2) (padd Q1 Q2).
Proof.
  intros J1 J2 O1 O2. unfold g_Add. rewrite (j_iszero _ _ J1), (j_iszero _ _ J2).
  pose proof J1 as (X1 & Y1 & Z1 & HX1 & HY1 & HZ1 & E1). pose proof J2 as (X2 & Y2 & Z2 & HX2 & HY2 & HZ2 & E2).
  destruct Q1 as [|x1 y1]; [exact J2|]. destruct Q2 as [|x2 y2]; [exact J1|]. rewrite <- E1 in O1. rewrite <- E2 in O2.
  assert (N1 : Z1 <> 0) by (intros ->; rewrite (jac_0 K) in E1; discriminate).
  assert (N2 : Z2 <> 0) by (intros ->; rewrite (jac_0 K) in E2; discriminate).
  rewrite <- E1, <- E2. cbv zeta.
  assert (H1 : rep (c_mul C (px P2) (c_square C (pz P1))) (X2 * (Z1 * Z1))) by rp.
  assert (H3 : rep (c_mul C (px P1) (c_square C (pz P2))) (X1 * (Z2 * Z2))) by rp.
  assert (H0 : rep (c_mul C (py P2) (c_mul C (pz P1) (c_square C (pz P1)))) (Y2 * (Z1 * (Z1 * Z1)))) by rp.
  assert (H2 : rep (c_mul C (py P1) (c_mul C (pz P2) (c_square C (pz P2)))) (Y1 * (Z2 * (Z2 * Z2)))) by rp.
  rewrite (cr_equal R _ _ _ _ H1 H3), (cr_equal R _ _ _ _ H0 H2).
  destruct (Kdec (X2 * (Z1 * Z1)) (X1 * (Z2 * Z2))) as [EX|NX].
  - destruct (Kdec (Y2 * (Z1 * (Z1 * Z1))) (Y1 * (Z2 * (Z2 * Z2)))) as [EY|NY].
    + rewrite (jac_eq _ _ _ _ _ _ _ _ _ Kfield Kdec X1 Y1 Z1 X2 Y2 Z2) by (assumption || (transitivity (Y2 * (Z1 * (Z1 * Z1))); [ring|]; rewrite EY; ring)).
      apply j_double. exists X1, Y1, Z1. repeat split; assumption.
    + rewrite (jac_add_opp _ _ _ _ _ _ _ _ _ Kfield Kdec 0 cb X1 Y1 Z1 X2 Y2 Z2); try assumption; [exact j_zero|].
      intros E. apply NY. transitivity (Y2 * Z1 * (Z1 * Z1)); [ring|]. rewrite E. ring.
  - eexists _, _, _. cbn [px py pz]. split; [rp|]. split; [rp|]. split; [rp|].
    assert (Hh : X2 * (Z1 * Z1) - X1 * (Z2 * Z2) <> 0) by (apply (k_sub_ne _ _ _ _ _ _ _ _ _ Kfield); exact NX).
    pose proof (jac_add_ne _ _ _ _ _ _ _ _ _ Kfield Kdec 0 char2 X1 Y1 Z1 X2 Y2 Z2 N1 N2 Hh _ eq_refl) as E. cbv zeta in E. rewrite E.
    apply f_equal3; ring.
Qed.
Lemma j_neg P Q : jrep P Q -> jrep (g_Neg C P) (pneg Q).
Proof.
  intros (X & Y & Z & HX & HY & HZ & <-). exists X, (- Y), Z. cbn [g_Neg px py pz]. repeat split; try assumption; [apply (cr_neg R); assumption|].
  unfold Jac.jac. destruct (Kdec Z 0) as [|N]; [reflexivity|]. cbn [Weier.pneg]. f_equal. field. exact N.
Qed.
Lemma on_zm k Q : on_curve Q -> on_curve (zm k Q).
Proof. intros H. exact (zmul_ok _ _ _ _ _ grp k Q H). Qed.
Lemma j_mul_loop e : forall P N Q M, jrep P Q -> jrep N M -> on_curve Q -> on_curve M -> jrep (mul_loop C e P N) (padd Q (zm (Zpos e) M)).
Proof.
  induction e as [e IH|e IH|]; intros P N Q M HP HN OQ OM; cbn [mul_loop].
  - assert (OD : on_curve (padd M M)) by (apply (g_add _ _ _ _ _ grp); assumption).
    assert (OS : on_curve (padd Q M)) by (apply (g_add _ _ _ _ _ grp); assumption).
    pose proof (IH (g_Add C P N) (g_Double C N) _ _ (j_add _ _ _ _ HP HN OQ OM) (j_double _ _ HN) OS OD) as J.
    replace (padd Q (zm (Z.pos e~1) M)) with (padd (padd Q M) (zm (Z.pos e) (padd M M))); [exact J|].
    replace (Z.pos e~1) with (Z.pos e + Z.pos e + 1)%Z by lia.
    rewrite !(zmul_add _ _ _ _ _ grp), (zmul_1 _ _ _ _ _ grp), (zmul_padd _ _ _ _ _ grp) by assumption.
    pose proof (on_zm (Z.pos e) M OM) as OZ.
    rewrite <- (g_assoc _ _ _ _ _ grp) by (assumption || apply (g_add _ _ _ _ _ grp); assumption). f_equal.
    apply (g_comm _ _ _ _ _ grp); [assumption|apply (g_add _ _ _ _ _ grp); assumption].
  - assert (OD : on_curve (padd M M)) by (apply (g_add _ _ _ _ _ grp); assumption).
    pose proof (IH P (g_Double C N) _ _ HP (j_double _ _ HN) OQ OD) as J.
    replace (zm (Z.pos e~0) M) with (zm (Z.pos e) (padd M M)); [exact J|].
    replace (Z.pos e~0) with (Z.pos e + Z.pos e)%Z by lia.
    rewrite (zmul_add _ _ _ _ _ grp), (zmul_padd _ _ _ _ _ grp) by assumption. reflexivity.
  - rewrite (zmul_1 _ _ _ _ _ grp) by assumption. apply j_add; assumption.
Qed.
Lemma j_mul P Q e : (0 <= e)%Z -> jrep P Q -> on_curve Q -> jrep (g_MulScalar C P e) (zm e Q).
Proof.
  intros He HP OQ. destruct e as [|e|e]; [exact j_blank| |lia]. cbn [g_MulScalar].
  exact (j_mul_loop e (g_Blank C) P Inf Q j_blank HP I OQ).
Qed.
(** Affine form: Z is one, or the point is infinity *)
Lemma j_affine P Q : jrep P Q -> pz P = c_one C \/ invok (pz P) -> jrep (g_Affine C P) Q /\
  match Q with Weier.Inf _ => True | Weier.Aff _ x y => rep (px (g_Affine C P)) x /\ rep (py (g_Affine C P)) y /\ pz (g_Affine C P) = c_one C end.
Proof.
  intros J HI. unfold g_Affine. rewrite (j_iszero _ _ J). pose proof J as (X & Y & Z & HX & HY & HZ & E).
  destruct Q as [|x y]; [split; [exact J|exact I]|].
  assert (N : Z <> 0) by (intros ->; rewrite (jac_0 K) in E; discriminate).
  rewrite (jac_ne K k0 kmul kdiv Kdec) in E by exact N. injection E as Ex Ey.
  rewrite (cr_equal R _ _ _ _ HZ (cr_one R)).
  destruct (Kdec Z 1) as [E1|N1]; cbn [negb].
  - subst Z. split; [exact J|]. 
    assert (X = x) by (rewrite <- Ex; field; exact N). assert (Y = y) by (rewrite <- Ey; field; exact N). subst.
    refine (conj _ (conj _ _)); [congruence|congruence|]. apply (cr_inj R _ _ 1); [exact HZ|apply (cr_one R)].
  - cbv zeta. assert (IO : invok (pz P)).
    { destruct HI as [H|H]; [|exact H]. exfalso. apply N1. apply (cr_fun R (pz P)); [exact HZ|]. rewrite H. apply (cr_one R). }
    clear HI. pose proof (cr_inverse R _ _ IO HZ N) as HI.
    assert (Rx : rep (c_mul C (px P) (c_square C (c_inverse C (pz P)))) x).
    { replace x with (X * (1 / Z * (1 / Z))) by (rewrite <- Ex; field; exact N). rp. }
    assert (Ry : rep (c_mul C (py P) (c_mul C (c_inverse C (pz P)) (c_square C (c_inverse C (pz P))))) y).
    { replace y with (Y * (1 / Z * (1 / Z * (1 / Z)))) by (rewrite <- Ey; field; exact N). rp. }
    cbn [px py pz]. split; [|repeat split; assumption].
    exists x, y, 1. cbn [px py pz]. refine (conj Rx (conj Ry (conj (cr_one R) _))). apply (jac_1 _ _ _ _ _ _ _ _ _ Kfield).
Qed.
Lemma j_equal P1 P2 Q1 Q2 : jrep P1 Q1 -> jrep P2 Q2 -> g_Equal C P1 P2 = true <-> Q1 = Q2.
Proof.
  intros J1 J2. unfold g_Equal. rewrite (j_iszero _ _ J1), (j_iszero _ _ J2).
  destruct J1 as (X1 & Y1 & Z1 & HX1 & HY1 & HZ1 & E1), J2 as (X2 & Y2 & Z2 & HX2 & HY2 & HZ2 & E2).
  destruct Q1 as [|x1 y1], Q2 as [|x2 y2]; try (split; congruence).
  assert (N1 : Z1 <> 0) by (intros ->; rewrite (jac_0 K) in E1; discriminate).
  assert (N2 : Z2 <> 0) by (intros ->; rewrite (jac_0 K) in E2; discriminate).
  assert (A2 : rep (c_mul C (c_square C (pz P1)) (px P2)) (Z1 * Z1 * X2)) by rp.
  assert (A3 : rep (c_mul C (c_square C (pz P2)) (px P1)) (Z2 * Z2 * X1)) by rp.
  assert (A0 : rep (c_mul C (c_mul C (c_square C (pz P1)) (pz P1)) (py P2)) (Z1 * Z1 * Z1 * Y2)) by rp.
  assert (A1 : rep (c_mul C (c_mul C (c_square C (pz P2)) (pz P2)) (py P1)) (Z2 * Z2 * Z2 * Y1)) by rp.
  cbv zeta. rewrite (cr_equal R _ _ _ _ A0 A1), (cr_equal R _ _ _ _ A2 A3).
  rewrite <- E1, <- E2. split.
  - intros H. apply andb_true_iff in H. destruct H as [H H']. destruct (Kdec (Z1 * Z1 * Z1 * Y2)) as [EY|]; [|discriminate]. destruct (Kdec (Z1 * Z1 * X2)) as [EX|]; [|discriminate].
    symmetry. apply (jac_eq _ _ _ _ _ _ _ _ _ Kfield Kdec); try assumption.
    + transitivity (Z1 * Z1 * X2); [ring|]. rewrite EX. ring.
    + transitivity (Z1 * Z1 * Z1 * Y2); [ring|]. rewrite EY. ring.
  - rewrite !(jac_ne K k0 kmul kdiv Kdec) by assumption. intros H. injection H as Hx Hy.
    apply (div_eq _ _ _ _ _ _ _ _ _ Kfield) in Hx; [|now apply (k_mul_ne _ _ _ _ _ _ _ _ _ Kfield Kdec)|now apply (k_mul_ne _ _ _ _ _ _ _ _ _ Kfield Kdec)].
    apply (div_eq _ _ _ _ _ _ _ _ _ Kfield) in Hy; [|repeat apply (k_mul_ne _ _ _ _ _ _ _ _ _ Kfield Kdec); assumption|repeat apply (k_mul_ne _ _ _ _ _ _ _ _ _ Kfield Kdec); assumption].
    rewrite !dec_eq; [reflexivity| |].
    + transitivity (X2 * (Z1 * Z1)); [ring|]. rewrite <- Hx. ring.
    + transitivity (Y2 * (Z1 * Z1 * Z1)); [ring|]. rewrite <- Hy. ring.
Qed.
Lemma j_oncurve P Q : jrep P Q -> g_IsOnCurve C P = true <-> on_curve Q.
Proof.
  intros J. unfold g_IsOnCurve. rewrite (j_iszero _ _ J). destruct J as (X & Y & Z & HX & HY & HZ & E).
  destruct Q as [|x y]; [split; intros _; [exact I|reflexivity]|].
  assert (N : Z <> 0) by (intros ->; rewrite (jac_0 K) in E; discriminate).
  rewrite (jac_ne K k0 kmul kdiv Kdec) in E by exact N. injection E as Ex Ey. cbv zeta.
  assert (A : rep (c_square C (py P)) (Y * Y)) by rp.
  assert (B : rep (c_add C (c_mul C (c_square C (px P)) (px P)) (c_mul C (c_b C) (c_mul C (c_square C (pz P)) (c_square C (c_square C (pz P))))))
     (X * X * X + cb * (Z * Z * (Z * Z * (Z * Z))))) by rp.
  rewrite (cr_equal R _ _ _ _ A B). cbn [Weier.on_curve].
  assert (EX : X = x * (Z * Z)) by (rewrite <- Ex; field; exact N).
  assert (EY : Y = y * (Z * Z * Z)) by (rewrite <- Ey; field; exact N).
  subst X Y. split.
  - intros H. destruct (Kdec _ _) as [Q|]; [|discriminate].
    apply (k_cancel _ _ _ _ _ _ _ _ _ Kfield Kdec (Z * Z * Z * (Z * Z * Z))); [repeat apply (k_mul_ne _ _ _ _ _ _ _ _ _ Kfield Kdec); assumption|].
    transitivity (y * (Z * Z * Z) * (y * (Z * Z * Z))); [ring|]. rewrite Q. ring.
  - intros H. apply dec_eq. transitivity (y * y * (Z * Z * Z * (Z * Z * Z))); [ring|]. rewrite H. ring.
Qed.
Lemma j_subgroup P Q : jrep P Q -> on_curve Q -> g_InCorrectSubgroup C P = true <-> zm bls_order Q = Inf.
Proof.
  intros J O. unfold g_InCorrectSubgroup.
  assert (H : (0 <= bls_order)%Z) by discriminate.
  rewrite (j_iszero _ _ (j_mul P Q bls_order H J O)). destruct (zm bls_order Q); split; congruence.
Qed.

(** ** Serialisation *)
Variables (enc : K -> bytes) (sgn : K -> bool).
Record ccodec : Prop := {
  cc_enc_ok : forall a, bytes_ok (enc a) /\ length (enc a) = c_len C;
  cc_pos : (0 < c_len C)%nat;
  cc_enc_top : forall a, (0 <= nth 0 (enc a) 0%Z < 32)%Z;
  cc_enc_inj : forall a b, enc a = enc b -> a = b;
  cc_to : forall x a, rep x a -> c_toBytes C x = enc a;
  cc_from : forall b, bytes_ok b -> length b = c_len C ->
    match c_fromBytes C b with Some x => exists a, rep x a /\ enc a = b | None => forall a, enc a <> b end;
  cc_sqrt : forall x a, rep x a ->
    (forall y, c_sqrt C x = (y, true) -> exists b, rep y b /\ b * b = a) /\
    ((exists b, b * b = a) -> snd (c_sqrt C x) = true);
  cc_sgn : forall x a, rep x a -> c_signBE C x = sgn a;
  cc_sgn_neg : forall a, a <> 0 -> sgn (- a) = negb (sgn a) }.
Hypothesis S : ccodec.
Definition flag_first (f : Z) (b : bytes) : bytes := match b with h :: r => (h + f)%Z :: r | [] => [] end.
(** The compressed form: infinity is c0 00 .. 00; otherwise the x-coordinate with
    bit 7 of the first byte set, and bit 5 set when y is the larger of y and -y *)
Definition encp (Q : wpt) : bytes :=
  match Q with
  | Weier.Inf _ => 192%Z :: repeat 0%Z (c_len C - 1)
  | Weier.Aff _ x y => flag_first (if sgn y then 128 else 160) (enc x)
  end.
Lemma enc_cons a : exists h r, enc a = h :: r /\ (0 <= h < 32)%Z /\ bytes_ok (h :: r).
Proof using S nonsing.
  pose proof (cc_enc_ok S a) as [O L]. pose proof (cc_enc_top S a) as Tp. pose proof (cc_pos S). destruct (enc a) as [|h r]; [cbn in L; lia|].
  exists h, r. auto.
Qed.
Lemma zero_jrep P : P = g_Zero C -> jrep P Inf. Proof using R. intros ->. exact j_zero. Qed.
(** a point of the subgroup is not on the x-axis: its order is odd *)
Lemma y_ne0 x y : on_curve (Aff x y) -> zm bls_order (Aff x y) = Inf -> y <> 0.
Proof using char2 nonsing Kfield.
  intros O Z ->. pose proof (grp) as G.
  assert (D : padd (Aff x 0) (Aff x 0) = Inf).
  { apply (padd_opp _ _ _ _ _ _ _ _ _ Kfield). cbn [Weier.pneg]. f_equal. ring. }
  change bls_order with (2 * (bls_order / 2) + 1)%Z in Z.
  rewrite (zmul_add _ _ _ _ _ G), (zmul_1 _ _ _ _ _ G), Z.mul_comm, (zmul_mul _ _ _ _ _ G) in Z by exact O.
  change 2%Z with (1 + 1)%Z in Z. rewrite (zmul_add _ _ _ _ _ G), (zmul_1 _ _ _ _ _ G), D, (zmul_zero _ _ _ _ _ G) in Z by exact O.
  cbn in Z. discriminate.
Qed.
Definition wcond (Q : wpt) : Prop := on_curve Q /\ zm bls_order Q = Inf.
Lemma dec_sound b P : bytes_ok b -> length b = c_len C -> g_FromCompressed C b = Some P ->
  exists Q, jrep P Q /\ wcond Q /\ encp Q = b /\ (pz P = c_one C \/ P = g_Zero C).
Proof using R S char2 nonsing Kfield.
  intros O L. unfold g_FromCompressed. rewrite L, Nat.ltb_irrefl, <- L, firstn_all. cbv zeta.
  destruct b as [|h r]; [pose proof (cc_pos S); cbn in L; lia|].
  assert (Oh : byte_ok h) by (inversion O; assumption). pose proof Oh as Oh'. unfold byte_ok in Oh'.
  destruct (bits h Oh) as (B31 & B128 & B64 & B32 & _). unfold bit_set. cbn [nth]. rewrite B128, B64, B32, negb_involutive, negb_involutive.
  pose proof (Z.div_mod h 32 ltac:(lia)) as Dh. pose proof (Z.mod_pos_bound h 32 ltac:(lia)) as Mh.
  assert (F8 : (0 <= h / 32 < 8)%Z) by (split; [apply Z.div_pos; lia|apply Z.div_lt_upper_bound; lia]).
  destruct (Z.ltb_spec (h / 32) 4) as [|F4]; cbn [negb]; [discriminate|].
  destruct (Z.testbit (h / 32) 1) eqn:T6.
  { destruct (only_first 192 (h :: r)) eqn:E; [|discriminate]. intros H. injection H as <-. apply only_first_iff in E. destruct E as [E _].
    exists Inf. split; [exact j_zero|]. split; [split; [exact I|apply (zmul_zero _ _ _ _ _ grp)]|]. split; [|right; reflexivity].
    cbn [encp]. rewrite E, <- L. reflexivity. }
  cbn [clear_flags]. rewrite B31.
  assert (Oc : bytes_ok ((h mod 32)%Z :: r)) by (constructor; [unfold byte_ok; lia|inversion O; assumption]).
  pose proof (cc_from S ((h mod 32)%Z :: r) Oc ltac:(exact L)) as HX.
  destruct (c_fromBytes C ((h mod 32)%Z :: r)) as [x|]; [|discriminate]. destruct HX as (a & Rx & Ea).
  assert (Ry2 : rep (c_add C (c_mul C (c_square C x) x) (c_b C)) (a * a * a + cb)) by rp.
  destruct (c_sqrt C _) as [y ok] eqn:ES. destruct ok; cbn [negb]; [|discriminate].
  destruct (proj1 (cc_sqrt S _ _ Ry2) y ES) as (b' & Ry & Eb).
  set (y' := if Bool.eqb _ _ then _ else _). set (b'' := if Bool.eqb (sgn b') (Z.odd (h / 32)) then - b' else b').
  assert (Ry' : rep y' b'').
  { unfold y', b''. rewrite (cc_sgn S _ _ Ry), ?negb_involutive. destruct (Bool.eqb (sgn b') (Z.odd (h / 32))); [apply (cr_neg R)|]; exact Ry. }
  clearbody y'.
  assert (Eb'' : b'' * b'' = a * a * a + cb) by (rewrite <- Eb; unfold b''; destruct (Bool.eqb (sgn b') (Z.odd (h / 32))); ring).
  assert (J : jrep (mkP x y' (c_one C)) (Aff a b'')).
  { exists a, b'', 1. cbn [px py pz]. refine (conj Rx (conj Ry' (conj (cr_one R) _))). apply (jac_1 _ _ _ _ _ _ _ _ _ Kfield). }
  assert (OC : on_curve (Aff a b'')) by (cbn [Weier.on_curve]; rewrite Eb''; ring).
  destruct (g_InCorrectSubgroup C (mkP x y' (c_one C))) eqn:EG; cbn [negb]; [|discriminate]. intros H. injection H as <-.
  apply (j_subgroup _ _ J OC) in EG.
  exists (Aff a b''). split; [exact J|]. split; [split; assumption|]. split; [|left; reflexivity].
  cbn [encp]. rewrite Ea. cbn [flag_first].
  pose proof (y_ne0 _ _ OC EG) as NY.
  assert (NB : b' <> 0) by (intros E0; apply NY; unfold b''; rewrite E0; destruct (Bool.eqb (sgn 0) (Z.odd (h / 32))); ring).
  assert (SG : sgn b'' = negb (Z.odd (h / 32))).
  { unfold b''. destruct (Bool.eqb (sgn b') (Z.odd (h / 32))) eqn:EQ.
    - rewrite (cc_sgn_neg S _ NB). apply eqb_prop in EQ. rewrite EQ. reflexivity.
    - apply eqb_false_iff in EQ. destruct (sgn b'), (Z.odd (h / 32)); try reflexivity; exfalso; apply EQ; reflexivity. }
  rewrite SG. f_equal.
  assert (F45 : (h / 32 = 4 \/ h / 32 = 5)%Z).
  { assert (h / 32 = 4 \/ h / 32 = 5 \/ h / 32 = 6 \/ h / 32 = 7)%Z as XX by (clear - F4 F8; lia).
    destruct XX as [X|[X|[X|X]]]; auto; exfalso; rewrite X in T6; discriminate T6. }
  clear - F45 Dh. destruct F45 as [X|X]; rewrite X in Dh |- *; cbn [negb Z.odd]; lia.
Qed.
Lemma sq_pm a b : a * a = b * b -> a = b \/ a = - b.
Proof using Kfield Kdec.
  intros E. destruct (k_integral _ _ _ _ _ _ _ _ _ Kfield Kdec (a - b) (a + b)) as [H|H].
  - transitivity (a * a - b * b); [ring|]. rewrite E. ring.
  - left. transitivity (a - b + b); [ring|]. rewrite H. ring.
  - right. transitivity (a + b - b); [ring|]. rewrite H. ring.
Qed.
Lemma encp_ok Q : bytes_ok (encp Q) /\ length (encp Q) = c_len C.
Proof using S nonsing.
  pose proof (cc_pos S) as P0. destruct Q as [|x y]; cbn [encp].
  - split; [constructor; [unfold byte_ok; lia|apply Forall_forall; intros z Hz; apply repeat_spec in Hz; subst z; unfold byte_ok; lia]|].
    cbn [length]. rewrite repeat_length. lia.
  - destruct (enc_cons x) as (h & r & E & B & O). pose proof (cc_enc_ok S x) as [_ L]. rewrite E in *. cbn [flag_first].
    split; [|exact L]. inversion_clear O. constructor; [destruct (sgn y); unfold byte_ok; lia|assumption].
Qed.
Lemma dec_complete Q : wcond Q -> exists P, g_FromCompressed C (encp Q) = Some P /\ jrep P Q /\ (pz P = c_one C \/ P = g_Zero C).
Proof using R S char2 nonsing Kfield.
  intros [OC GQ]. destruct (encp_ok Q) as [O L]. pose proof (cc_pos S) as P0. unfold g_FromCompressed. rewrite L, Nat.ltb_irrefl, <- L, firstn_all. cbv zeta.
  destruct Q as [|a b''].
  { exists (g_Zero C). split; [|split; [exact j_zero|right; reflexivity]].
    unfold bit_set. cbn [encp nth]. change (Z.land 192 128 =? 0)%Z with false. change (Z.land 192 64 =? 0)%Z with false. cbn [negb].
    rewrite (proj2 (only_first_iff 192 _)); [reflexivity|]. split; [|discriminate]. cbn [length]. rewrite repeat_length. f_equal. f_equal. clear - P0; lia. }
  cbn [encp]. destruct (enc_cons a) as (h & r & Ea & Hh & Oe). rewrite Ea. cbn [flag_first].
  set (f := if sgn b'' then 128%Z else 160%Z).
  assert (Bf : byte_ok (h + f)) by (clear - Hh; unfold f, byte_ok; destruct (sgn b''); lia).
  destruct (bits _ Bf) as (B31 & B128 & B64 & B32 & _). unfold bit_set. cbn [nth clear_flags]. rewrite B128, B64, B32, B31, !negb_involutive.
  assert (D : ((h + f) / 32 = if sgn b'' then 4 else 5)%Z).
  { clear - Hh. unfold f. destruct (sgn b''); symmetry; apply (Z.div_unique _ _ _ h); lia. }
  assert (M : ((h + f) mod 32 = h)%Z).
  { clear - Hh. unfold f. destruct (sgn b''); symmetry; [apply (Z.mod_unique _ _ 4); lia|apply (Z.mod_unique _ _ 5); lia]. }
  rewrite D, M. replace ((if sgn b'' then 4 else 5) <? 4)%Z with false by (destruct (sgn b''); reflexivity). cbn [negb].
  replace (Z.testbit (if sgn b'' then 4 else 5) 1) with false by (destruct (sgn b''); reflexivity).
  replace (Z.odd (if sgn b'' then 4 else 5)) with (negb (sgn b'')) by (destruct (sgn b''); reflexivity).
  pose proof (cc_enc_ok S a) as [_ La]. rewrite Ea in La.
  pose proof (cc_from S (h :: r) Oe La) as HX. destruct (c_fromBytes C (h :: r)) as [x|]; [|exfalso; exact (HX a Ea)].
  destruct HX as (a' & Rx & Ea'). rewrite <- Ea in Ea'. apply (cc_enc_inj S) in Ea'. subst a'.
  assert (Ry2 : rep (c_add C (c_mul C (c_square C x) x) (c_b C)) (a * a * a + cb)) by rp.
  cbn [Weier.on_curve] in OC. assert (Eb'' : b'' * b'' = a * a * a + cb) by (rewrite OC; ring).
  destruct (cc_sqrt S _ _ Ry2) as [SS SC]. pose proof (SC (ex_intro _ b'' Eb'')) as OK.
  destruct (c_sqrt C _) as [y ok] eqn:ES. cbn [snd] in OK. subst ok. cbn [negb].
  destruct (SS y eq_refl) as (b' & Ry & Eb). rewrite <- Eb'' in Eb.
  pose proof (y_ne0 a b'' ltac:(exact OC) GQ) as NY.
  set (y' := if Bool.eqb _ _ then _ else _).
  assert (Ry' : rep y' b'').
  { unfold y'. rewrite (cc_sgn S _ _ Ry), ?negb_involutive. destruct (sq_pm _ _ Eb) as [->| ->].
    - replace (Bool.eqb (sgn b'') (negb (sgn b''))) with false by (destruct (sgn b''); reflexivity). exact Ry.
    - rewrite (cc_sgn_neg S _ NY), eqb_reflx. replace b'' with (- - b'') by ring. apply (cr_neg R), Ry. }
  assert (J : jrep (mkP x y' (c_one C)) (Aff a b'')).
  { exists a, b'', 1. cbn [px py pz]. refine (conj Rx (conj Ry' (conj (cr_one R) _))). apply (jac_1 _ _ _ _ _ _ _ _ _ Kfield). }
  pose proof (proj2 (j_subgroup _ _ J ltac:(exact OC)) GQ) as EG. rewrite EG. cbn [negb].
  exists (mkP x y' (c_one C)). split; [reflexivity|]. split; [exact J|left; reflexivity].
Qed.
Lemma enc_spec P Q : jrep P Q -> pz P = c_one C \/ invok (pz P) \/ Q = Inf -> g_ToCompressed C P = encp Q.
Proof using R S Kfield nonsing.
  intros J HI. unfold g_ToCompressed. cbv zeta. pose proof (cc_pos S) as P0.
  destruct Q as [|x y].
  - assert (EA : g_Affine C P = P) by (unfold g_Affine; rewrite (j_iszero _ _ J); reflexivity).
    rewrite EA, (j_iszero _ _ J). cbn [encp]. destruct (c_len C) as [|n]; [lia|]. cbn [repeat or_first Nat.sub]. rewrite Nat.sub_0_r. reflexivity.
  - destruct (j_affine P _ J) as [J' (RX & RY & _)]; [destruct HI as [H|[H|H]]; [left|right|discriminate]; exact H|].
    rewrite (j_iszero _ _ J'), (cc_to S _ _ RX), (cc_sgn S _ _ RY). cbn [encp].
    destruct (enc_cons x) as (h & r & E & B & O). rewrite E.
    destruct (bits h ltac:(inversion O; assumption)) as (_ & _ & _ & _ & BL). destruct (BL ltac:(lia)) as (L1 & L2 & L3).
    destruct (sgn y); cbn [negb or_first flag_first]; [rewrite L3; reflexivity|]. rewrite L1, L2. reflexivity.
Qed.
Lemma encp_inj Q1 Q2 : wcond Q1 -> wcond Q2 -> encp Q1 = encp Q2 -> Q1 = Q2.
Proof using R S char2 nonsing Kfield.
  intros W1 W2 E. destruct (dec_complete Q1 W1) as (P1 & D1 & J1 & _), (dec_complete Q2 W2) as (P2 & D2 & J2 & _).
  rewrite E, D2 in D1. injection D1 as <-. apply (j_equal P2 P2 Q1 Q2 J1 J2). apply (j_equal P2 P2 Q1 Q1 J1 J1). reflexivity.
Qed.
Lemma dec_long b : (c_len C <= length b)%nat -> g_FromCompressed C b = g_FromCompressed C (firstn (c_len C) b).
Proof using.
  intros L. unfold g_FromCompressed. rewrite firstn_length, Nat.min_l, Nat.ltb_irrefl by exact L.
  rewrite (proj2 (Nat.ltb_ge _ _) L), firstn_firstn, Nat.min_id. reflexivity.
Qed.
End CurveRep.
