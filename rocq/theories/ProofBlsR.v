(** HashToCurve and EncodeToCurve as points of G2. *)
From Coq Require Import ZArith List Bool Lia Znumtheory Ring Field.
From Verif Require Import Base ModelBlsF SpecBls ModelBls ProofBlsF ProofBlsE SpecBlsG BlsPrime ProofBlsG ProofBlsH Fp BlsFp2 BlsFrob ProofBlsI Weier Jac Group SpecBlsSig SpecBlsPair ProofBlsJ ProofBlsK BlsTors BlsExp SpecBlsMap ModelBlsEnc ProofBlsN ProofBlsO ProofBlsQ IsoAlg.
Import ListNotations.
Local Open Scope Z_scope.
Add Field KFR1 : Kp1.
Add Field KFR2 : Kp2.

(** ** isogeny.go *)
Lemma i0_rep : Forall2 rep2 (nth 0 isogenyG2 []) [k10; k11; k12; k13].
Proof. cbn [nth isogenyG2]. repeat (apply Forall2_cons; [apply chk2_rep; vm_cast_no_check (@eq_refl bool true)|]). apply Forall2_nil. Qed.
Lemma i1_rep : Forall2 rep2 (nth 1 isogenyG2 []) [k20; k21; o2; z2].
Proof. cbn [nth isogenyG2]. repeat (apply Forall2_cons; [apply chk2_rep; vm_cast_no_check (@eq_refl bool true)|]). apply Forall2_nil. Qed.
Lemma i2_rep : Forall2 rep2 (nth 2 isogenyG2 []) [k30; k31; k32; k33].
Proof. cbn [nth isogenyG2]. repeat (apply Forall2_cons; [apply chk2_rep; vm_cast_no_check (@eq_refl bool true)|]). apply Forall2_nil. Qed.
Lemma i3_rep : Forall2 rep2 (nth 3 isogenyG2 []) [k40; k41; k42; o2].
Proof. cbn [nth isogenyG2]. repeat (apply Forall2_cons; [apply chk2_rep; vm_cast_no_check (@eq_refl bool true)|]). apply Forall2_nil. Qed.
Lemma isogeny_unf F x y : isogenyMap (C2 F) isogenyG2 x y =
  (fp2_mul F (horner (C2 F) x (nth 0 isogenyG2 [])) (fp2_inverse F (horner (C2 F) x (nth 1 isogenyG2 []))),
   fp2_mul F (fp2_mul F (horner (C2 F) x (nth 2 isogenyG2 [])) (fp2_inverse F (horner (C2 F) x (nth 3 isogenyG2 [])))) y).
Proof. reflexivity. Qed.
Section Exact.
Variable F : fbuild.
Hypothesis HF : exact_but_square F.
Hypothesis HS : forall x, sq_ok F x.
Lemma horner4 x X l c0 c1 c2 c3 : rep2 x X -> Forall2 rep2 l [c0; c1; c2; c3] -> rep2 (horner (C2 F) x l) (poly3 c0 c1 c2 c3 X).
Proof using HF.
  intros RX H. inversion_clear H as [|a0 ? l0 ? R0 H']. inversion_clear H' as [|a1 ? l1 ? R1 H]. inversion_clear H as [|a2 ? l2 ? R2 H'].
  inversion_clear H' as [|a3 ? l3 ? R3 H]. inversion_clear H. unfold horner. cbn [rev app fold_left C2 ModelBls.c_add ModelBls.c_mul].
  unfold poly3. match goal with |- rep2 _ ?e => replace e with (q2_add (q2_mul (q2_add (q2_mul (q2_add (q2_mul c3 X) c2) X) c1) X) c0) by ring end.
  apply (add2_rep F HF); [|exact R0]. apply (mul2_rep F HF); [|exact RX]. apply (add2_rep F HF); [|exact R1]. apply (mul2_rep F HF); [|exact RX].
  apply (add2_rep F HF); [|exact R2]. apply (mul2_rep F HF); [exact R3|exact RX].
Qed.
Lemma iso_any x y X Y : rep2 x X -> rep2 y Y -> exists x' y' X' Y', isogenyMap (C2 F) isogenyG2 x y = (x', y') /\ rep2 x' X' /\ rep2 y' Y' /\
  (e1_on (Weier.Aff _ X Y) -> iso_map (Weier.Aff _ X Y) = Weier.Aff _ X' Y').
Proof using HF HS.
  intros RX RY. rewrite isogeny_unf. pose proof (horner4 x X _ _ _ _ _ RX i0_rep) as H0. pose proof (horner4 x X _ _ _ _ _ RX i1_rep) as H1.
  pose proof (horner4 x X _ _ _ _ _ RX i2_rep) as H2. pose proof (horner4 x X _ _ _ _ _ RX i3_rep) as H3.
  set (xn := poly3 k10 k11 k12 k13 X) in *. set (xd := poly3 k20 k21 o2 z2 X) in *.
  set (yn := poly3 k30 k31 k32 k33 X) in *. set (yd := poly3 k40 k41 k42 o2 X) in *.
  assert (I : forall h e, rep2 h e -> exists f, rep2 (fp2_inverse F h) f /\ (e <> z2 -> f = q2_div o2 e)).
  { intros h e R. destruct (q2_dec e z2) as [E|N].
    - exists z2. split; [apply (inv2_zero F HF HS); rewrite <- E; exact R|]. intros N. contradiction.
    - exists (q2_div o2 e). split; [apply (inv2_rep F HF HS); assumption|]. intros _. reflexivity. }
  destruct (I _ _ H1) as (xi & RI & EI). destruct (I _ _ H3) as (yi & RJ & EJ).
  eexists _, _, (q2_mul xn xi), (q2_mul (q2_mul yn yi) Y). refine (conj eq_refl (conj _ (conj _ _))).
  - apply (mul2_rep F HF); assumption.
  - apply (mul2_rep F HF); [|exact RY]. apply (mul2_rep F HF); assumption.
  - intros E. pose proof (e1_den X Y E) as D. destruct (iso_dens X) as [DX DY]. fold xd in DX. fold yd in DY. cbn [iso_map]. fold xn xd yn yd.
    assert (ND : forall a b, a <> z2 -> b <> z2 -> q2_mul a b <> z2) by (intros a b NA NB Z; apply int2 in Z; destruct Z; contradiction).
    assert (NX : xd <> z2) by (rewrite DX; apply ND; assumption).
    assert (NY : yd <> z2) by (rewrite DY; apply ND; [apply ND|]; assumption).
    rewrite (EI NX), (EJ NY). f_equal; field; assumption.
Qed.
(** ** Adding two different points of E1 *)
Notation jr := (jrep (fp2 p) (q2 p 0 0) q2_mul q2_div q2_dec rep2).
Lemma e1_add_rep P1 P2 Q1 Q2 : jr P1 Q1 -> jr P2 Q2 -> e1_on Q1 -> e1_on Q2 -> Q1 <> Q2 -> jr (g_Add (C2 F) P1 P2) (e1_add Q1 Q2).
Proof using HF.
  intros J1 J2 O1 O2 NE. pose proof (C2_rep F HF) as R. unfold g_Add.
  rewrite (g2_iszero_rep F HF _ _ J1), (g2_iszero_rep F HF _ _ J2).
  pose proof J1 as (X1 & Y1 & Z1 & HX1 & HY1 & HZ1 & E1). pose proof J2 as (X2 & Y2 & Z2 & HX2 & HY2 & HZ2 & E2).
  destruct Q1 as [|x1 y1]; [exact J2|]. destruct Q2 as [|x2 y2]; [exact J1|]. rewrite <- E1 in O1. rewrite <- E2 in O2.
  assert (N1 : Z1 <> z2) by (intros ->; rewrite (jac_0 Fp2) in E1; discriminate).
  assert (N2 : Z2 <> z2) by (intros ->; rewrite (jac_0 Fp2) in E2; discriminate).
  rewrite <- E1, <- E2 in NE |- *. cbv zeta.
  Ltac rr R := repeat first [ eassumption | apply (cr_add _ _ _ _ _ _ _ _ _ _ _ _ _ R) | apply (cr_sub _ _ _ _ _ _ _ _ _ _ _ _ _ R)
    | apply (cr_mul _ _ _ _ _ _ _ _ _ _ _ _ _ R) | apply (cr_double _ _ _ _ _ _ _ _ _ _ _ _ _ R) | apply (cr_neg _ _ _ _ _ _ _ _ _ _ _ _ _ R) | apply (cr_square _ _ _ _ _ _ _ _ _ _ _ _ _ R) ].
  assert (H1 : rep2 (c_mul (C2 F) (px P2) (c_square (C2 F) (pz P1))) (q2_mul X2 (q2_mul Z1 Z1))) by rr R.
  assert (H3 : rep2 (c_mul (C2 F) (px P1) (c_square (C2 F) (pz P2))) (q2_mul X1 (q2_mul Z2 Z2))) by rr R.
  assert (H0 : rep2 (c_mul (C2 F) (py P2) (c_mul (C2 F) (pz P1) (c_square (C2 F) (pz P1)))) (q2_mul Y2 (q2_mul Z1 (q2_mul Z1 Z1)))) by rr R.
  assert (H2 : rep2 (c_mul (C2 F) (py P1) (c_mul (C2 F) (pz P2) (c_square (C2 F) (pz P2)))) (q2_mul Y1 (q2_mul Z2 (q2_mul Z2 Z2)))) by rr R.
  rewrite (cr_equal _ _ _ _ _ _ _ _ _ _ _ _ _ R _ _ _ _ H1 H3), (cr_equal _ _ _ _ _ _ _ _ _ _ _ _ _ R _ _ _ _ H0 H2).
  destruct (q2_dec (q2_mul X2 (q2_mul Z1 Z1)) (q2_mul X1 (q2_mul Z2 Z2))) as [EX|NX].
  - destruct (q2_dec (q2_mul Y2 (q2_mul Z1 (q2_mul Z1 Z1))) (q2_mul Y1 (q2_mul Z2 (q2_mul Z2 Z2)))) as [EY|NY].
    + exfalso. apply NE. symmetry. apply (jac_eq _ _ _ _ _ _ _ _ _ Kp2 q2_dec X1 Y1 Z1 X2 Y2 Z2); try assumption.
      transitivity (q2_mul Y2 (q2_mul Z1 (q2_mul Z1 Z1))); [ring|]. rewrite EY. ring.
    + unfold e1_add. rewrite (jac_add_opp _ _ _ _ _ _ _ _ _ Kp2 q2_dec iso_A iso_B X1 Y1 Z1 X2 Y2 Z2); try assumption.
      * exact (j_zero _ _ _ _ _ _ _ _ q2_dec _ (C2 F) rep2 _ R).
      * intros E. apply NY. transitivity (q2_mul (q2_mul Y2 Z1) (q2_mul Z1 Z1)); [ring|]. rewrite E. ring.
  - eexists _, _, _. cbn [px py pz]. split; [rr R|]. split; [rr R|]. split; [rr R|].
    assert (Hh : q2_sub (q2_mul X2 (q2_mul Z1 Z1)) (q2_mul X1 (q2_mul Z2 Z2)) <> z2) by (apply (k_sub_ne _ _ _ _ _ _ _ _ _ Kp2); exact NX).
    pose proof (jac_add_ne _ _ _ _ _ _ _ _ _ Kp2 q2_dec iso_A char2_2 X1 Y1 Z1 X2 Y2 Z2 N1 N2 Hh _ eq_refl) as E. cbv zeta in E. unfold e1_add.
    rewrite E.
    apply f_equal3; ring.
Qed.
End Exact.
(** ** Clearing the cofactor *)
Lemma heff_div : bls_r * h_eff = 205402962706926671524173658533473537752191 * g2_exp.
Proof. apply Z.eqb_eq. vm_cast_no_check (@eq_refl bool true). Qed.
Lemma heff_in P : g2_on P -> in_G2 (g2_mul h_eff P).
Proof.
  intros O. split; [exact (zmul_ok _ _ _ _ _ G2 h_eff P O)|].
  transitivity (g2_mul (bls_r * h_eff) P); [symmetry; exact (zmul_mul _ _ _ _ _ G2 bls_r h_eff P O)|].
  rewrite heff_div. transitivity (g2_mul 205402962706926671524173658533473537752191 (g2_mul g2_exp P)); [exact (zmul_mul _ _ _ _ _ G2 _ g2_exp P O)|].
  rewrite (g2_exponent P O). exact (zmul_zero _ _ _ _ _ G2 _).
Qed.
(** ** The two functions *)
Section Exact2.
Variable F : fbuild.
Hypothesis HF : exact_but_square F.
Hypothesis HS : forall x, sq_ok F x.
Lemma affine_any P (Q : g2pt) : rep_g2 P Q -> rep_g2 (g_Affine (C2 F) P) Q /\ (Q = g2_inf \/ affine2 (g_Affine (C2 F) P) Q).
Proof using HF HS.
  intros J. assert (IV : inv2 F (ModelBls.pz P)) by (split; apply HS).
  destruct (j_affine _ _ _ _ _ _ _ _ _ Kp2 q2_dec _ (C2 F) rep2 _ (C2_rep F HF) P Q J (or_intror IV)) as [J' A]. split; [exact J'|].
  destruct Q as [|x y]; [left; reflexivity|right]. exact A.
Qed.
Lemma point1_rep x y X Y : rep2 x X -> rep2 y Y -> rep_g2 (mkP x y fp2_one) (Weier.Aff _ X Y).
Proof using. intros RX RY. exists X, Y, o2. refine (conj RX (conj RY (conj one2_rep _))). apply (jac_1 _ _ _ _ _ _ _ _ _ Kp2). Qed.
Lemma clear_rep P Q : rep_g2 P Q -> g2_on Q -> let R := g_Affine (C2 F) (g_MulScalar (C2 F) P cofactorEFFG2) in
  let S := g2_mul h_eff Q in rep_g2 R S /\ in_G2 S /\ (S = g2_inf \/ affine2 R S).
Proof using HF HS.
  intros J O. cbv zeta. assert (J' : rep_g2 (g_MulScalar (C2 F) P cofactorEFFG2) (g2_mul h_eff Q)).
  { apply (g2_mul_rep F HF P Q cofactorEFFG2); [vm_compute; discriminate|exact J|exact O]. }
  destruct (affine_any _ _ J') as [J2 A]. refine (conj J2 (conj (heff_in Q O) A)).
Qed.
Theorem encode_u_rep U u : rep2 U u -> exists Q, swu_point u (code_x1 u) Q /\ let S := g2_mul h_eff (iso_map Q) in
  rep_g2 (g2_encode_u F U) S /\ in_G2 S /\ (S = g2_inf \/ affine2 (g2_encode_u F U) S).
Proof using HF HS.
  intros RU. destruct (swu_rep F HF HS U u RU) as (x & y & X & Y & E & RX & RY & SW & ON).
  exists (Weier.Aff _ X Y). split; [exact SW|]. unfold g2_encode_u. rewrite E.
  destruct (iso_any F HF HS x y X Y RX RY) as (x' & y' & X' & Y' & E' & RX' & RY' & I). rewrite E'.
  apply clear_rep; [rewrite (I ON); apply point1_rep; assumption|apply iso_on_E, ON].
Qed.
Lemma e1_closed Q0 Q1 : e1_on Q0 -> e1_on Q1 -> e1_on (e1_add Q0 Q1).
Proof using. exact (padd_on _ _ _ _ _ _ _ _ _ Kp2 q2_dec iso_A iso_B char2_2 Q0 Q1). Qed.
Theorem from_u_rep U0 U1 u0 u1 : rep2 U0 u0 -> rep2 U1 u1 -> exists Q0 Q1, swu_point u0 (code_x1 u0) Q0 /\ swu_point u1 (code_x1 u1) Q1 /\
  (Q0 <> Q1 -> let S := g2_mul h_eff (iso_map (e1_add Q0 Q1)) in
   rep_g2 (g2_from_u F U0 U1) S /\ in_G2 S /\ (S = g2_inf \/ affine2 (g2_from_u F U0 U1) S)).
Proof using HF HS.
  intros R0 R1. destruct (swu_rep F HF HS U0 u0 R0) as (x0 & y0 & X0 & Y0 & E0 & RX0 & RY0 & SW0 & ON0).
  destruct (swu_rep F HF HS U1 u1 R1) as (x1 & y1 & X1 & Y1 & E1 & RX1 & RY1 & SW1 & ON1).
  exists (Weier.Aff _ X0 Y0), (Weier.Aff _ X1 Y1). refine (conj SW0 (conj SW1 _)). intros NE. unfold g2_from_u. rewrite E0, E1.
  pose proof (e1_add_rep F HF _ _ _ _ (point1_rep _ _ _ _ RX0 RY0) (point1_rep _ _ _ _ RX1 RY1) ON0 ON1 NE) as JA.
  pose proof (e1_closed _ _ ON0 ON1) as ONS.
  set (S := e1_add _ _) in *. clearbody S. set (P := g_Add (C2 F) _ _) in *. clearbody P.
  destruct (affine_any _ _ JA) as [JB AF]. cbv zeta. set (P' := g_Affine (C2 F) P) in *. clearbody P'.
  destruct JB as (X & Y & Z & RX & RY & RZ & EJ).
  destruct (iso_any F HF HS _ _ X Y RX RY) as (x' & y' & X' & Y' & E' & RX' & RY' & I). rewrite E'.
  apply clear_rep; [|apply iso_on_E, ONS].
  destruct S as [|x y].
  - exists X', Y', Z. refine (conj RX' (conj RY' (conj RZ _))). cbn [iso_map].
    unfold jac in EJ |- *. destruct (q2_dec Z z2); [reflexivity|discriminate].
  - destruct AF as [A|(AX & AY & AZ)]; [discriminate|].
    assert (EX : X = x) by (apply (rep2_fun (px P')); assumption). assert (EY : Y = y) by (apply (rep2_fun (py P')); assumption). subst x y.
    rewrite AZ, (I ONS). apply point1_rep; assumption.
Qed.
End Exact2.
