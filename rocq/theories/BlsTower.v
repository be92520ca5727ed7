(** The field of p^12 elements of the BLS12-381 pairing:
    F_p(i)[v]/(v^3 - (1 + i))[w]/(w^2 - v). *)
From Coq Require Import ZArith List Bool Lia Znumtheory Ring Field.
From Verif Require Import Base ModelBlsF SpecBls ModelBls ProofBlsF ProofBlsE SpecBlsG BlsPrime ProofBlsH Fp BlsFp2 BlsFrob ProofBlsI Weier Group SpecBlsSig ProofBlsJ ProofBlsK BlsPrimes Mont63 BlsG2Gen ProofBlsL BlsExp SpecBlsMap ProofBlsN IsoAlg ProofBlsO SpecBlsGT.
From Verif Require Tower.
Local Open Scope Z_scope.
Add Field KFU1 : Kp1.
Add Field KFU2 : Kp2.
Lemma chi_2 : chi (fp_of p 2) = fp_opp f1.
Proof.
  rewrite (pow_chi 2 (p - 1)).
  - replace (p - 1) with (-1 + 1 * p) by ring. rewrite <- fp_of_opp. apply fp_of_eq. apply Z_mod_plus_full.
  - vm_cast_no_check (@eq_refl (option Z) (Some (p - 1))).
Qed.
Lemma xi_nosq s : q2_mul s s <> xi.
Proof. intros E. apply (chi_nonsq xi); [|exists s; exact E]. unfold xi. rewrite normz. exact chi_2. Qed.
Lemma norm_mul (a b : Fp2) : q2_norm (q2_mul a b) = fp_mul (q2_norm a) (q2_norm b).
Proof. unfold q2_norm, q2_mul. cbn [fst snd]. ring. Qed.
Lemma cube32 (t : fp p) : fp_mul (fp_mul t t) t <> fp_of p 2.
Proof.
  intros E. set (s := fp_mul (fp_mul t t) (fp_mul (fp_mul t t) t)).
  assert (S3 : fp_mul (fp_mul s s) s = fp_of p 32).
  { change 32 with (2 * 2 * 2 * 2 * 2). rewrite !fp_of_mul, <- E. unfold s. ring. }
  apply (no_cube (fval s)). rewrite <- (fp_of_val p s) in S3. rewrite <- !fp_of_mul in S3. apply (f_equal fval) in S3. rewrite !fval_of in S3.
  replace (fval s ^ 3) with (fval s * fval s * fval s) by ring. exact S3.
Qed.
Lemma xi_nocube s : q2_mul (q2_mul s s) s <> xi.
Proof.
  intros E. apply (f_equal q2_norm) in E. rewrite !norm_mul in E. unfold xi in E. rewrite normz in E. exact (cube32 _ E).
Qed.
Lemma K6 : field_theory Z6 O6 Add6 Mul6 Sub6 Opp6 Div6 Inv6 (@eq F6).
Proof. exact (Tower.T6field _ _ _ _ _ _ _ _ _ Kp2 q2_dec xi xi_nocube). Qed.
Lemma K12 : field_theory Z12 O12 Add12 Mul12 Sub12 Opp12 Div12 Inv12 (@eq F12).
Proof. exact (Tower.T12field _ _ _ _ _ _ _ _ _ Kp2 q2_dec xi xi_nocube xi_nosq). Qed.
