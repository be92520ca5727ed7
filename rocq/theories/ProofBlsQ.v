(** swu.go and isogeny.go compute the maps of RFC 9380. *)
From Coq Require Import ZArith List Bool Lia Znumtheory Ring Field.
From Verif Require Import Base ModelBlsF SpecBls ModelBls ProofBlsF ProofBlsE SpecBlsG BlsPrime ProofBlsG ProofBlsH Fp BlsFp2 BlsFrob ProofBlsI Weier Jac Group SpecBlsSig SpecBlsPair ProofBlsJ ProofBlsK BlsPrimes Mont63 BlsG2Gen ProofBlsL BlsExp SpecBlsMap ProofBlsN ProofBlsO IsoAlg.
Import ListNotations.
Local Open Scope Z_scope.
Add Field KFQ1 : Kp1.
Add Field KFQ2 : Kp2.

(** ** The constants *)
Definition chk1 (x : fe) (v : Z) : bool :=
  Nat.eqb (length x) 6 && forallb (fun w => (0 <=? w) && (w <? B64)) x && (bval x <? p) && (bval x =? ((v mod p) * bls_R) mod p).
Lemma chk1_rep x v : chk1 x v = true -> rep1 x (fp_of p v).
Proof.
  unfold chk1. rewrite !andb_true_iff. intros (((L & W) & B) & E). apply rep1_check; [|exact B|exact E].
  split; [apply Nat.eqb_eq, L|]. apply Forall_forall. intros w Hw. rewrite forallb_forall in W. specialize (W w Hw).
  apply andb_true_iff in W. destruct W as [W1 W2]. apply Z.leb_le in W1. apply Z.ltb_lt in W2. split; assumption.
Qed.
Lemma chk2_rep x a b : chk1 (fst x) a && chk1 (snd x) b = true -> rep2 x (q2 p a b).
Proof. rewrite andb_true_iff. intros [H1 H2]. split; apply chk1_rep; assumption. Qed.
Ltac chk := apply chk2_rep; vm_cast_no_check (@eq_refl bool true).
Lemma sa_rep : rep2 (sw_a swuG2) iso_A. Proof. unfold iso_A. chk. Qed.
Lemma sb_rep : rep2 (sw_b swuG2) iso_B. Proof. unfold iso_B. chk. Qed.
Lemma sz_rep : rep2 (sw_z swuG2) iso_Z. Proof. unfold iso_Z. chk. Qed.
(** zInv is 1/Z, m is -B/A *)
Definition zi := q2 p 0x53369fba51994854238bb2473dbef5e474b0f1a971a9d597b09c3b9caf0313a6c88cccc89dd99998b99666666665555 0xa66d3f74a33290a84717648e7b7debc8e961e352e353ab2f613877395e06274d911999913bb33331732ccccccccaaab.
Definition mi := q2 p 0x83c12791abdd5d2fe2f284f0cc6e5aa9b8c2d3f6f3f792302cf75e62bfc4df1d6834443da498888725d8cccccccb1c3 0x11c4ff711ec210c74cec7f673684c72cc8eb1e458445999c64615cbacab4a8324828bbbad70a777747a173333332f8e8.
Lemma si_rep : rep2 (sw_zInv swuG2) zi. Proof. unfold zi. chk. Qed.
Lemma sm_rep : rep2 (sw_m swuG2) mi. Proof. unfold mi. chk. Qed.
Lemma zi_eq : zi = q2_div o2 iso_Z.
Proof.
  assert (E : q2_mul zi iso_Z = o2) by (unfold zi, iso_Z; rewrite q2_mulz; apply q2_modz; vm_cast_no_check (@eq_refl bool true)).
  transitivity (q2_div (q2_mul zi iso_Z) iso_Z); [field; exact Z_ne|]. rewrite E. reflexivity.
Qed.
Lemma mi_eq : mi = q2_div (q2_opp iso_B) iso_A.
Proof.
  assert (E : q2_mul mi iso_A = q2_opp iso_B) by (unfold mi, iso_A, iso_B; rewrite q2_mulz, q2_oppz; apply q2_modz; vm_cast_no_check (@eq_refl bool true)).
  transitivity (q2_div (q2_mul mi iso_A) iso_A); [field; exact A_ne|]. rewrite E. reflexivity.
Qed.
(** what the code uses for u = 0 *)
Definition x1_zero : Fp2 := q2_div (q2_opp iso_B) (q2_mul iso_Z iso_A).
Definition code_x1 (u : Fp2) : Fp2 := if q2_dec u z2 then x1_zero else swu_x1 u.
Lemma x1_zero_eq : x1_zero = q2_mul zi mi.
Proof. unfold x1_zero. rewrite zi_eq, mi_eq. field. split; [exact A_ne|exact Z_ne]. Qed.
Definition xz := q2 p 0x185b749ecdc0557018456c7340bd7ee8788e75ab76dec752003a87d9544b4cf3c091bf2452787e4ad652b0a3d709ed84 0x4f0d7e2433eb37e9882b1c907aa89ccc3ba818c75f2e24834e2e056e730fb911a4ec28f1c92851eab04ee147ae13775.
Lemma xz_eq : x1_zero = xz.
Proof. rewrite x1_zero_eq. unfold zi, mi, xz. rewrite q2_mulz. apply q2_modz. vm_cast_no_check (@eq_refl bool true). Qed.
Lemma xz_sq : is_square (e1_rhs xz).
Proof.
  exists (q2 p 0x8dae6257f78bbac5ed7b4c325dbf07ddcaca21c2221030a750f308f65fc7912baf16620fd8027ae9a24d9da6a445ec 0x92fb71c174ac71ff9074d9180b31d67216888bbff1883ee779001f6a8061e351c4a2ba4f50aab97b1267d9819ba2f37).
  unfold e1_rhs, xz, iso_A, iso_B. repeat (rewrite ?q2_addz, ?q2_mulz). apply q2_modz. vm_cast_no_check (@eq_refl bool true).
Qed.
Definition xr := q2 p (-0x185b749ecdc0557018456c7340bd7ee8788e75ab76dec752003a87d9544b4cf3c091bf2452787e4ad652b0a3d709ed84) (-0x4f0d7e2433eb37e9882b1c907aa89ccc3ba818c75f2e24834e2e056e730fb911a4ec28f1c92851eab04ee147ae13775).
Lemma xr_eq : swu_x1 z2 = xr.
Proof.
  unfold swu_x1. destruct (q2_dec (swu_t z2) z2) as [_|N]; [|exfalso; apply N, t_zero; reflexivity].
  transitivity (q2_opp x1_zero); [unfold x1_zero; field; split; [exact A_ne|exact Z_ne]|]. rewrite xz_eq. unfold xz. rewrite q2_oppz. reflexivity.
Qed.
Lemma xr_sq : is_square (e1_rhs xr).
Proof.
  exists (q2 p 0x1776b5d3dd70bb2ac6e46be0849209c9c47853350da878bdc14a5042102f1f01cbc75043b8d13d709dd5ca27f92cb390 0x2c094c100c4f8a157767045bc04279dd04f207fbddc4de6675911b512cddacc0061215698453b5b11125516029e4d21).
  unfold e1_rhs, xr, iso_A, iso_B. repeat (rewrite ?q2_addz, ?q2_mulz). apply q2_modz. vm_cast_no_check (@eq_refl bool true).
Qed.

(** ** Signs *)
Lemma sgn_val (v : Z) : (Z.land v 1 =? 0) = negb (Z.odd v).
Proof. change 1 with (Z.ones 1). rewrite Z.land_ones by lia. change (2 ^ 1) with 2. rewrite (Zmod_odd v). destruct (Z.odd v); reflexivity. Qed.
Lemma nth0_odd l : fe6 l -> Z.odd (nth 0 l 0) = Z.odd (bval l).
Proof.
  intros [L _]. destruct l as [|a r]; [discriminate|]. cbn [nth bval]. rewrite Z.odd_add, Z.odd_mul.
  replace (Z.odd B64) with false by reflexivity. cbn [andb]. rewrite xorb_false_r. reflexivity.
Qed.
Lemma val0 (a : fp p) : a = f0 <-> fval a = 0.
Proof.
  split; [intros ->; rewrite fval_of; apply Zmod_0_l|]. intros E. rewrite <- (fp_of_val p a), E. reflexivity.
Qed.
Lemma sign2_rep F : exact_but_square F -> forall x a, rep2 x a -> fp2_sign F x = negb (sgn0 a).
Proof.
  intros HF x a [R0 R1]. unfold fp2_sign, sgn0.
  destruct (fromMont_val F HF _ _ R0) as [F0 V0]. destruct (fromMont_val F HF _ _ R1) as [F1 V1].
  rewrite (iszero_rep _ _ R0), !sgn_val, (nth0_odd _ F0), (nth0_odd _ F1), V0, V1.
  destruct (fp_dec (fst a) f0) as [E|E]; cbn [negb].
  - apply val0 in E. rewrite E. reflexivity.
  - destruct (Z.eqb_spec (fval (fst a)) 0) as [Z|_]; [exfalso; apply E, val0, Z|]. rewrite andb_false_l, orb_false_r. reflexivity.
Qed.
Lemma odd_neg (a : fp p) : a <> f0 -> fval (fp_opp a) = p - fval a /\ Z.odd (fval (fp_opp a)) = negb (Z.odd (fval a)).
Proof.
  intros N. assert (E : fval (fp_opp a) = p - fval a).
  { unfold fp_opp. rewrite fval_of. pose proof (fv_bound a) as B. assert (fval a <> 0) by (intros Z; apply N, val0, Z).
    rewrite <- (Z.mod_add (- fval a) 1 p) by lia. rewrite Z.mod_small; lia. }
  split; [exact E|]. rewrite E, Z.odd_sub. replace (Z.odd p) with true by (rewrite <- Z.negb_even, p_odd; reflexivity). destruct (Z.odd (fval a)); reflexivity.
Qed.
Lemma sgn0_neg (a : Fp2) : a <> z2 -> sgn0 (q2_opp a) = negb (sgn0 a).
Proof.
  intros N. unfold sgn0, q2_opp. cbn [fst snd]. destruct a as [a b]. cbn [fst snd].
  destruct (fp_dec a f0) as [E|E].
  - assert (NB : b <> f0) by (intros ->; apply N; rewrite E; reflexivity).
    destruct (odd_neg b NB) as [_ ->]. replace (fp_opp a) with f0 by (rewrite E; ring).
    rewrite (proj1 (val0 a) E), (proj1 (val0 f0) eq_refl). reflexivity.
  - destruct (odd_neg a E) as [V ->]. assert (fval a <> 0) by (intros Z; apply E, val0, Z). pose proof (fv_bound a).
    destruct (Z.eqb_spec (fval (fp_opp a)) 0) as [Z|_]; [lia|]. destruct (Z.eqb_spec (fval a) 0) as [Z|_]; [lia|].
    rewrite !andb_false_l, !orb_false_r. reflexivity.
Qed.

Section Exact.
Variable F : fbuild.
Hypothesis HF : exact_but_square F.
Hypothesis HS : forall x, sq_ok F x.
Lemma qnr_rep x a : rep2 x a -> fp2_isQNR F x = if fp_dec (chi (q2_norm a)) f1 then false else true.
Proof using HF HS.
  intros [R0 R1]. unfold fp2_isQNR, isQNR.
  assert (R : rep1 (f_add F (f_neg F (f_mul F (f_square F (snd x)) nonResidue1)) (f_square F (fst x))) (q2_norm a)).
  { replace (q2_norm a) with (fp_add (fp_opp (fp_mul (fp_mul (snd a) (snd a)) (fp_of p (-1)))) (fp_mul (fst a) (fst a))).
    - apply (add_rep F HF); [|apply (square_rep F HS), R0]. apply (neg_rep F HF). apply (mul_rep F HF); [apply (square_rep F HS), R1|exact m1_rep].
    - unfold q2_norm. change (-1) with (- (1)). rewrite fp_of_opp. ring. }
  set (n := q2_norm a) in *. clearbody n. set (y := f_add F _ _) in *. clearbody y.
  pose proof (exp_rep F HF y n R (Z.to_pos pMinus1Over2)) as E. rewrite exp12 in E. fold (chi n) in E.
  change (fexp F y pMinus1Over2) with (exp_pos F y (Z.to_pos pMinus1Over2)).
  rewrite (equal_rep _ _ _ _ E r1_rep). destruct (fp_dec (chi n) f1); reflexivity.
Qed.
Lemma inv2_rep x a : rep2 x a -> a <> z2 -> rep2 (fp2_inverse F x) (q2_div o2 a).
Proof using HF HS. apply (inverse2_rep F HF); apply HS. Qed.
Lemma inv2_zero x : rep2 x z2 -> rep2 (fp2_inverse F x) z2.
Proof using HF HS.
  intros [R0 R1]. cbn [fst snd q2] in R0, R1. unfold fp2_inverse.
  assert (R : rep1 (f_add F (f_square F (fst x)) (f_square F (snd x))) f0).
  { replace f0 with (fp_add (fp_mul f0 f0) (fp_mul f0 f0)) by ring. apply (add_rep F HF); apply (square_rep F HS); assumption. }
  set (n := f_add F _ _) in *. clearbody n.
  assert (E : inverse F n = fb_zero).
  { unfold inverse. rewrite (iszero_rep _ _ R). destruct (fp_dec f0 f0) as [_|N]; [reflexivity|congruence]. }
  rewrite E. split; cbn [fst snd q2].
  - replace f0 with (fp_mul f0 f0) by ring. apply (mul_rep F HF); [exact R0|exact zero_rep].
  - replace f0 with (fp_opp (fp_mul f0 f0)) by ring. apply (neg_rep F HF). apply (mul_rep F HF); [exact zero_rep|exact R1].
Qed.

Theorem swu_rep U u : rep2 U u -> exists x y X Y, swuMapG2 F U = (x, y) /\ rep2 x X /\ rep2 y Y /\
  swu_point u (code_x1 u) (Weier.Aff _ X Y) /\ e1_on (Weier.Aff _ X Y).
Proof using HF HS.
  intros RU. unfold swuMapG2, swuMap. cbn [C2 ModelBls.c_mul ModelBls.c_square ModelBls.c_inverse ModelBls.c_add ModelBls.c_isZero c_one c_sqrt c_neg].
  pose proof (mul2_rep F HF _ _ _ _ (square2_rep F HF _ _ RU) sz_rep) as T0.
  set (s := q2_mul (q2_mul u u) iso_Z) in T0.
  set (tv0 := fp2_mul F (fp2_square F U) (sw_z swuG2)) in *. clearbody tv0.
  pose proof (square2_rep F HF _ _ T0) as T1. set (tv1 := fp2_square F tv0) in *. clearbody tv1.
  pose proof (add2_rep F HF _ _ _ _ T0 T1) as TT.
  assert (Es : s = q2_mul iso_Z (q2_mul u u)) by (unfold s; ring).
  assert (Et : q2_add s (q2_mul s s) = swu_t u) by (unfold swu_t; rewrite Es; ring). rewrite Et in TT.
  cbv zeta.
  (* the first candidate *)
  set (I := fp2_inverse F (fp2_add F tv0 tv1)).
  assert (X1 : rep2 (fp2_mul F (if fp2_isZero I then sw_zInv swuG2 else fp2_add F I fp2_one) (sw_m swuG2)) (code_x1 u)).
  { unfold code_x1. destruct (q2_dec u z2) as [E|N].
    - rewrite E, (proj2 (t_zero z2) eq_refl) in TT. pose proof (inv2_zero _ TT) as RI. fold I in RI.
      rewrite (iszero2_rep _ _ RI). destruct (q2_dec z2 z2) as [_|N]; [|congruence]. rewrite x1_zero_eq.
      apply (mul2_rep F HF); [exact si_rep|exact sm_rep].
    - assert (NT : swu_t u <> z2) by (rewrite t_zero; exact N). pose proof (inv2_rep _ _ TT NT) as RI. fold I in RI.
      rewrite (iszero2_rep _ _ RI). destruct (q2_dec (q2_div o2 (swu_t u)) z2) as [Z|_].
      { exfalso. pose proof (F_1_neq_0 Kp2) as N1. apply N1. transitivity (q2_mul (q2_div o2 (swu_t u)) (swu_t u)); [field; exact NT|]. rewrite Z. ring. }
      unfold swu_x1. destruct (q2_dec (swu_t u) z2) as [Z|_]; [contradiction|]. rewrite <- mi_eq.
      replace (q2_mul mi (q2_add o2 (q2_div o2 (swu_t u)))) with (q2_mul (q2_add (q2_div o2 (swu_t u)) o2) mi) by ring.
      apply (mul2_rep F HF); [|exact sm_rep]. apply (add2_rep F HF); [exact RI|exact one2_rep]. }
  set (x1 := fp2_mul F (if fp2_isZero I then _ else _) _) in *. clearbody x1. clear I.
  set (a1 := code_x1 u) in *.
  assert (G1 : rep2 (fp2_add F (fp2_mul F (fp2_add F (fp2_square F x1) (sw_a swuG2)) x1) (sw_b swuG2)) (e1_rhs a1)).
  { unfold e1_rhs. replace (q2_add (q2_add (q2_mul (q2_mul a1 a1) a1) (q2_mul iso_A a1)) iso_B) with (q2_add (q2_mul (q2_add (q2_mul a1 a1) iso_A) a1) iso_B) by ring.
    apply (add2_rep F HF); [|exact sb_rep]. apply (mul2_rep F HF); [|exact X1]. apply (add2_rep F HF); [apply (square2_rep F HF), X1|exact sa_rep]. }
  set (gx1 := fp2_add F (fp2_mul F _ x1) _) in *. clearbody gx1.
  pose proof (mul2_rep F HF _ _ _ _ T0 X1) as X2. set (x2 := fp2_mul F tv0 x1) in *. clearbody x2.
  pose proof (mul2_rep F HF _ _ _ _ G1 (mul2_rep F HF _ _ _ _ T0 T1)) as G2. set (gx2 := fp2_mul F gx1 _) in *. clearbody gx2.
  rewrite (qnr_rep _ _ G1).
  assert (FIN : forall x y2 X, rep2 x X -> rep2 y2 (e1_rhs X) -> is_square (e1_rhs X) ->
    ((is_square (e1_rhs a1) /\ X = a1) \/ (~ is_square (e1_rhs a1) /\ X = swu_x2 u a1)) ->
    exists x' y X Y, (x, if negb (Bool.eqb (fp2_sign F (fst (fp2_sqrt F y2))) (fp2_sign F U)) then fp2_neg F (fst (fp2_sqrt F y2)) else fst (fp2_sqrt F y2)) = (x', y) /\
      rep2 x' X /\ rep2 y Y /\ swu_point u a1 (Weier.Aff _ X Y) /\ e1_on (Weier.Aff _ X Y)).
  { clear - HF RU. intros x y2 X RX RY SQ CH. destruct (sqrt2_rep F HF y2 _ RY) as [S1 S2]. specialize (S2 SQ).
    destruct (fp2_sqrt F y2) as [y ok]. cbn [fst snd] in *. subst ok. destruct (S1 y eq_refl) as (b & Rb & Eb).
    assert (NB : b <> z2) by (apply (e1_y X), Eb).
    rewrite (sign2_rep F HF _ _ Rb), (sign2_rep F HF _ _ RU).
    exists x, (if negb (Bool.eqb (negb (sgn0 b)) (negb (sgn0 u))) then fp2_neg F y else y), X, (if Bool.eqb (sgn0 b) (sgn0 u) then b else q2_opp b).
    assert (EY : q2_mul (if Bool.eqb (sgn0 b) (sgn0 u) then b else q2_opp b) (if Bool.eqb (sgn0 b) (sgn0 u) then b else q2_opp b) = e1_rhs X).
    { destruct (Bool.eqb (sgn0 b) (sgn0 u)); rewrite <- Eb; ring. }
    refine (conj eq_refl (conj RX (conj _ (conj _ EY)))).
    - destruct (sgn0 b), (sgn0 u); cbn [negb Bool.eqb]; try exact Rb; apply (neg2_rep F HF), Rb.
    - exists X, (if Bool.eqb (sgn0 b) (sgn0 u) then b else q2_opp b). refine (conj eq_refl (conj CH (conj EY _))).
      pose proof (sgn0_neg b NB) as SN. destruct (sgn0 b) eqn:E, (sgn0 u) eqn:E'; cbn [Bool.eqb]; rewrite ?SN, ?E; reflexivity. }
  destruct (fp_dec (chi (q2_norm (e1_rhs a1))) f1) as [C|C]; cbn [negb].
  - assert (SQ : is_square (e1_rhs a1)) by (apply square_norm; [apply rhs_ne|exact C]).
    apply (FIN x1 gx1 a1 X1 G1 SQ). left. split; [exact SQ|reflexivity].
  - assert (SQ : ~ is_square (e1_rhs a1)) by (rewrite square_norm; [exact C|apply rhs_ne]).
    assert (NU : u <> z2).
    { intros E. apply SQ. unfold a1, code_x1. destruct (q2_dec u z2) as [_|N]; [|contradiction]. rewrite xz_eq. exact xz_sq. }
    assert (EA : a1 = swu_x1 u) by (unfold a1, code_x1; destruct (q2_dec u z2); [contradiction|reflexivity]).
    assert (E2 : q2_mul s a1 = swu_x2 u a1) by (unfold swu_x2; rewrite Es; reflexivity).
    apply (FIN x2 gx2 (swu_x2 u a1)).
    + rewrite <- E2. exact X2.
    + rewrite EA. rewrite (rhs_x2 u NU), <- EA, <- Es. replace (q2_mul (q2_mul (q2_mul s s) s) (e1_rhs a1)) with (q2_mul (e1_rhs a1) (q2_mul s (q2_mul s s))) by ring. exact G2.
    + rewrite EA. apply (x2_square u NU). rewrite <- EA. exact SQ.
    + right. split; [exact SQ|reflexivity].
Qed.
End Exact.
