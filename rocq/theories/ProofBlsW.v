(** The square on the cyclotomic subgroup and the final exponentiation. *)
From Coq Require Import ZArith List Bool Lia Znumtheory Ring Field.
From Verif Require Import Base ModelBlsF SpecBls ModelBls ProofBlsF ProofBlsE SpecBlsG BlsPrime ProofBlsH Fp BlsFp2 BlsFrob ProofBlsI Weier Group SpecBlsSig ProofBlsJ ProofBlsK SpecBlsMap ProofBlsO ProofBlsQ SpecBlsGT BlsTower ModelBlsGT ProofBlsU ProofBlsV.
From Verif Require Tower Group.
Import ListNotations.
Local Open Scope Z_scope.
Add Field KFX1 : Kp1.
Add Field KFX2 : Kp2.
Add Field KFX6 : K6.
Add Field KFX12 : K12.
Local Infix "*'" := q2_mul (at level 40, left associativity).
Local Infix "+'" := q2_add (at level 50, left associativity).
Local Infix "-'" := q2_sub (at level 50, left associativity).
(** the condition of Granger and Scott *)
Definition cyc_ok (a : F12) : Prop := Mul12 (phi (phi (phi (phi a)))) a = phi (phi a).
Lemma phi4_f a : phi (phi (phi (phi a))) = fm (fun x => x) (nv *' nv) a.
Proof. etransitivity; [exact (phi2_f (phi (phi a)))|]. rewrite (phi2_f a), fm_fm by reflexivity. reflexivity. Qed.
Lemma cyc_gen (w : Fp2) (a : F12) : w *' w = w -' oo2 -> Mul12 (fm (fun x => x) (w *' w) a) a = fm (fun x => x) w a -> cyc a = Mul12 a a.
Proof.
  intros w2 H. destruct a as [[a0 a2 a4] [a1 a3 a5]].
  pose proof (f_equal (fun t => A0 (B0 t)) H) as H0. pose proof (f_equal (fun t => A0 (B1 t)) H) as H1.
  pose proof (f_equal (fun t => A1 (B0 t)) H) as H2. pose proof (f_equal (fun t => A1 (B1 t)) H) as H3.
  pose proof (f_equal (fun t => A2 (B0 t)) H) as H4. pose proof (f_equal (fun t => A2 (B1 t)) H) as H5.
  clear H. unfold fm in *. cbn [Tower.mul12 Tower.add12 Tower.mul6 Tower.add6 Tower.v6 Tower.a0 Tower.a1 Tower.a2 Tower.b0 Tower.b1] in *.
  assert (E0 : a0 *' a0 +' xi *' (a3 *' a3) -' xi *' (a1 *' a5 +' a2 *' a4) = a0).
  { etransitivity; [|etransitivity; [exact H0|]]; clear - w2; ring [w2]. }
  assert (w5 : (oo2 -' w) *' w = oo2) by (clear - w2; ring [w2]).
  assert (E1 : a0 *' a1 +' xi *' (a3 *' a4) -' (xi *' (a2 *' a5) +' xi *' (a2 *' a5)) = a1).
  { etransitivity; [|etransitivity; [exact (f_equal (q2_mul (oo2 -' w)) H1)|]]; clear - w2; ring [w2]. }
  assert (E2 : a1 *' a1 +' xi *' (a4 *' a4) -' (a0 *' a2 +' xi *' (a3 *' a5)) = a2).
  { etransitivity; [|etransitivity; [exact (f_equal (q2_mul (q2_opp w)) H2)|]]; clear - w2; ring [w2]. }
  assert (E3 : a1 *' a2 +' xi *' (a4 *' a5) -' (a0 *' a3 +' a0 *' a3) = a3).
  { etransitivity; [|etransitivity; [exact (f_equal q2_opp H3)|]]; clear - w2; ring [w2]. }
  assert (E4 : a2 *' a2 +' xi *' (a5 *' a5) -' (a0 *' a4 +' a1 *' a3) = a4).
  { etransitivity; [|etransitivity; [exact (f_equal (q2_mul (w -' oo2)) H4)|]]; clear - w2; ring [w2]. }
  assert (E5 : a0 *' a5 +' a2 *' a3 -' (a1 *' a4 +' a1 *' a4) = a5).
  { etransitivity; [|etransitivity; [exact (f_equal (q2_mul w) H5)|]]; clear - w2; ring [w2]. }
  clear H0 H1 H2 H3 H4 H5 w2 w5.
  unfold cyc, tri, tra, sqa, sqb. apply Tower.t12_ext; apply Tower.t6_ext;
    cbn [Tower.mul12 Tower.add12 Tower.mul6 Tower.add6 Tower.v6 Tower.a0 Tower.a1 Tower.a2 Tower.b0 Tower.b1].
  - match type of E0 with ?P = ?a => match goal with |- ?t -' (a +' a) = _ => transitivity (t -' (P +' P)); [rewrite E0; reflexivity|clear; ring] end end.
  - match type of E2 with ?P = ?a => match goal with |- ?t -' (a +' a) = _ => transitivity (t -' (P +' P)); [rewrite E2; reflexivity|clear; ring] end end.
  - match type of E4 with ?P = ?a => match goal with |- ?t -' (a +' a) = _ => transitivity (t -' (P +' P)); [rewrite E4; reflexivity|clear; ring] end end.
  - match type of E1 with ?P = ?a => match goal with |- ?t +' (a +' a) = _ => transitivity (t +' (P +' P)); [rewrite E1; reflexivity|clear; ring] end end.
  - match type of E3 with ?P = ?a => match goal with |- ?t +' (a +' a) = _ => transitivity (t +' (P +' P)); [rewrite E3; reflexivity|clear; ring] end end.
  - match type of E5 with ?P = ?a => match goal with |- ?t +' (a +' a) = _ => transitivity (t +' (P +' P)); [rewrite E5; reflexivity|clear; ring] end end.
Qed.
Lemma cyc_sq a : cyc_ok a -> cyc a = Mul12 a a.
Proof.
  intros H. apply (cyc_gen nv a nv2). unfold cyc_ok in H. rewrite phi4_f, phi2_f in H. exact H.
Qed.

(** ** Powers *)
Definition unit12 (a : F12) : Prop := a <> Z12.
Lemma int12 a b : Mul12 a b = Z12 -> a = Z12 \/ b = Z12.
Proof. exact (k_int F12 _ _ _ _ _ _ _ _ K12 F12_dec a b). Qed.
Lemma one_ne : O12 <> Z12. Proof. exact (F_1_neq_0 K12). Qed.
Lemma inv_l a : unit12 a -> Mul12 (Inv12 a) a = O12. Proof. exact (Finv_l K12 a). Qed.
Lemma GM : Group.is_group F12 O12 Mul12 Inv12 unit12.
Proof.
  split.
  - exact one_ne.
  - intros a b A B E. apply int12 in E. destruct E; auto.
  - intros a A E. apply one_ne. rewrite <- (inv_l a A), E. ring.
  - intros a b c _ _ _. ring.
  - intros a b _ _. ring.
  - intros a _. ring.
  - intros a A. transitivity (Mul12 (Inv12 a) a); [ring|]. apply inv_l, A.
Qed.
Lemma zp_pw n a : zp (Z.of_nat n) a = pw12 a n.
Proof.
  unfold zp. destruct n as [|n]; [reflexivity|]. cbn [Z.of_nat Group.zmul]. rewrite Pos2Nat.inj_iter, SuccNat2Pos.id_succ.
  generalize (S n) as m. clear n. induction m as [|m IH]; [reflexivity|]. cbn [Nat.iter pw nat_rect]. f_equal. exact IH.
Qed.
Lemma zp_pos s a : zp (Zpos s) a = pw12 a (Pos.to_nat s).
Proof. rewrite <- zp_pw, positive_nat_Z. reflexivity. Qed.
Lemma phi_zp a : phi a = zp p a.
Proof. unfold phi. rewrite <- zp_pw, (pn p bls_p_prime). reflexivity. Qed.
Lemma phi_0 : phi Z12 = Z12.
Proof. apply (pw_0 F12 _ _ _ _ _ _ _ _ K12). pose proof pN2. lia. Qed.
Lemma zp_zp j k a : unit12 a -> zp j (zp k a) = zp (j * k) a.
Proof. intros U. symmetry. exact (Group.zmul_mul _ _ _ _ _ GM j k a U). Qed.
Lemma zp_mul j k a : unit12 a -> Mul12 (zp j a) (zp k a) = zp (j + k) a.
Proof. intros U. symmetry. exact (Group.zmul_add _ _ _ _ _ GM j k a U). Qed.
Lemma zp_unit k a : unit12 a -> unit12 (zp k a).
Proof. exact (Group.zmul_ok _ _ _ _ _ GM k a). Qed.
Lemma zp_inv k a : unit12 a -> Inv12 (zp k a) = zp (- k) a.
Proof. intros U. symmetry. exact (Group.zmul_neg _ _ _ _ _ GM k a U). Qed.
Lemma zp_1 a : unit12 a -> zp 1 a = a.
Proof. exact (Group.zmul_1 _ _ _ _ _ GM a). Qed.
Lemma phi_zk k a : unit12 a -> phi (zp k a) = zp (p * k) a.
Proof. intros U. rewrite phi_zp. apply zp_zp, U. Qed.
Lemma conj_zk k a : unit12 a -> Conj12 (zp k a) = zp (p ^ 6 * k) a.
Proof.
  intros U. transitivity (phi (phi (phi (phi (phi (phi (zp k a))))))); [symmetry; apply phi6_f|].
  rewrite !phi_zk by exact U. apply (f_equal (fun t => zp t a)). ring.
Qed.
Definition qm : Z := p ^ 12 - 1.
Theorem order12 a : unit12 a -> zp qm a = O12.
Proof.
  intros U. assert (E : zp (p ^ 12) a = a).
  { transitivity (Conj12 (Conj12 a)); [|exact (Tower.conj_conj _ _ _ _ _ _ _ _ _ Kp2 q2_dec xi xi_nocube a)]. rewrite <- (zp_1 a U) at 2.
    rewrite (conj_zk _ a U), (conj_zk _ a U). apply (f_equal (fun t => zp t a)). ring. }
  unfold qm. transitivity (Mul12 (zp (p ^ 12) a) (zp (- (1)) a)); [symmetry; exact (zp_mul _ _ a U)|].
  rewrite E, <- zp_inv, (zp_1 a U) by exact U. transitivity (Mul12 (Inv12 a) a); [ring|]. apply inv_l, U.
Qed.
Lemma zp_congr j k d a : unit12 a -> j = k + d * qm -> zp j a = zp k a.
Proof.
  intros U ->. rewrite <- zp_mul, <- (zp_zp d qm a U), (order12 a U) by exact U.
  assert (E : zp d O12 = O12) by exact (Group.zmul_zero _ _ _ _ _ GM d). rewrite E. ring.
Qed.

Local Opaque phi zp bls_p.
Lemma cyc_1 : cyc_ok O12. Proof. unfold cyc_ok. rewrite !phi_1. ring. Qed.
Lemma cyc_0 : cyc_ok Z12. Proof. unfold cyc_ok. rewrite !phi_0. ring. Qed.
Lemma hom4 (f : F12 -> F12) : (forall a b, f (Mul12 a b) = Mul12 (f a) (f b)) -> forall a b,
  Mul12 (f (f (f (f a)))) a = f (f a) -> Mul12 (f (f (f (f b)))) b = f (f b) -> Mul12 (f (f (f (f (Mul12 a b))))) (Mul12 a b) = f (f (Mul12 a b)).
Proof. intros M a b A B. rewrite !M. transitivity (Mul12 (Mul12 (f (f (f (f a)))) a) (Mul12 (f (f (f (f b)))) b)); [ring|]. rewrite A, B. reflexivity. Qed.
Lemma cyc_mul a b : cyc_ok a -> cyc_ok b -> cyc_ok (Mul12 a b).
Proof. exact (hom4 phi phi_mul a b). Qed.
Definition cf : Z := (p ^ 6 - 1) * (p ^ 2 + 1).
Lemma cyc_unit k a : unit12 a -> cyc_ok (zp (cf * k) a).
Proof.
  intros U. unfold cyc_ok. set (m := cf * k). rewrite (phi_zk m a U), (phi_zk (p * m) a U), (phi_zk (p * (p * m)) a U), (phi_zk (p * (p * (p * m))) a U).
  rewrite (zp_mul (p * (p * (p * (p * m)))) m a U). refine (zp_congr _ _ k a U _). unfold m, cf, qm. ring.
Qed.
Lemma lin1 c j k : c * j + c * k = c * (j + k). Proof. ring. Qed.
Lemma lin2 c j k : j * (c * k) = c * (j * k). Proof. ring. Qed.
(** *** The code *)
Section Code.
Variable F : fbuild.
Hypothesis HF : exact_but_square F.
Lemma cycsq_rep x a : cyc_ok a -> rep12 x a -> rep12 (fp12_cyclotomicSquare F x) (Mul12 a a).
Proof using HF. intros C H. rewrite <- (cyc_sq a C). apply (cyc_rep F HF), H. Qed.
Theorem cycexp_rep x a s : cyc_ok a -> 0 <= s -> rep12 x a -> rep12 (fp12_cyclotomicExp F x s) (zp s a).
Proof using HF.
  intros C S H. destruct s as [|s|s]; [exact one12_rep| |lia]. rewrite zp_pos. cbn [fp12_cyclotomicExp].
  apply (exp12_rep F HF _ cyc_ok cycsq_rep cyc_1 cyc_mul x a C H s).
Qed.
Theorem exp12_zp x a s : 0 <= s -> rep12 x a -> rep12 (fp12_exp F x s) (zp s a).
Proof using HF.
  intros S H. destruct s as [|s|s]; [exact one12_rep| |lia]. rewrite zp_pos. cbn [fp12_exp].
  refine (proj1 (exp12_rep F HF _ (fun _ => True) _ I (fun _ _ _ _ => I) x a I H s)). intros y b _ Y. apply (square12_rep F HF), Y.
Qed.
Lemma pexp_rep x a : cyc_ok a -> rep12 x a -> rep12 (pexp F x) (Conj12 (zp x_abs a)).
Proof using HF. intros C H. unfold pexp. apply (conj12_rep F HF), cycexp_rep; [exact C|discriminate|exact H]. Qed.
Section Unit.
Variable f : F12.
Hypothesis Uf : unit12 f.
Definition R (k : Z) (x : fe12) : Prop := rep12 x (zp k f).
Definition C (k : Z) (x : fe12) : Prop := R (cf * k) x.
Lemma R_eq j k x : R j x -> j = k -> R k x. Proof using. intros H <-. exact H. Qed.
Lemma C_eq j k x : C j x -> j = k -> C k x. Proof using. intros H <-. exact H. Qed.
Lemma R_mul j k x y : R j x -> R k y -> R (j + k) (fp12_mul F x y).
Proof using HF Uf. intros H G. unfold R. rewrite <- (zp_mul _ _ f Uf). apply (mul12_rep F HF); assumption. Qed.
Lemma C_mul j k x y : C j x -> C k y -> C (j + k) (fp12_mul F x y).
Proof using HF Uf. intros H G. exact (R_eq _ _ _ (R_mul _ _ _ _ H G) (lin1 cf j k)). Qed.
Lemma R_f2 k x : R k x -> R (p * (p * k)) (fp12_frobeniusMapAssign F x 2).
Proof using HF Uf. intros H. unfold R. rewrite <- !(phi_zk _ f Uf). apply (frob2_rep F HF), H. Qed.
Lemma C_f1 k x : C k x -> C (p * k) (fp12_frobeniusMapAssign F x 1).
Proof using HF Uf. intros H. apply (R_eq (p * (cf * k))); [|ring]. unfold R. rewrite <- !(phi_zk _ f Uf). apply (frob1_rep F HF), H. Qed.
Lemma C_f2 k x : C k x -> C (p * (p * k)) (fp12_frobeniusMapAssign F x 2).
Proof using HF Uf. intros H. apply (R_eq (p * (p * (cf * k)))); [|ring]. apply R_f2, H. Qed.
Lemma C_f3 k x : C k x -> C (p * (p * (p * k))) (fp12_frobeniusMapAssign F x 3).
Proof using HF Uf. intros H. apply (R_eq (p * (p * (p * (cf * k))))); [|ring]. unfold R. rewrite <- !(phi_zk _ f Uf). apply (frob3_rep F HF), H. Qed.
Lemma conj_c k : Conj12 (zp (cf * k) f) = zp (cf * - k) f.
Proof using Uf. rewrite (conj_zk _ f Uf). apply (zp_congr _ _ (k * (p ^ 2 + 1)) f Uf). unfold cf, qm. ring. Qed.
Lemma C_conj k x : C k x -> C (- k) (fp12_conjugate F x).
Proof using HF Uf. intros H. unfold C, R. rewrite <- conj_c. apply (conj12_rep F HF), H. Qed.
Lemma C_cyc k x : C k x -> C (2 * k) (fp12_cyclotomicSquare F x).
Proof using HF Uf.
  intros H. apply (R_eq (cf * k + cf * k)); [|ring]. unfold R. rewrite <- (zp_mul _ _ f Uf). apply cycsq_rep; [apply cyc_unit, Uf|exact H].
Qed.
Lemma C_pexp k x : C k x -> C (- x_abs * k) (pexp F x).
Proof using HF Uf.
  intros H. pose proof (pexp_rep _ _ (cyc_unit k f Uf) H) as P. rewrite (zp_zp _ _ f Uf) in P.
  replace (x_abs * (cf * k)) with (cf * (x_abs * k)) in P by ring. rewrite conj_c in P. eapply C_eq; [exact P|]. ring.
Qed.
End Unit.
End Code.
Lemma cf_def : cf = (p ^ 6 - 1) * (p ^ 2 + 1). Proof. reflexivity. Qed.
Local Opaque cf.
(** the exponent of the hard part *)
Definition ef : Z := let u := - x_abs in
  (u ^ 2 - 2 * u + 1) * p ^ 3 + (u ^ 3 - 2 * u ^ 2 + u) * p ^ 2 + (u ^ 4 - 2 * u ^ 3 + 2 * u - 1) * p + (u ^ 5 - 2 * u ^ 4 + 2 * u ^ 2 - u + 3).
Lemma ef_r : ef * bls_r = 3 * (p ^ 4 - p ^ 2 + 1).
Proof. Local Transparent bls_p. vm_cast_no_check (@eq_refl Z (3 * (p ^ 4 - p ^ 2 + 1))). Qed.
Local Opaque bls_p.
(** the whole exponent *)
Definition E_final : Z := 3 * ((p ^ 12 - 1) / bls_r).
Lemma r_3 : 0 < bls_r /\ rel_prime bls_r 3.
Proof.
  split; [reflexivity|]. apply rel_prime_sym, prime_rel_prime; [exact prime_3|]. intros [k E].
  assert (X : bls_r mod 3 = 0) by (rewrite E; apply Z_mod_mult). revert X. vm_compute. discriminate.
Qed.
Lemma cf_ef : cf * ef = E_final.
Proof.
  pose proof ef_r as E. destruct r_3 as [RP R3].
  assert (T : (cf * ef) * bls_r = 3 * (p ^ 12 - 1)) by (transitivity (cf * (ef * bls_r)); [ring|rewrite E; rewrite cf_def; ring]).
  unfold E_final. set (a := cf * ef) in *. set (b := p ^ 12 - 1) in *. clearbody a b. revert RP R3 T. generalize bls_r. clear. intros r RP R3 T.
  assert (D : (r | b)). { apply (Gauss r 3 b); [exists a; rewrite <- T; ring|exact R3]. }
  destruct D as [d ->]. rewrite Z.div_mul by lia. apply (Z.mul_reg_r _ _ r); [lia|]. rewrite T. ring.
Qed.
Section Final.
Variable F : fbuild.
Hypothesis HF : exact_but_square F.
Hypothesis HS : forall x, sq_ok F x.
Lemma final_unit x f : unit12 f -> rep12 x f -> rep12 (finalExp F x) (zp E_final f).
Proof using HF HS.
  intros U H. rewrite <- cf_ef. change (C f ef (finalExp F x)). unfold finalExp. cbv zeta.
  set (i0 := fp12_mul F (fp12_frobeniusMapAssign F x 6) (fp12_inverse F x)). set (t2 := fp12_mul F (fp12_frobeniusMapAssign F i0 2) i0).
  assert (T2 : C f 1 t2).
  { unfold C, t2. assert (I : R f (p ^ 6 + - (1)) i0).
    { apply (R_mul F HF f U); unfold R.
      - replace (p ^ 6) with (p ^ 6 * 1) by ring. rewrite <- (conj_zk 1 f U), (zp_1 f U). apply (frob6_rep F HF), H.
      - rewrite <- (zp_inv 1 f U), (zp_1 f U). apply (inv12_rep F HF HS); assumption. }
    eapply R_eq; [apply (R_mul F HF f U); [apply (R_f2 F HF f U), I|exact I]|]. rewrite cf_def. ring. }
  clearbody t2. clear i0 H.
  eapply C_eq; [repeat (match goal with
    | |- C _ _ (fp12_mul _ _ _) => eapply (C_mul F HF f U)
    | |- C _ _ (fp12_frobeniusMapAssign _ _ 1) => eapply (C_f1 F HF f U)
    | |- C _ _ (fp12_frobeniusMapAssign _ _ 2) => eapply (C_f2 F HF f U)
    | |- C _ _ (fp12_frobeniusMapAssign _ _ 3) => eapply (C_f3 F HF f U)
    | |- C _ _ (fp12_conjugate _ _) => eapply (C_conj F HF f U)
    | |- C _ _ (fp12_cyclotomicSquare _ _) => eapply (C_cyc F HF f U)
    | |- C _ _ (pexp _ _) => eapply (C_pexp F HF f U)
    | |- _ => exact T2 end)|]. unfold ef. generalize p x_abs. clear. intros p u. cbv zeta. ring.
Qed.
Lemma zp_0 s : zp (Zpos s) Z12 = Z12.
Proof using. rewrite zp_pos. apply (pw_0 F12 _ _ _ _ _ _ _ _ K12). pose proof (Pos2Nat.is_pos s). lia. Qed.
Lemma final_zero x : rep12 x Z12 -> rep12 (finalExp F x) Z12.
Proof using HF HS.
  pose (Q := fun y => rep12 y Z12). intros H. change (Q x) in H. change (Q (finalExp F x)).
  assert (QM : forall y z, Q y -> Q z -> Q (fp12_mul F y z)).
  { intros y z Y Z. unfold Q. eapply rep12_conv; [apply (mul12_rep F HF); [exact Y|exact Z]|]. ring. }
  assert (QC : forall y, Q y -> Q (fp12_conjugate F y)).
  { intros y Y. unfold Q. eapply rep12_conv; [apply (conj12_rep F HF), Y|]. rewrite <- (phi6_f Z12), !phi_0. reflexivity. }
  assert (QI : forall y, Q y -> Q (fp12_inverse F y)) by (intros y Y; apply (inv12_zero F HF HS), Y).
  assert (Q1 : forall y, Q y -> Q (fp12_frobeniusMapAssign F y 1)).
  { intros y Y. unfold Q. eapply rep12_conv; [apply (frob1_rep F HF), Y|]. rewrite !phi_0. reflexivity. }
  assert (Q2 : forall y, Q y -> Q (fp12_frobeniusMapAssign F y 2)).
  { intros y Y. unfold Q. eapply rep12_conv; [apply (frob2_rep F HF), Y|]. rewrite !phi_0. reflexivity. }
  assert (Q3 : forall y, Q y -> Q (fp12_frobeniusMapAssign F y 3)).
  { intros y Y. unfold Q. eapply rep12_conv; [apply (frob3_rep F HF), Y|]. rewrite !phi_0. reflexivity. }
  assert (Q6 : forall y, Q y -> Q (fp12_frobeniusMapAssign F y 6)).
  { intros y Y. unfold Q. eapply rep12_conv; [apply (frob6_rep F HF), Y|]. rewrite <- (phi6_f Z12), !phi_0. reflexivity. }
  assert (QS : forall y, Q y -> Q (fp12_cyclotomicSquare F y)).
  { intros y Y. unfold Q. eapply rep12_conv; [apply (cycsq_rep F HF); [exact cyc_0|exact Y]|]. ring. }
  assert (QP : forall y, Q y -> Q (pexp F y)).
  { intros y Y. unfold Q. eapply rep12_conv; [apply (pexp_rep F HF); [exact cyc_0|exact Y]|]. unfold x_abs. rewrite zp_0.
    rewrite <- (phi6_f Z12), !phi_0. reflexivity. }
  clearbody Q. unfold finalExp. cbv zeta.
  repeat match goal with
    | |- Q (fp12_mul _ _ _) => apply QM
    | |- Q (fp12_frobeniusMapAssign _ _ 1) => apply Q1
    | |- Q (fp12_frobeniusMapAssign _ _ 2) => apply Q2
    | |- Q (fp12_frobeniusMapAssign _ _ 3) => apply Q3
    | |- Q (fp12_frobeniusMapAssign _ _ 6) => apply Q6
    | |- Q (fp12_conjugate _ _) => apply QC
    | |- Q (fp12_inverse _ _) => apply QI
    | |- Q (fp12_cyclotomicSquare _ _) => apply QS
    | |- Q (pexp _ _) => apply QP
    | |- _ => exact H end.
Qed.
Lemma E_pos : 0 < E_final.
Proof using. unfold E_final. apply Z.mul_pos_pos; [reflexivity|]. apply Z.div_str_pos. split; [exact (proj1 r_3)|].
  assert (G : bls_r < p). { Local Transparent bls_p. reflexivity. Local Opaque bls_p. }
  pose proof p_gt0 as P. revert G P. generalize bls_r. generalize p. clear. intros p r G P.
  assert (H : p * 1 <= p * p ^ 11) by (apply Z.mul_le_mono_nonneg_l; [lia|]; pose proof (Z.pow_pos_nonneg p 11); lia).
  replace (p ^ 12) with (p * p ^ 11) by ring. lia.
Qed.
Theorem final_rep x f : rep12 x f -> rep12 (finalExp F x) (zp E_final f).
Proof using HF HS.
  intros H. destruct (F12_dec f Z12) as [->|U]; [|exact (final_unit x f U H)].
  eapply rep12_conv; [apply final_zero, H|]. pose proof E_pos as P. destruct E_final as [|s|s]; [discriminate| |discriminate]. symmetry. apply zp_0.
Qed.
End Final.
(** the result has order dividing r and is cyclotomic *)
Lemma final_order f : unit12 f -> zp bls_r (zp E_final f) = O12 /\ cyc_ok (zp E_final f).
Proof.
  intros U. rewrite <- cf_ef. split; [|apply cyc_unit, U]. rewrite (zp_zp _ _ f U).
  replace (bls_r * (cf * ef)) with (3 * qm).
  - rewrite <- (zp_zp _ _ f U), (order12 f U). exact (Group.zmul_zero _ _ _ _ _ GM 3).
  - transitivity (cf * (ef * bls_r)); [|ring]. rewrite ef_r, cf_def. unfold qm. ring.
Qed.
Lemma final_conj f : unit12 f -> Mul12 (zp E_final f) (zp E_final (Conj12 f)) = O12.
Proof.
  intros U. rewrite <- cf_ef. rewrite <- (zp_1 f U) at 2. rewrite (conj_zk 1 f U), (zp_zp _ _ f U), (zp_mul _ _ f U).
  transitivity (zp 0 f); [|reflexivity]. apply (zp_congr _ _ (ef * (p ^ 2 + 1)) f U). rewrite cf_def. unfold qm. ring.
Qed.
