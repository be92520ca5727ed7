(** The p-th power in the field of p^12 elements, and the Frobenius maps of the code. *)
From Coq Require Import ZArith List Bool Lia Znumtheory Ring Field.
From Verif Require Import Base ModelBlsF SpecBls ModelBls ProofBlsF ProofBlsE SpecBlsG BlsPrime ProofBlsH Fp BlsFp2 BlsFrob ProofBlsI Weier Group SpecBlsSig ProofBlsJ ProofBlsK BlsPrimes Mont63 BlsG2Gen ProofBlsL SpecBlsMap ProofBlsO ProofBlsQ SpecBlsGT BlsTower ModelBlsGT ProofBlsU.
From Verif Require Tower.
Import ListNotations.
Local Open Scope Z_scope.
Add Field KFW1 : Kp1.
Add Field KFW2 : Kp2.
Add Field KFW6 : K6.
Add Field KFW12 : K12.
Notation pw12 := (pw F12 O12 Mul12).
Notation pw2 := (pw Fp2 oo2 q2_mul).
Notation T6 := (Tower.T6 Fp2). Notation T12 := (Tower.T12 Fp2).
Definition em (c : Fp2) : F12 := T12 (T6 c zz2 zz2) Z6.
Definition W : F12 := T12 Z6 O6.
Ltac cb := cbn [Tower.mul12 Tower.add12 Tower.sub12 Tower.opp12 Tower.o12 Tower.z12 Tower.mul6 Tower.add6 Tower.sub6 Tower.opp6 Tower.o6 Tower.z6 Tower.v6 Tower.a0 Tower.a1 Tower.a2 Tower.b0 Tower.b1 Tower.conj12].
Ltac e12 := apply Tower.t12_ext; apply Tower.t6_ext; cb; try ring.
Lemma em_mul a b : em (q2_mul a b) = Mul12 (em a) (em b). Proof. unfold em. e12. Qed.
Lemma em_add a b : em (q2_add a b) = Add12 (em a) (em b). Proof. unfold em. e12. Qed.
Lemma em_1 : em oo2 = O12. Proof. reflexivity. Qed.
Lemma em_pw a n : pw12 (em a) n = em (pw2 a n).
Proof. induction n as [|n IH]; cbn [pw]; [symmetry; exact em_1|]. rewrite IH, em_mul. reflexivity. Qed.
Lemma em_inj a b : em a = em b -> a = b.
Proof. intros E. exact (f_equal (fun t => A0 (B0 t)) E). Qed.
Lemma nK12 n : nK F12 Z12 O12 Add12 n = em (q2 p (Z.of_nat n) 0).
Proof.
  rewrite <- (nK1 p n). induction n as [|n IH]; [reflexivity|]. cbn [nK]. rewrite IH, em_add, em_1. reflexivity.
Qed.
Notation pN := (Z.to_nat p).
Definition phi (a : F12) : F12 := pw12 a pN.
Lemma pN2 : (2 <= pN)%nat.
Proof. pose proof p_gt0 as G. pose proof (p2_gt p bls_p_prime p34) as P2. clear - P2. lia. Qed.
Lemma phi_add a b : phi (Add12 a b) = Add12 (phi a) (phi b).
Proof.
  unfold phi. apply (frob F12 _ _ _ _ _ _ _ _ K12 F12_dec); [exact pN2| |].
  - rewrite nK12, (pn p bls_p_prime). unfold q2. rewrite fp_of_p. reflexivity.
  - intros k Hk. rewrite nK12. intros E. apply (em_inj _ zz2) in E. apply (f_equal fst) in E. cbn [fst q2] in E.
    apply (f_equal fval) in E. rewrite !fval_of in E. rewrite Z.mod_0_l in E by (pose proof p_gt0; lia).
    pose proof p_gt0. rewrite Z.mod_small in E; [|clear - Hk]; lia.
Qed.
Lemma phi_mul a b : phi (Mul12 a b) = Mul12 (phi a) (phi b).
Proof. exact (pw_base F12 _ _ _ _ _ _ _ _ K12 a b pN). Qed.
Lemma phi_1 : phi O12 = O12.
Proof. exact (pw_1 F12 _ _ _ _ _ _ _ _ K12 pN). Qed.
Definition cj (a : Fp2) : Fp2 := (fst a, fp_opp (snd a)).
Lemma cj_cj a : cj (cj a) = a. Proof. destruct a as [x y]. unfold cj. cbn [fst snd]. f_equal. ring. Qed.
Lemma cj_mul (a b : Fp2) : cj (q2_mul a b) = q2_mul (cj a) (cj b).
Proof. unfold cj, q2_mul. cbn [fst snd]. f_equal; ring. Qed.
Lemma phi_em a : phi (em a) = em (cj a).
Proof. unfold phi. rewrite em_pw. rewrite (frb_conj p bls_p_prime p34 a). reflexivity. Qed.
Definition m6 : nat := Z.to_nat ((p - 1) / 6).
Definition ga : Fp2 := pw2 xi m6.
Lemma p_m6 : pN = S (6 * m6).
Proof.
  unfold m6. assert (E : p = 6 * ((p - 1) / 6) + 1) by (vm_cast_no_check (@eq_refl Z p)). pose proof p_gt0 as G.
  set (k := (p - 1) / 6) in *. clearbody k. clear - E G. lia.
Qed.
Definition V : F12 := T12 (Tower.v6 Fp2 zz2 oo2) Z6.
Definition V2 : F12 := T12 (T6 zz2 zz2 oo2) Z6.
Lemma W2 : Mul12 W W = V. Proof. unfold W, V. e12. Qed.
Lemma VV : Mul12 V V = V2. Proof. unfold V, V2. e12. Qed.
Lemma VV2 : Mul12 V V2 = em xi. Proof. unfold V, V2, em. e12. Qed.
Lemma W6 : pw12 W 6 = em xi.
Proof. cbn [pw]. transitivity (Mul12 (Mul12 W W) (Mul12 (Mul12 W W) (Mul12 W W))); [ring|]. rewrite W2, VV, VV2. reflexivity. Qed.
Lemma phi_W : phi W = Mul12 W (em ga).
Proof. unfold phi. rewrite p_m6. cbn [pw]. rewrite (pw_mul F12 _ _ _ _ _ _ _ _ K12), W6, em_pw. reflexivity. Qed.
Lemma dec12 a : a = Add12 (Add12 (Add12 (em (A0 (B0 a))) (Mul12 (em (A0 (B1 a))) W)) (Add12 (Mul12 (em (A1 (B0 a))) (Mul12 W W)) (Mul12 (em (A1 (B1 a))) (Mul12 W (Mul12 W W)))))
   (Add12 (Mul12 (em (A2 (B0 a))) (Mul12 (Mul12 W W) (Mul12 W W))) (Mul12 (em (A2 (B1 a))) (Mul12 W (Mul12 (Mul12 W W) (Mul12 W W))))).
Proof. rewrite W2, VV. unfold W, V, V2, em. destruct a as [[a0 a1 a2] [b0 b1 b2]]. e12. Qed.
(** the map a_i w^i -> s(a_i) c^i w^i *)
Definition fm (s : Fp2 -> Fp2) (c : Fp2) (a : F12) : F12 :=
  T12 (T6 (s (A0 (B0 a))) (q2_mul (s (A1 (B0 a))) (q2_mul c c)) (q2_mul (s (A2 (B0 a))) (q2_mul (q2_mul c c) (q2_mul c c))))
      (T6 (q2_mul (s (A0 (B1 a))) c) (q2_mul (q2_mul (s (A1 (B1 a))) (q2_mul c c)) c) (q2_mul (q2_mul (s (A2 (B1 a))) (q2_mul (q2_mul c c) (q2_mul c c))) c)).
Lemma phi_sum a0 a1 a2 a3 a4 a5 w : phi (Add12 (Add12 (Add12 a0 (Mul12 a1 w)) (Add12 (Mul12 a2 (Mul12 w w)) (Mul12 a3 (Mul12 w (Mul12 w w)))))
   (Add12 (Mul12 a4 (Mul12 (Mul12 w w) (Mul12 w w))) (Mul12 a5 (Mul12 w (Mul12 (Mul12 w w) (Mul12 w w)))))) =
  Add12 (Add12 (Add12 (phi a0) (Mul12 (phi a1) (phi w))) (Add12 (Mul12 (phi a2) (Mul12 (phi w) (phi w))) (Mul12 (phi a3) (Mul12 (phi w) (Mul12 (phi w) (phi w))))))
   (Add12 (Mul12 (phi a4) (Mul12 (Mul12 (phi w) (phi w)) (Mul12 (phi w) (phi w)))) (Mul12 (phi a5) (Mul12 (phi w) (Mul12 (Mul12 (phi w) (phi w)) (Mul12 (phi w) (phi w)))))).
Proof. generalize phi_add, phi_mul. generalize phi. intros f FA FM. rewrite !FA, !FM. reflexivity. Qed.
Lemma Wg g : Mul12 W (em g) = T12 Z6 (T6 g zz2 zz2). Proof. unfold W, em. e12. Qed.
Lemma WW g : Mul12 (T12 Z6 (T6 g zz2 zz2)) (T12 Z6 (T6 g zz2 zz2)) = T12 (T6 zz2 (q2_mul g g) zz2) Z6. Proof. e12. Qed.
Lemma UU g : Mul12 (T12 (T6 zz2 g zz2) Z6) (T12 (T6 zz2 g zz2) Z6) = T12 (T6 zz2 zz2 (q2_mul g g)) Z6. Proof. e12. Qed.
Lemma WU g h : Mul12 (T12 Z6 (T6 g zz2 zz2)) (T12 (T6 zz2 h zz2) Z6) = T12 Z6 (T6 zz2 (q2_mul h g) zz2). Proof. e12. Qed.
Lemma WT g h : Mul12 (T12 Z6 (T6 g zz2 zz2)) (T12 (T6 zz2 zz2 h) Z6) = T12 Z6 (T6 zz2 zz2 (q2_mul h g)). Proof. e12. Qed.
Lemma sc0 c a0 a1 a2 : Mul12 (em c) (T12 (T6 a0 a1 a2) Z6) = T12 (T6 (q2_mul c a0) (q2_mul c a1) (q2_mul c a2)) Z6. Proof. unfold em. e12. Qed.
Lemma sc1 c a0 a1 a2 : Mul12 (em c) (T12 Z6 (T6 a0 a1 a2)) = T12 Z6 (T6 (q2_mul c a0) (q2_mul c a1) (q2_mul c a2)). Proof. unfold em. e12. Qed.
Lemma phi_form a : phi a = fm cj ga a.
Proof.
  rewrite (dec12 a) at 1. etransitivity; [exact (phi_sum _ _ _ _ _ _ _)|]. rewrite phi_W, (phi_em (A0 (B0 a))), (phi_em (A0 (B1 a))), (phi_em (A1 (B0 a))), (phi_em (A1 (B1 a))), (phi_em (A2 (B0 a))), (phi_em (A2 (B1 a))). unfold fm.
  rewrite (Wg ga), (WW ga), (UU (q2_mul ga ga)), (WU ga (q2_mul ga ga)), (WT ga (q2_mul (q2_mul ga ga) (q2_mul ga ga))).
  rewrite (sc1 (cj (A0 (B1 a)))), (sc0 (cj (A1 (B0 a)))), (sc1 (cj (A1 (B1 a)))), (sc0 (cj (A2 (B0 a)))), (sc1 (cj (A2 (B1 a)))). unfold em.
  set (g := ga). clearbody g. set (c0 := cj (A0 (B0 a))). set (c1 := cj (A1 (B0 a))). set (c2 := cj (A2 (B0 a))).
  set (k0 := cj (A0 (B1 a))). set (k1 := cj (A1 (B1 a))). set (k2 := cj (A2 (B1 a))). clearbody c0 c1 c2 k0 k1 k2. e12.
Qed.
(** ** The constants *)
Definition gt2 : Z := 0x1904d3bf02bb0667c231beb4202c0d1f0fd603fd3cbd5f4f7b2443d784bab9c4f67ea53d63e7813d8d0775ed92235fb8.
Definition m12 : Z := ((p - 1) / 6 - 1) / 2.
Lemma pow2 : fp_of p (2 ^ m12) = fp_of p gt2.
Proof.
  assert (V : c_powmod ctx_blsp 2 (Z.to_pos m12) = Some gt2) by (vm_cast_no_check (@eq_refl (option Z) (Some gt2))).
  apply (c_powmod_spec _ ctx_blsp_ok) in V. rewrite Z2Pos.id in V by (vm_compute; reflexivity). rewrite ctx_p in V.
  apply fp_of_eq. rewrite <- V. symmetry. apply Z.mod_mod. pose proof p_gt0. lia.
Qed.
Lemma m6_m12 : m6 = S (2 * Z.to_nat m12).
Proof.
  unfold m6. assert (E : (p - 1) / 6 = 2 * m12 + 1) by (vm_cast_no_check (@eq_refl Z ((p - 1) / 6))).
  assert (P : 0 <= m12) by (apply Z.leb_le; vm_cast_no_check (@eq_refl bool true)).
  rewrite E. set (k := m12) in *. clearbody k. clear - P. lia.
Qed.
Lemma m12_4 : Z.to_nat m12 = (3 + 4 * Z.to_nat (m12 / 4))%nat.
Proof.
  assert (E : m12 = 4 * (m12 / 4) + 3) by (vm_cast_no_check (@eq_refl Z m12)).
  assert (P : 0 <= m12 / 4) by (apply Z.leb_le; vm_cast_no_check (@eq_refl bool true)).
  set (k := m12 / 4) in *. clearbody k. rewrite E. clear - P. lia.
Qed.
Lemma ii_pw : pw2 (ii p) (Z.to_nat m12) = q2_opp (ii p).
Proof.
  rewrite m12_4, (pw_add Fp2 _ _ _ _ _ _ _ _ Kp2), (pw_mul Fp2 _ _ _ _ _ _ _ _ Kp2). cbn [pw].
  pose proof (ii_2 p bls_p_prime) as E. assert (E4 : q2_mul (ii p) (q2_mul (ii p) (q2_mul (ii p) (q2_mul (ii p) oo2))) = oo2).
  { transitivity (q2_mul (q2_mul (ii p) (ii p)) (q2_mul (ii p) (ii p))); [ring|]. rewrite E. ring. }
  rewrite E4, (pw_1 Fp2 _ _ _ _ _ _ _ _ Kp2). transitivity (q2_mul (q2_mul (ii p) (ii p)) (ii p)); [ring|]. rewrite E. ring.
Qed.
Definition gv : Fp2 := q2 p gt2 (- gt2).
Lemma xi2 : q2_mul xi xi = q2_mul (emb p (fp_of p 2)) (ii p).
Proof. unfold xi, emb, ii. change (fp_of p 2, fp_of p 0) with (q2 p 2 0). numeq. Qed.
Lemma ga_v : ga = gv.
Proof.
  unfold ga. rewrite m6_m12. cbn [pw]. rewrite (pw_mul Fp2 _ _ _ _ _ _ _ _ Kp2). cbn [pw]. replace (q2_mul xi (q2_mul xi oo2)) with (q2_mul xi xi) by ring.
  rewrite xi2, (pw_base Fp2 _ _ _ _ _ _ _ _ Kp2), (emb_pw p bls_p_prime), ii_pw, (pw1_val p), Z2Nat.id by (apply Z.leb_le; vm_cast_no_check (@eq_refl bool true)).
  rewrite pow2. unfold gv, xi, emb, ii. change (fp_of p gt2, fp_of p 0) with (q2 p gt2 0). numeq.
Qed.
Definition nv : Fp2 := q2 p 0x5f19672fdf76ce51ba69c6076a0f77eaddb3a93be6f89688de17d813620a00022e01fffffffeffff 0.
Lemma gv_n : q2_mul gv (cj gv) = nv.
Proof. replace (cj gv) with (q2 p gt2 gt2) by (unfold cj, gv, q2; cbn [fst snd]; rewrite fp_of_opp; f_equal; ring). unfold gv, nv. numeq. Qed.
Lemma cj_n : cj nv = nv. Proof. unfold cj, nv, q2. cbn [fst snd]. f_equal. Qed.
Lemma nv2 : q2_mul nv nv = q2_sub nv oo2.
Proof. replace (q2_sub nv oo2) with (q2_add nv (q2_opp oo2)) by ring. unfold nv. numeq. Qed.
Definition ngv : Fp2 := q2_mul nv gv.
Lemma ngv2 : q2_mul ngv ngv = ii p.
Proof. unfold ngv, nv, gv, ii. numeq. Qed.
Lemma nv3 : q2_mul (q2_mul nv nv) nv = q2_opp oo2.
Proof. ring [nv2]. Qed.
Lemma fm_fm s s' c c' a : (forall x y, s' (q2_mul x y) = q2_mul (s' x) (s' y)) ->
  fm s' c' (fm s c a) = fm (fun x => s' (s x)) (q2_mul (s' c) c') a.
Proof.
  intros H. unfold fm. cb. rewrite !H. destruct a as [[a0 a1 a2] [b0 b1 b2]]. cb. set (d := s' c). clearbody d.
  set (u0 := s' (s a0)). set (u1 := s' (s a1)). set (u2 := s' (s a2)). set (w0 := s' (s b0)). set (w1 := s' (s b1)). set (w2 := s' (s b2)). clearbody u0 u1 u2 w0 w1 w2. e12.
Qed.
Lemma phi1_f a : phi a = fm cj gv a. Proof. rewrite phi_form, ga_v. reflexivity. Qed.
Lemma fm_ext s s' c a : (forall x, s x = s' x) -> fm s c a = fm s' c a.
Proof. intros H. unfold fm. rewrite !H. reflexivity. Qed.
Lemma phi2_f a : phi (phi a) = fm (fun x => x) nv a.
Proof.
  rewrite !phi1_f, fm_fm by exact cj_mul. rewrite (fm_ext _ (fun x => x)) by exact cj_cj.
  f_equal. rewrite <- gv_n. ring.
Qed.
Lemma phi3_f a : phi (phi (phi a)) = fm cj ngv a.
Proof. rewrite phi2_f, phi1_f, fm_fm by reflexivity. apply f_equal2; [|reflexivity]. unfold ngv. ring. Qed.
Lemma fm3 c a : fm (fun x => x) c (fm (fun x => x) c (fm (fun x => x) c a)) = fm (fun x => x) (q2_mul (q2_mul c c) c) a.
Proof. rewrite !fm_fm by reflexivity. replace (q2_mul c (q2_mul c c)) with (q2_mul (q2_mul c c) c) by ring. reflexivity. Qed.
Lemma fm_neg a : fm (fun x => x) (q2_opp oo2) a = Conj12 a.
Proof. unfold fm. destruct a as [[a0 a1 a2] [b0 b1 b2]]. e12. Qed.
Lemma six {T : Type} (f g : T -> T) : (forall a, f (f a) = g a) -> forall a, f (f (f (f (f (f a))))) = g (g (g a)).
Proof. intros H a. rewrite !H. reflexivity. Qed.
Lemma phi6_f a : phi (phi (phi (phi (phi (phi a))))) = Conj12 a.
Proof.
  etransitivity; [exact (six phi (fm (fun x => x) nv) phi2_f a)|]. etransitivity; [exact (fm3 nv a)|].
  etransitivity; [|exact (fm_neg a)]. exact (f_equal (fun t => fm (fun x => x) t a) nv3).
Qed.
(** ** The code *)
Section Code.
Variable F : fbuild.
Hypothesis HF : exact_but_square F.
Lemma c61_1 : rep2 (nth 1 frobeniusCoeffs61 fp2_zero) (q2_mul gv gv).
Proof using. apply (rep2_conv _ (q2 p 0 0x1a0111ea397fe699ec02408663d4de85aa0d857d89759ad4897d29650fb85f9b409427eb4f49fffd8bfd00000000aaac)); [chk|unfold gv; symmetry; numeq]. Qed.
Lemma c62_1 : rep2 (nth 1 frobeniusCoeffs62 fp2_zero) (q2_mul (q2_mul gv gv) (q2_mul gv gv)).
Proof using. apply (rep2_conv _ (q2 p 0x1a0111ea397fe699ec02408663d4de85aa0d857d89759ad4897d29650fb85f9b409427eb4f49fffd8bfd00000000aaad 0)); [chk|unfold gv; symmetry; numeq]. Qed.
Lemma c12_1 : rep2 (nth 1 frobeniusCoeffs12 fp2_zero) gv.
Proof using. unfold gv. chk. Qed.
Lemma c12_2 : rep2 (nth 2 frobeniusCoeffs12 fp2_zero) nv.
Proof using. unfold nv. chk. Qed.
Lemma c61_2 : rep2 (nth 2 frobeniusCoeffs61 fp2_zero) (q2_mul nv nv).
Proof using. rewrite nv2. apply (rep2_conv _ (q2 p 0x5f19672fdf76ce51ba69c6076a0f77eaddb3a93be6f89688de17d813620a00022e01fffffffefffe 0)); [chk|]. replace (q2_sub nv oo2) with (q2_add nv (q2_opp oo2)) by ring. unfold nv. numeq. Qed.
Lemma c62_2 : rep2 (nth 2 frobeniusCoeffs62 fp2_zero) (q2_mul (q2_mul nv nv) (q2_mul nv nv)).
Proof using.
  apply (rep2_conv _ (q2_opp nv)); [|ring [nv2]].
  apply (rep2_conv _ (q2 p (-0x5f19672fdf76ce51ba69c6076a0f77eaddb3a93be6f89688de17d813620a00022e01fffffffeffff) 0)); [chk|]. unfold nv. numeq.
Qed.
Lemma c12_3 : rep2 (nth 3 frobeniusCoeffs12 fp2_zero) ngv.
Proof using. apply (rep2_conv _ (q2 p 0x135203e60180a68ee2e9c448d77a2cd91c3dedd930b1cf60ef396489f61eb45e304466cf3e67fa0af1ee7b04121bdea2 0x6af0e0437ff400b6831e36d6bd17ffe48395dabc2d3435e77f76e17009241c5ee67992f72ec05f4c81084fbede3cc09)); [chk|unfold ngv, nv, gv; symmetry; numeq]. Qed.
Lemma cj_rep x a : rep2 x a -> rep2 (fst x, f_neg F (snd x)) (cj a).
Proof using HF. intros [H0 H1]. split; [exact H0|]. apply (neg_rep F HF), H1. Qed.
Lemma ii_rep x a : rep2 x a -> rep2 (f_neg F (snd x), fst x) (q2_mul a (ii p)).
Proof using HF.
  intros [H0 H1]. replace (q2_mul a (ii p)) with (fp_opp (snd a), fst a).
  - split; [apply (neg_rep F HF), H1|exact H0].
  - unfold ii, q2, q2_mul. cbn [fst snd]. f_equal; ring.
Qed.
Ltac fin M C := repeat match goal with
  | |- rep2 (fp2_mul _ _ _) _ => apply M
  | |- rep2 (fst _, _) (cj _) => apply C
  | |- _ => assumption end.
Lemma frob1_rep x a : rep12 x a -> rep12 (fp12_frobeniusMapAssign F x 1) (phi a).
Proof using HF.
  intros ((P & Q & R) & (P' & Q' & R')). rewrite phi1_f. unfold fm.
  change (fp12_frobeniusMapAssign F x 1) with (mk12 (fp6_frobeniusMapAssign F (d0 x) 1) (fp6_mulByBaseField F (fp6_frobeniusMapAssign F (d1 x) 1) (nth 1 frobeniusCoeffs12 fp2_zero))).
  change (fp6_frobeniusMapAssign F (d0 x) 1) with (mk6 (fst (e0 (d0 x)), f_neg F (snd (e0 (d0 x)))) (fp2_mul F (fst (e1 (d0 x)), f_neg F (snd (e1 (d0 x)))) (nth 1 frobeniusCoeffs61 fp2_zero)) (fp2_mul F (fst (e2 (d0 x)), f_neg F (snd (e2 (d0 x)))) (nth 1 frobeniusCoeffs62 fp2_zero))).
  change (fp6_frobeniusMapAssign F (d1 x) 1) with (mk6 (fst (e0 (d1 x)), f_neg F (snd (e0 (d1 x)))) (fp2_mul F (fst (e1 (d1 x)), f_neg F (snd (e1 (d1 x)))) (nth 1 frobeniusCoeffs61 fp2_zero)) (fp2_mul F (fst (e2 (d1 x)), f_neg F (snd (e2 (d1 x)))) (nth 1 frobeniusCoeffs62 fp2_zero))).
  pose proof c61_1 as K1. pose proof c62_1 as K2. pose proof c12_1 as K3.
  set (k1 := nth 1 frobeniusCoeffs61 _) in *. set (k2 := nth 1 frobeniusCoeffs62 _) in *. set (k3 := nth 1 frobeniusCoeffs12 _) in *. clearbody k1 k2 k3.
  unfold fp6_mulByBaseField. pose proof (mul2_rep F HF) as M. pose proof cj_rep as C. revert K1 K2 K3. generalize gv as g. intros g K1 K2 K3.
  refine (conj (conj _ (conj _ _)) (conj _ (conj _ _))); cbn [d0 d1 e0 e1 e2 Tower.a0 Tower.a1 Tower.a2 Tower.b0 Tower.b1]; fin M C.
Qed.
Lemma frob2_rep x a : rep12 x a -> rep12 (fp12_frobeniusMapAssign F x 2) (phi (phi a)).
Proof using HF.
  intros ((P & Q & R) & (P' & Q' & R')). rewrite phi2_f. unfold fm.
  change (fp12_frobeniusMapAssign F x 2) with (mk12 (fp6_frobeniusMapAssign F (d0 x) 2) (fp6_mulByBaseField F (fp6_frobeniusMapAssign F (d1 x) 2) (nth 2 frobeniusCoeffs12 fp2_zero))).
  change (fp6_frobeniusMapAssign F (d0 x) 2) with (mk6 (e0 (d0 x)) (fp2_mul F (e1 (d0 x)) (nth 2 frobeniusCoeffs61 fp2_zero)) (fp2_mul F (e2 (d0 x)) (nth 2 frobeniusCoeffs62 fp2_zero))).
  change (fp6_frobeniusMapAssign F (d1 x) 2) with (mk6 (e0 (d1 x)) (fp2_mul F (e1 (d1 x)) (nth 2 frobeniusCoeffs61 fp2_zero)) (fp2_mul F (e2 (d1 x)) (nth 2 frobeniusCoeffs62 fp2_zero))).
  pose proof c61_2 as K1. pose proof c62_2 as K2. pose proof c12_2 as K3.
  set (k1 := nth 2 frobeniusCoeffs61 _) in *. set (k2 := nth 2 frobeniusCoeffs62 _) in *. set (k3 := nth 2 frobeniusCoeffs12 _) in *. clearbody k1 k2 k3.
  unfold fp6_mulByBaseField. pose proof (mul2_rep F HF) as M. revert K1 K2 K3. generalize nv as g. intros g K1 K2 K3.
  refine (conj (conj _ (conj _ _)) (conj _ (conj _ _))); cbn [d0 d1 e0 e1 e2 Tower.a0 Tower.a1 Tower.a2 Tower.b0 Tower.b1]; fin M M.
Qed.
Lemma frob3_rep x a : rep12 x a -> rep12 (fp12_frobeniusMapAssign F x 3) (phi (phi (phi a))).
Proof using HF.
  intros ((P & Q & R) & (P' & Q' & R')). rewrite phi3_f. unfold fm. rewrite !ngv2.
  change (fp12_frobeniusMapAssign F x 3) with (mk12 (fp6_frobeniusMapAssign F (d0 x) 3) (fp6_mulByBaseField F (fp6_frobeniusMapAssign F (d1 x) 3) (nth 3 frobeniusCoeffs12 fp2_zero))).
  pose (cc := fun t : fe2 => (fst t, f_neg F (snd t))).
  pose (ci := fun t : fe2 => (f_neg F (snd t), fst t)).
  change (fp6_frobeniusMapAssign F (d0 x) 3) with (mk6 (cc (e0 (d0 x))) (ci (cc (e1 (d0 x)))) (fp2_neg F (cc (e2 (d0 x))))).
  change (fp6_frobeniusMapAssign F (d1 x) 3) with (mk6 (cc (e0 (d1 x))) (ci (cc (e1 (d1 x)))) (fp2_neg F (cc (e2 (d1 x))))).
  pose proof c12_3 as K3. set (k3 := nth 3 frobeniusCoeffs12 _) in *. clearbody k3.
  assert (CC : forall t b, rep2 t b -> rep2 (cc t) (cj b)) by (exact cj_rep).
  assert (CI : forall t b, rep2 t b -> rep2 (ci t) (q2_mul b (ii p))) by (exact ii_rep).
  assert (CN : forall t b, rep2 t b -> rep2 (fp2_neg F t) (q2_mul b (q2_mul (ii p) (ii p)))).
  { intros t b H. rewrite (ii_2 p bls_p_prime). eapply rep2_conv; [apply (neg2_rep F HF), H|]. ring. }
  clearbody cc ci. unfold fp6_mulByBaseField. pose proof (mul2_rep F HF) as M. revert K3 CI CN. generalize ngv as g, (ii p) as i0. intros g i0 K3 CI CN.
  refine (conj (conj _ (conj _ _)) (conj _ (conj _ _))); cbn [d0 d1 e0 e1 e2 Tower.a0 Tower.a1 Tower.a2 Tower.b0 Tower.b1]; 
    repeat match goal with
    | |- rep2 (fp2_mul _ _ _) _ => apply M
    | |- rep2 (cc _) _ => apply CC
    | |- rep2 (ci _) _ => apply CI
    | |- rep2 (fp2_neg _ _) _ => apply CN
    | |- _ => assumption end.
Qed.
Lemma frob6_rep x a : rep12 x a -> rep12 (fp12_frobeniusMapAssign F x 6) (Conj12 a).
Proof using HF.
  intros H. replace (fp12_frobeniusMapAssign F x 6) with (fp12_conjugate F x); [apply (conj12_rep F HF), H|].
  destruct x as [[x0 x1 x2] [y0 y1 y2]]. reflexivity.
Qed.
End Code.
