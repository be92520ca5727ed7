(** The results of the pairing engine. *)
From Coq Require Import ZArith List Bool Lia Znumtheory Ring Field.
From Verif Require Import Base ModelBlsF SpecBls ModelBls ProofBlsF ProofBlsE SpecBlsG BlsPrime ProofBlsH Fp BlsFp2 BlsFrob ProofBlsI Weier Group SpecBlsSig SpecBlsPair ProofBlsJ ProofBlsK SpecBlsMap ProofBlsO ProofBlsT ProofBlsQ SpecBlsGT BlsTower SpecBlsAte ModelBlsGT ProofBlsU ProofBlsV ProofBlsW ProofBlsX ProofBlsY.
From Verif Require Tower Group.
Import ListNotations.
Local Open Scope Z_scope.
Add Field KFA1 : Kp1.
Add Field KFA2 : Kp2.
Add Field KFA6 : K6.
Add Field KFA12 : K12.
Local Opaque phi zp bls_p bls_r Group.zmul.
Lemma ate_eq xP yP xq yq : ate (Weier.Aff _ xP yP) (Weier.Aff _ xq yq) = zp E_final (Conj12 (miller ate_bits O12 (Weier.Aff _ xq yq) (Weier.Aff _ xq yq) (Weier.Aff _ xP yP))).
Proof. unfold ate, E_final. reflexivity. Qed.
Local Opaque E_final.
Lemma zpE_mul a b : zp E_final (Mul12 a b) = Mul12 (zp E_final a) (zp E_final b).
Proof. pose proof E_pos as P. destruct E_final as [|s|s]; [discriminate| |discriminate]. rewrite !zp_pos. exact (pw_base F12 _ _ _ _ _ _ _ _ K12 a b _). Qed.
Lemma zpE_1 : zp E_final O12 = O12.
Proof. exact (Group.zmul_zero _ _ _ _ _ GM E_final). Qed.
Lemma em_nz c : c <> zz2 -> unit12 (em c).
Proof. intros N E. apply N. exact (f_equal (fun t => A0 (B0 t)) E). Qed.
Lemma zpE_em c : c <> zz2 -> zp E_final (em c) = O12.
Proof.
  intros N. pose proof (em_nz c N) as U.
  assert (E2 : zp (p * (p * 1)) (em c) = em c).
  { rewrite <- (phi_zk _ _ U), <- (phi_zk _ _ U), (zp_1 _ U), (phi_em c), (phi_em (cj c)), cj_cj. reflexivity. }
  assert (E1 : zp (p * (p * 1) + - (1)) (em c) = O12).
  { rewrite <- (zp_mul _ _ _ U), E2, <- (zp_inv 1 _ U), (zp_1 _ U). transitivity (Mul12 (Inv12 (em c)) (em c)); [ring|]. apply inv_l, U. }
  rewrite <- cf_ef, cf_def. replace ((p ^ 6 - 1) * (p ^ 2 + 1) * ef) with (((p ^ 4 + p ^ 2 + 1) * (p ^ 2 + 1) * ef) * (p * (p * 1) + - (1))) by ring.
  rewrite <- (zp_zp _ _ _ U), E1. exact (Group.zmul_zero _ _ _ _ _ GM _).
Qed.
Lemma conj_em c : Conj12 (em c) = em c.
Proof. unfold em. apply Tower.t12_ext; apply Tower.t6_ext; cb; ring. Qed.
Lemma conj_m a b : Conj12 (Mul12 a b) = Mul12 (Conj12 a) (Conj12 b).
Proof. exact (Tower.conj_mul _ _ _ _ _ _ _ _ _ Kp2 q2_dec xi xi_nocube a b). Qed.
Lemma bits_eq : x_bits = ate_bits. Proof. vm_compute. reflexivity. Qed.
Section Engine.
Variable F : fbuild.
Hypothesis HF : exact_but_square F.
Lemma aff2_prep Q x y : affine2 Q (Weier.Aff _ x y) -> prep Q x y oo2.
Proof using. intros (X & Y & Z). refine (conj X (conj Y _)). rewrite Z. exact one2_rep. Qed.
Lemma single P Q A B : affine1 P A -> affine2 Q B -> in_G2 B ->
  exists m, rep12 (millerLoop F [(P, Q)]) m /\ zp E_final m = ate A B.
Proof using HF.
  intros HA HB G. destruct A as [|xP yP]; [destruct HA|]. destruct B as [|xq yq]; [destruct HB|].
  pose proof (aff2_prep _ _ _ HB) as PQ. destruct HA as (PX & PY & _).
  unfold millerLoop. cbn [map fst snd]. rewrite bits_eq. unfold preCompute.
  assert (NZ : g_IsZero (C2 F) Q = false).
  { destruct HB as (_ & _ & Z). unfold g_IsZero. rewrite Z. cbn [C2 c_isZero]. rewrite (iszero2_rep _ _ one2_rep).
    destruct (q2_dec oo2 zz2) as [E|_]; [|reflexivity]. exfalso. exact (F_1_neq_0 Kp2 E). }
  rewrite NZ, bits_eq.
  assert (E1 : g2_mul 1 (Weier.Aff _ xq yq) = Weier.Aff _ xq yq) by exact (zmul_1 _ _ _ _ _ G2 _ (proj1 G)).
  destruct (loop_ok F HF P xP yP PX PY Q xq yq PQ G ate_bits true 0%nat (pre_loop F ate_bits Q Q) Q 1 fp12_one O12 oo2) as (c & NC & H).
  - reflexivity.
  - rewrite E1. exists oo2. split; [exact (F_1_neq_0 Kp2)|]. destruct PQ as (X & Y & Z).
    refine (conj _ (conj _ Z)); (eapply rep2_conv; [eassumption|ring]).
  - lia.
  - vm_compute. discriminate.
  - exact (F_1_neq_0 Kp2).
  - eapply rep12_conv; [exact one12_rep|]. rewrite em_1. ring.
  - intros _. split; reflexivity.
  - rewrite E1 in H. eexists. split; [apply (conj12_rep F HF), H|]. rewrite conj_m, conj_em, zpE_mul, (zpE_em c NC), ate_eq. ring.
Qed.
Definition prod_ate (pts : list (g1pt * g2pt)) : F12 := fold_right (fun AB acc => Mul12 (ate (fst AB) (snd AB)) acc) O12 pts.
Definition good (PQ : mpt1 * mpt2) (AB : g1pt * g2pt) : Prop := affine1 (fst PQ) (fst AB) /\ affine2 (snd PQ) (snd AB) /\ in_G2 (snd AB).
Lemma good_ok PQ AB : good PQ AB -> ok1 (fst PQ) /\ okp (snd PQ).
Proof using.
  destruct PQ as [P Q], AB as [A B]. cbn [good fst snd]. intros (HA & HB & _). destruct A as [|x y]; [destruct HA|]. destruct B as [|x' y']; [destruct HB|]. split.
  - destruct HA as (X & Y & _). exists x, y. auto.
  - exists x', y', oo2. apply aff2_prep, HB.
Qed.
Lemma good_oks l pts : Forall2 good l pts -> pairs_ok l.
Proof using. induction 1 as [|PQ AB l pts G _ IH]; constructor; [exact (good_ok _ _ G)|exact IH]. Qed.
Lemma ml_nil bits : forall first j f, rep12 f O12 -> rep12 (miller_loop F bits first [] j f) O12.
Proof using HF.
  induction bits as [|b bits IH]; intros first j f A; cbn [miller_loop]; [exact A|]. cbv zeta. cbn [ell fold_left].
  assert (S : rep12 (if first then f else fp12_square F f) O12) by (destruct first; [exact A|eapply rep12_conv; [apply (square12_rep F HF), A|ring]]).
  destruct b; apply IH; exact S.
Qed.
Lemma miller_list l pts : Forall2 good l pts -> exists m, rep12 (millerLoop F l) m /\ zp E_final m = prod_ate pts.
Proof using HF.
  induction 1 as [|[P Q] [A B] l pts G FG IH].
  - exists (Conj12 O12). split; [apply (conj12_rep F HF), ml_nil, one12_rep|]. rewrite <- em_1, conj_em, em_1. exact zpE_1.
  - destruct IH as (m & M & E). destruct G as (HA & HB & HG). cbn [fst snd] in *. destruct (single _ _ _ _ HA HB HG) as (m1 & M1 & E1).
    destruct (miller_app F HF [(P, Q)] l) as (c1 & c2 & C1 & C2 & C3).
    { constructor; [|constructor]. exact (good_ok (P, Q) (A, B) (conj HA (conj HB HG))). }
    { exact (good_oks _ _ FG). }
    rewrite (rep12_fun _ _ _ C1 M1), (rep12_fun _ _ _ C2 M) in C3. eexists. split; [exact C3|].
    cbn [prod_ate fold_right fst snd]. rewrite zpE_mul, E1, E. reflexivity.
Qed.
Hypothesis HS : forall x, sq_ok F x.
Theorem calc_rep l pts : Forall2 good l pts -> rep12 (calculate F l) (prod_ate pts).
Proof using HF HS.
  intros H. destruct (miller_list l pts H) as (m & M & E). destruct l as [|a l]; [inversion H; exact one12_rep|].
  cbn [calculate]. rewrite <- E. apply (final_rep F HF HS), M.
Qed.
Theorem check_rep l pts : Forall2 good l pts -> (eng_Check F l = true <-> prod_ate pts = O12).
Proof using HF HS.
  intros H. unfold eng_Check. rewrite (equal12_rep _ _ _ _ one12_rep (calc_rep l pts H)).
  destruct (F12_dec O12 (prod_ate pts)) as [E|N]; split; congruence.
Qed.
(** any points *)
Lemma calc_app l1 l2 : pairs_ok l1 -> pairs_ok l2 -> exists a b, rep12 (calculate F l1) a /\ rep12 (calculate F l2) b /\ rep12 (calculate F (l1 ++ l2)) (Mul12 a b).
Proof using HF HS.
  intros H1 H2. destruct (miller_app F HF l1 l2 H1 H2) as (c1 & c2 & M1 & M2 & M).
  destruct l1 as [|x l1].
  - destruct l2 as [|y l2]; [exists O12, O12|exists O12, (zp E_final c2)]; refine (conj one12_rep (conj _ _)); cbn [calculate app].
    + exact one12_rep.
    + eapply rep12_conv; [exact one12_rep|ring].
    + apply (final_rep F HF HS), M2.
    + eapply rep12_conv; [apply (final_rep F HF HS), M2|ring].
  - destruct l2 as [|y l2].
    + exists (zp E_final c1), O12. rewrite app_nil_r. refine (conj (final_rep F HF HS _ _ M1) (conj one12_rep _)).
      eapply rep12_conv; [exact (final_rep F HF HS _ _ M1)|ring].
    + exists (zp E_final c1), (zp E_final c2). refine (conj (final_rep F HF HS _ _ M1) (conj (final_rep F HF HS _ _ M2) _)).
      rewrite <- zpE_mul. exact (final_rep F HF HS _ _ M).
Qed.
End Engine.
(** *** Values of the pairing *)
Lemma line_nz R S x y : y <> fp_of p 0 -> unit12 (line_at R S (Weier.Aff _ x y)).
Proof.
  intros N. destruct R as [|xR yR]; [exact one_ne|]. cbn [line_at]. intros E. apply N.
  exact (f_equal (fun t => fst (A1 (B1 t))) E).
Qed.
Lemma unit_mul a b : unit12 a -> unit12 b -> unit12 (Mul12 a b).
Proof. exact (Group.g_add _ _ _ _ _ GM a b). Qed.
Lemma mil_nz bits : forall f R Q x y, y <> fp_of p 0 -> unit12 f -> unit12 (miller bits f R Q (Weier.Aff _ x y)).
Proof.
  induction bits as [|b bits IH]; intros f R Q x y N U; cbn [miller]; [exact U|]. cbv zeta.
  destruct b; apply IH; try exact N; repeat apply unit_mul; try assumption; apply line_nz, N.
Qed.
Lemma conj_unit a : unit12 a -> unit12 (Conj12 a).
Proof. intros U. rewrite <- (zp_1 a U), (conj_zk 1 a U). apply zp_unit, U. Qed.
Lemma two_mod r : 2 ^ 64 < r -> 2 mod r = 0 -> False.
Proof. intros H D. assert (2 < 2 ^ 64) by reflexivity. rewrite Z.mod_small in D by lia. discriminate D. Qed.
Lemma g1_y x y : in_G1 (Weier.Aff _ x y) -> y <> fp_of p 0.
Proof.
  intros [O A] Z. subst y. assert (P2 : g1_mul 2 (Weier.Aff _ x (fp_of p 0)) = g1_inf).
  { unfold g1_mul. change 2 with (2 * 1). rewrite (zmul_double _ _ _ _ _ G1 1) by exact O. rewrite (zmul_1 _ _ _ _ _ G1) by exact O.
    unfold g1_add. cbn [Weier.padd]. destruct (fp_dec x x) as [_|N]; [|congruence].
    destruct (fp_dec (fp_of p 0) (fp_opp (fp_of p 0))) as [_|N]; [reflexivity|]. exfalso. apply N. ring. }
  assert (D : 2 mod bls_r = 0) by (apply (zmul_order _ _ _ _ _ G1 bls_r 2 _ O r_prime A); [discriminate|exact P2]).
  exact (two_mod bls_r r_big D).
Qed.
Lemma ate_unit A B : in_G1 A -> exists m, unit12 m /\ ate A B = zp E_final m.
Proof.
  intros G. destruct A as [|x y]; [exists O12; split; [exact one_ne|symmetry; exact zpE_1]|].
  destruct B as [|x' y']; [exists O12; split; [exact one_ne|symmetry; exact zpE_1]|].
  eexists. split; [|exact (ate_eq _ _ _ _)]. apply conj_unit, mil_nz; [exact (g1_y x y G)|exact one_ne].
Qed.
Theorem ate_order A B : in_G1 A -> zp bls_r (ate A B) = O12 /\ cyc_ok (ate A B) /\ unit12 (ate A B).
Proof.
  intros G. destruct (ate_unit A B G) as (m & U & ->). destruct (final_order m U) as [H1 H2]. refine (conj H1 (conj H2 _)). apply zp_unit, U.
Qed.
Lemma conj_1 : Conj12 O12 = O12.
Proof. rewrite <- em_1, conj_em. reflexivity. Qed.
Lemma line_neg R S x y : line_at R S (Weier.Aff _ x (fp_opp y)) = Conj12 (line_at R S (Weier.Aff _ x y)).
Proof.
  destruct R as [|xR yR]; [cbn [line_at]; symmetry; exact conj_1|]. cbn [line_at].
  apply Tower.t12_ext; apply Tower.t6_ext; cb; try reflexivity; try ring.
Qed.
Lemma mil_neg bits : forall f R Q x y, miller bits (Conj12 f) R Q (Weier.Aff _ x (fp_opp y)) = Conj12 (miller bits f R Q (Weier.Aff _ x y)).
Proof.
  induction bits as [|b bits IH]; intros f R Q x y; cbn [miller]; [reflexivity|]. cbv zeta.
  rewrite !line_neg. rewrite <- !conj_m. destruct b; apply IH.
Qed.
Theorem ate_neg A B : in_G1 A -> Mul12 (ate A B) (ate (g1_neg A) B) = O12.
Proof.
  intros G. destruct A as [|x y]; [cbn; ring|]. destruct B as [|x' y']; [cbn; ring|].
  unfold g1_neg. cbn [Weier.pneg]. rewrite !ate_eq.
  assert (E : miller ate_bits O12 (Weier.Aff _ x' y') (Weier.Aff _ x' y') (Weier.Aff _ x (fp_opp y)) = Conj12 (miller ate_bits O12 (Weier.Aff _ x' y') (Weier.Aff _ x' y') (Weier.Aff _ x y))).
  { rewrite <- mil_neg. replace (Conj12 O12) with O12 by (symmetry; exact conj_1). reflexivity. }
  rewrite E. apply final_conj, conj_unit, mil_nz; [exact (g1_y x y G)|exact one_ne].
Qed.
(** an element of order r is cyclotomic *)
Lemma valid_cyc a : unit12 a -> zp bls_r a = O12 -> cyc_ok a.
Proof.
  intros U E. assert (D : exists d, p ^ 4 - p ^ 2 + 1 = d * bls_r).
  { pose proof ef_r as X. destruct r_3 as [_ R3]. destruct (Gauss bls_r 3 (p ^ 4 - p ^ 2 + 1)) as [d D]; [exists ef; rewrite <- X; ring|exact R3|]. exists d. exact D. }
  destruct D as [d D]. assert (O : zp (p ^ 4 - p ^ 2 + 1) a = O12).
  { rewrite D, <- (zp_zp _ _ a U), E. exact (Group.zmul_zero _ _ _ _ _ GM d). }
  unfold cyc_ok. rewrite <- (zp_1 a U). rewrite (phi_zk 1 a U), (phi_zk (p * 1) a U), (phi_zk (p * (p * 1)) a U), (phi_zk (p * (p * (p * 1))) a U), (zp_mul _ _ a U).
  replace (p * (p * (p * (p * 1))) + 1) with ((p ^ 4 - p ^ 2 + 1) + p * (p * 1)) by ring. rewrite <- (zp_mul _ _ a U), O. ring.
Qed.
