(** The pairing engine: the Miller loop over a list of pairs is the product of the
    loops over its parts. *)
From Coq Require Import ZArith List Bool Lia Znumtheory Ring Field.
From Verif Require Import Base ModelBlsF SpecBls ModelBls ProofBlsF ProofBlsE SpecBlsG BlsPrime ProofBlsH Fp BlsFp2 BlsFrob ProofBlsI Weier Group SpecBlsSig ProofBlsJ ProofBlsK SpecBlsMap ProofBlsO ProofBlsQ SpecBlsGT BlsTower SpecBlsAte ModelBlsGT ProofBlsU ProofBlsV ProofBlsW AteAlg.
From Verif Require Tower Group.
Import ListNotations.
Local Open Scope Z_scope.
Add Field KFY1 : Kp1.
Add Field KFY2 : Kp2.
Add Field KFY6 : K6.
Add Field KFY12 : K12.
Local Infix "*'" := q2_mul (at level 40, left associativity).
Local Infix "+'" := q2_add (at level 50, left associativity).
Local Infix "-'" := q2_sub (at level 50, left associativity).
Local Opaque phi zp bls_p.
Notation mpt1 := (ModelBls.point fe). Notation mpt2 := (ModelBls.point fe2).
Notation mpx := (ModelBls.px). Notation mpy := (ModelBls.py). Notation mpz := (ModelBls.pz).
Definition prep (r : mpt2) (X Y Z : Fp2) : Prop := rep2 (mpx r) X /\ rep2 (mpy r) Y /\ rep2 (mpz r) Z.
Definition lrep (c : line) (u0 u1 u2 : Fp2) : Prop := rep2 (l0 c) u0 /\ rep2 (l1 c) u1 /\ rep2 (l2 c) u2.
Definition LV (u0 u1 u2 : Fp2) (x y : fp p) : F12 := T12 (T6 u0 (u1 *' of_p x) zz2) (T6 zz2 (u2 *' of_p y) zz2).
Definition hv : fp p := fp_of p ((p + 1) / 2).
Definition bb : Fp2 := q2 p 4 4.
Lemma hv_2 : (oo2 +' oo2) *' of_p hv = oo2.
Proof. Local Transparent bls_p. unfold of_p, hv. change (fp_of p ((p + 1) / 2), fp_of bls_p 0) with (q2 p ((p + 1) / 2) 0). rewrite q2_addz, q2_mulz. apply q2_modz. vm_cast_no_check (@eq_refl bool true). Qed.
Lemma twoInv_rep : rep1 twoInv hv.
Proof. unfold hv. apply chk1_rep. vm_cast_no_check (@eq_refl bool true). Qed.
Local Opaque bls_p.
Section Code.
Variable F : fbuild.
Hypothesis HF : exact_but_square F.
Lemma byFq_rep x a y b : rep2 x a -> rep1 y b -> rep2 (fp2_mulByFq F x y) (a *' of_p b).
Proof using HF.
  intros [H0 H1] B. replace (a *' of_p b) with (fp_mul (fst a) b, fp_mul (snd a) b).
  - split; apply (mul_rep F HF); assumption.
  - unfold of_p, q2_mul. cbn [fst snd]. f_equal; ring.
Qed.
Lemma four (a : fp p) : fp_add (fp_add a a) (fp_add a a) = fp_mul (fp_of p 4) a.
Proof using. change 4 with (1 + 1 + (1 + 1)). rewrite !fp_of_add. ring. Qed.
Lemma byB_rep x a : rep2 x a -> rep2 (fp2_mulByB F x) (bb *' a).
Proof using HF.
  intros [H0 H1]. unfold fp2_mulByB. cbv zeta.
  replace (bb *' a) with (fp_sub (fp_add (fp_add (fst a) (fst a)) (fp_add (fst a) (fst a))) (fp_add (fp_add (snd a) (snd a)) (fp_add (snd a) (snd a))),
                          fp_add (fp_add (fp_add (fst a) (fst a)) (fp_add (fst a) (fst a))) (fp_add (fp_add (snd a) (snd a)) (fp_add (snd a) (snd a)))).
  - split; cbn [fst snd]; [apply (sub_rep F HF)|apply (add_rep F HF)]; repeat apply (double_rep F HF); assumption.
  - rewrite !four. unfold bb, q2, q2_mul. cbn [fst snd]. f_equal; ring.
Qed.
Notation aX := (aX Fp2 oo2 q2_add q2_mul q2_sub). Notation aY := (aY Fp2 oo2 q2_add q2_mul q2_sub). Notation aZ := (aZ Fp2 q2_mul).
Notation a0' := (a0' Fp2 q2_mul q2_sub). Notation a1' := (a1' Fp2 q2_mul q2_sub).
Notation dX := (dX Fp2 oo2 q2_add q2_mul q2_sub). Notation dY := (dY Fp2 oo2 q2_add q2_mul q2_sub). Notation dZ := (dZ Fp2 oo2 q2_add q2_mul).
Notation d0' := (d0' Fp2 oo2 q2_add q2_mul q2_sub).
Ltac stx := first [eassumption | eapply (add2_rep F HF) | eapply (sub2_rep F HF) | eapply (mul2_rep F HF)
  | eapply (square2_rep F HF) | eapply (double2_rep F HF) | eapply (neg2_rep F HF) | eapply byFq_rep; [|exact twoInv_rep] | eapply byB_rep].
Lemma dbl_rep r X Y Z : prep r X Y Z ->
  lrep (fst (doublingStep F r)) (d0' bb Y Z) ((oo2 +' oo2 +' oo2) *' (X *' X)) (q2_opp ((oo2 +' oo2) *' (Y *' Z))) /\
  prep (snd (doublingStep F r)) (dX (of_p hv) bb X Y Z) (dY (of_p hv) bb Y Z) (dZ Y Z).
Proof using HF.
  intros (HX & HY & HZ). generalize hv twoInv_rep. intros h TH. generalize bb byB_rep. intros b BR.
  unfold doublingStep. cbv zeta. cbn [fst snd].
  unfold lrep, prep. cbn [l0 l1 l2 ModelBls.px ModelBls.py ModelBls.pz]. unfold AteAlg.d0', AteAlg.dX, AteAlg.dY, AteAlg.dZ, AteAlg.dE.
  refine (conj (conj _ (conj _ _)) (conj _ (conj _ _))); (eapply rep2_conv; [repeat first [eassumption | eapply (add2_rep F HF) | eapply (sub2_rep F HF) | eapply (mul2_rep F HF)
  | eapply (square2_rep F HF) | eapply (double2_rep F HF) | eapply (neg2_rep F HF) | eapply byFq_rep; [|exact TH] | eapply BR]|ring]).
Qed.
Lemma adds_rep r q X Y Z xq yq zq : prep r X Y Z -> prep q xq yq zq ->
  lrep (fst (additionStep F r q)) (a0' Y Z yq *' xq -' a1' X Z xq *' yq) (q2_opp (a0' Y Z yq)) (a1' X Z xq) /\
  prep (snd (additionStep F r q)) (aX (a0' Y Z yq) (a1' X Z xq) X Z) (aY (a0' Y Z yq) (a1' X Z xq) X Y Z) (aZ (a1' X Z xq) Z).
Proof using HF.
  intros (HX & HY & HZ) (Hx & Hy & _). unfold additionStep. cbv zeta. cbn [fst snd].
  assert (T0 : rep2 (fp2_add F (fp2_neg F (fp2_mul F (mpy q) (mpz r))) (mpy r)) (a0' Y Z yq)) by (eapply rep2_conv; [repeat stx|unfold AteAlg.a0'; ring]).
  assert (T1 : rep2 (fp2_add F (fp2_neg F (fp2_mul F (mpx q) (mpz r))) (mpx r)) (a1' X Z xq)) by (eapply rep2_conv; [repeat stx|unfold AteAlg.a1'; ring]).
  set (s0 := fp2_add F (fp2_neg F (fp2_mul F (mpy q) (mpz r))) (mpy r)) in *. set (s1 := fp2_add F (fp2_neg F (fp2_mul F (mpx q) (mpz r))) (mpx r)) in *.
  clearbody s0 s1. revert T0 T1. generalize (a0' Y Z yq) (a1' X Z xq). intros t0 t1 T0 T1.
  unfold lrep, prep. cbn [l0 l1 l2 ModelBls.px ModelBls.py ModelBls.pz]. unfold AteAlg.aX, AteAlg.aY, AteAlg.aZ, AteAlg.a5.
  refine (conj (conj _ (conj _ _)) (conj _ (conj _ _))); (eapply rep2_conv; [repeat stx|ring]).
Qed.
Lemma line_rep c u0 u1 u2 P x y f a : lrep c u0 u1 u2 -> rep1 (mpx P) x -> rep1 (mpy P) y -> rep12 f a ->
  rep12 (fp12_mulBy014Assign F f (l0 c) (fp2_mulByFq F (l1 c) (mpx P)) (fp2_mulByFq F (l2 c) (mpy P))) (Mul12 a (LV u0 u1 u2 x y)).
Proof using HF.
  intros (L0 & L1 & L2) X Y A. unfold LV. apply (by014_rep F HF); [exact A|exact L0|apply byFq_rep; assumption|apply byFq_rep; assumption].
Qed.
(** ** Products *)
Definition okl (c : line) : Prop := exists u0 u1 u2, lrep c u0 u1 u2.
Definition okp (r : mpt2) : Prop := exists X Y Z, prep r X Y Z.
Definition ok1 (P : mpt1) : Prop := exists x y, rep1 (mpx P) x /\ rep1 (mpy P) y.
Definition okc (cp : list line * mpt1) : Prop := Forall okl (fst cp) /\ ok1 (snd cp).
Lemma pre_ok q : okp q -> forall bits r, okp r -> Forall okl (pre_loop F bits r q).
Proof using HF.
  intros (x & y & z & Q). induction bits as [|b bits IH]; intros r (X & Y & Z & R); cbn [pre_loop]; [constructor|].
  destruct (dbl_rep _ _ _ _ R) as [L1 R1]. destruct (doublingStep F r) as [c r1]. cbn [fst snd] in *.
  assert (C1 : okl c) by (do 3 eexists; exact L1). destruct b.
  - destruct (adds_rep _ _ _ _ _ _ _ _ R1 Q) as [L2 R2]. destruct (additionStep F r1 q) as [c' r2]. cbn [fst snd] in *.
    constructor; [exact C1|]. constructor; [do 3 eexists; exact L2|]. apply IH. do 3 eexists. exact R2.
  - constructor; [exact C1|]. apply IH. do 3 eexists. exact R1.
Qed.
Lemma ell_one_ok j cp : okc cp -> exists L, forall f a, rep12 f a -> rep12 (ell_one F j f cp) (Mul12 a L).
Proof using HF.
  intros [C (x & y & X & Y)]. assert (N : okl (nth j (fst cp) zero_line)).
  { destruct (le_lt_dec (length (fst cp)) j) as [O|I].
    - rewrite nth_overflow by exact O. exists zz2, zz2, zz2. refine (conj zero2_rep (conj zero2_rep zero2_rep)).
    - rewrite Forall_forall in C. apply C, nth_In, I. }
  destruct N as (u0 & u1 & u2 & N). exists (LV u0 u1 u2 x y). intros f a A. exact (line_rep _ _ _ _ _ _ _ _ _ N X Y A).
Qed.
Lemma ell_ok j l : Forall okc l -> exists L, forall f a, rep12 f a -> rep12 (ell F l j f) (Mul12 a L).
Proof using HF.
  induction 1 as [|cp l C _ (L & IH)]; [exists O12; intros f a A; eapply rep12_conv; [exact A|ring]|].
  destruct (ell_one_ok j cp C) as [L1 E]. exists (Mul12 L1 L). intros f a A. eapply rep12_conv; [apply (IH _ _ (E _ _ A))|ring].
Qed.
Lemma ml_ok l : Forall okc l -> forall bits first j f a, rep12 f a -> exists c, rep12 (miller_loop F bits first l j f) c.
Proof using HF.
  intros H. induction bits as [|b bits IH]; intros first j f a A; cbn [miller_loop]; [exists a; exact A|].
  assert (S : exists a', rep12 (if first then f else fp12_square F f) a') by (destruct first; [exists a; exact A|eexists; apply (square12_rep F HF), A]).
  destruct S as [a' A']. destruct (ell_ok j l H) as [L E]. destruct (ell_ok (j + 1) l H) as [L' E']. cbv zeta.
  destruct b; eapply IH; [apply E', E, A'|apply E, A'].
Qed.
Lemma ml_app l1 l2 : Forall okc l1 -> Forall okc l2 -> forall bits first j f1 f2 f a1 a2, rep12 f1 a1 -> rep12 f2 a2 -> rep12 f (Mul12 a1 a2) ->
  exists c1 c2, rep12 (miller_loop F bits first l1 j f1) c1 /\ rep12 (miller_loop F bits first l2 j f2) c2 /\
                rep12 (miller_loop F bits first (l1 ++ l2) j f) (Mul12 c1 c2).
Proof using HF.
  intros H1 H2. induction bits as [|b bits IH]; intros first j f1 f2 f a1 a2 A1 A2 A; cbn [miller_loop].
  { exists a1, a2. auto. }
  cbv zeta.
  assert (S : exists b1 b2, rep12 (if first then f1 else fp12_square F f1) b1 /\ rep12 (if first then f2 else fp12_square F f2) b2 /\ rep12 (if first then f else fp12_square F f) (Mul12 b1 b2)).
  { destruct first; [exists a1, a2; auto|]. exists (Mul12 a1 a1), (Mul12 a2 a2).
    refine (conj (square12_rep F HF _ _ A1) (conj (square12_rep F HF _ _ A2) _)). eapply rep12_conv; [apply (square12_rep F HF _ _ A)|ring]. }
  destruct S as (b1 & b2 & B1 & B2 & B). 
  destruct (ell_ok j l1 H1) as [L1 E1]. destruct (ell_ok j l2 H2) as [L2 E2].
  destruct (ell_ok (j + 1) l1 H1) as [M1 G1]. destruct (ell_ok (j + 1) l2 H2) as [M2 G2].
  assert (App : forall i g, ell F (l1 ++ l2) i g = ell F l2 i (ell F l1 i g)) by (intros i g; apply fold_left_app).
  destruct b; eapply IH; [apply G1, E1, B1|apply G2, E2, B2| |apply E1, B1|apply E2, B2|]; rewrite !App.
  - eapply rep12_conv; [apply G2, G1, E2, E1, B|ring].
  - eapply rep12_conv; [apply E2, E1, B|ring].
Qed.
Definition pairs_ok (l : list (mpt1 * mpt2)) : Prop := Forall (fun PQ => ok1 (fst PQ) /\ okp (snd PQ)) l.
Lemma pairs_okc l : pairs_ok l -> Forall okc (map (fun PQ => (preCompute F (snd PQ), fst PQ)) l).
Proof using HF.
  intros H. apply Forall_map. eapply Forall_impl; [|exact H]. intros [P Q] [O1 O2]. split; [|exact O1]. cbn [fst snd] in *.
  unfold preCompute. destruct (g_IsZero (C2 F) Q); [constructor|]. apply pre_ok; assumption.
Qed.
Lemma miller_app l1 l2 : pairs_ok l1 -> pairs_ok l2 -> exists c1 c2, rep12 (millerLoop F l1) c1 /\ rep12 (millerLoop F l2) c2 /\ rep12 (millerLoop F (l1 ++ l2)) (Mul12 c1 c2).
Proof using HF.
  intros H1 H2. unfold millerLoop. rewrite map_app.
  destruct (ml_app _ _ (pairs_okc _ H1) (pairs_okc _ H2) x_bits true 0%nat fp12_one fp12_one fp12_one O12 O12 one12_rep one12_rep) as (c1 & c2 & M1 & M2 & M).
  { eapply rep12_conv; [exact one12_rep|ring]. }
  exists (Conj12 c1), (Conj12 c2). refine (conj (conj12_rep F HF _ _ M1) (conj (conj12_rep F HF _ _ M2) _)).
  eapply rep12_conv; [apply (conj12_rep F HF _ _ M)|]. exact (Tower.conj_mul _ _ _ _ _ _ _ _ _ Kp2 q2_dec xi xi_nocube c1 c2).
Qed.
End Code.
