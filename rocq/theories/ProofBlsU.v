(** fp6.go and fp12.go against the field of p^12 elements. *)
From Coq Require Import ZArith List Bool Lia Znumtheory Ring Field.
From Verif Require Import Base ModelBlsF SpecBls ModelBls ProofBlsF ProofBlsE SpecBlsG BlsPrime ProofBlsH Fp BlsFp2 BlsFrob ProofBlsI Weier Group SpecBlsSig ProofBlsJ ProofBlsK SpecBlsMap ProofBlsO ProofBlsQ SpecBlsGT BlsTower ModelBlsGT.
From Verif Require Tower.
Import ListNotations.
Local Open Scope Z_scope.
Add Field KFV1 : Kp1.
Add Field KFV2 : Kp2.
Add Field KFV6 : K6.
Add Field KFV12 : K12.
Notation A0 := (Tower.a0 Fp2). Notation A1 := (Tower.a1 Fp2). Notation A2 := (Tower.a2 Fp2).
Notation B0 := (Tower.b0 Fp2). Notation B1 := (Tower.b1 Fp2).
Definition rep6 (x : fe6) (a : F6) : Prop := rep2 (e0 x) (A0 a) /\ rep2 (e1 x) (A1 a) /\ rep2 (e2 x) (A2 a).
Definition rep12 (x : fe12) (a : F12) : Prop := rep6 (d0 x) (B0 a) /\ rep6 (d1 x) (B1 a).
Lemma rep2_conv x a b : rep2 x a -> a = b -> rep2 x b. Proof. intros H <-. exact H. Qed.
Lemma rep6_conv x a b : rep6 x a -> a = b -> rep6 x b. Proof. intros H <-. exact H. Qed.
Lemma rep12_conv x a b : rep12 x a -> a = b -> rep12 x b. Proof. intros H <-. exact H. Qed.
Lemma rep6_fun x a b : rep6 x a -> rep6 x b -> a = b.
Proof. intros (H0 & H1 & H2) (G0 & G1 & G2). apply Tower.t6_ext; eapply rep2_fun; eassumption. Qed.
Lemma rep12_fun x a b : rep12 x a -> rep12 x b -> a = b.
Proof. intros (H0 & H1) (G0 & G1). apply Tower.t12_ext; eapply rep6_fun; eassumption. Qed.
Lemma rep6_inj x y a : rep6 x a -> rep6 y a -> x = y.
Proof. intros (H0 & H1 & H2) (G0 & G1 & G2). destruct x, y; f_equal; eapply rep2_inj; eassumption. Qed.
Lemma rep12_inj x y a : rep12 x a -> rep12 y a -> x = y.
Proof. intros (H0 & H1) (G0 & G1). destruct x, y; f_equal; eapply rep6_inj; eassumption. Qed.
Lemma one6_rep : rep6 fp6_one O6.
Proof. refine (conj one2_rep (conj zero2_rep zero2_rep)). Qed.
Lemma zero6_rep : rep6 fp6_zero Z6.
Proof. refine (conj zero2_rep (conj zero2_rep zero2_rep)). Qed.
Lemma one12_rep : rep12 fp12_one O12.
Proof. refine (conj one6_rep zero6_rep). Qed.
Definition F6_dec := Tower.t6_dec Fp2 q2_dec.
Definition F12_dec := Tower.t12_dec Fp2 q2_dec.
Lemma equal6_rep x y a b : rep6 x a -> rep6 y b -> fp6_equal x y = if F6_dec a b then true else false.
Proof.
  intros (H0 & H1 & H2) (G0 & G1 & G2). unfold fp6_equal. rewrite (equal2_rep _ _ _ _ H0 G0), (equal2_rep _ _ _ _ H1 G1), (equal2_rep _ _ _ _ H2 G2).
  destruct (F6_dec a b) as [->|N].
  - repeat match goal with |- context [q2_dec ?u ?u] => destruct (q2_dec u u); [|congruence] end. reflexivity.
  - destruct (q2_dec (A0 a) (A0 b)); [|reflexivity]. destruct (q2_dec (A1 a) (A1 b)); [|reflexivity]. destruct (q2_dec (A2 a) (A2 b)); [|reflexivity].
    exfalso. apply N. apply Tower.t6_ext; assumption.
Qed.
Lemma equal12_rep x y a b : rep12 x a -> rep12 y b -> fp12_equal x y = if F12_dec a b then true else false.
Proof.
  intros (H0 & H1) (G0 & G1). unfold fp12_equal. rewrite (equal6_rep _ _ _ _ H0 G0), (equal6_rep _ _ _ _ H1 G1).
  destruct (F12_dec a b) as [->|N].
  - repeat match goal with |- context [F6_dec ?u ?u] => destruct (F6_dec u u); [|congruence] end. reflexivity.
  - destruct (F6_dec (B0 a) (B0 b)); [|reflexivity]. destruct (F6_dec (B1 a) (B1 b)); [|reflexivity].
    exfalso. apply N. apply Tower.t12_ext; assumption.
Qed.

Section Ops.
Variable F : fbuild.
Hypothesis HF : exact_but_square F.
Lemma nr2_rep x a : rep2 x a -> rep2 (fp2_mulByNonResidue F x) (q2_mul xi a).
Proof using HF.
  intros [H H']. unfold fp2_mulByNonResidue, xi, q2_mul, q2. split; cbn [fst snd].
  - replace (fp_sub (fp_mul (fp_of p 1) (fst a)) (fp_mul (fp_of p 1) (snd a))) with (fp_sub (fst a) (snd a)) by ring. apply sub_rep; assumption.
  - replace (fp_add (fp_mul (fp_of p 1) (snd a)) (fp_mul (fp_of p 1) (fst a))) with (fp_add (fst a) (snd a)) by ring. apply add_rep; assumption.
Qed.
Ltac st := first [eassumption | eapply nr2_rep | eapply (add2_rep F HF) | eapply (sub2_rep F HF) | eapply (mul2_rep F HF)
  | eapply (square2_rep F HF) | eapply (double2_rep F HF) | eapply (neg2_rep F HF)].
Ltac go2 := eapply rep2_conv; [repeat st | cbn [Tower.a0 Tower.a1 Tower.a2]; try ring].
Ltac split6 := refine (conj _ (conj _ _)); cbn [e0 e1 e2 Tower.a0 Tower.a1 Tower.a2].
Ltac open6 := repeat match goal with H : rep6 ?x ?a |- _ => let p := fresh "P" in let q := fresh "P" in let r := fresh "P" in
   destruct H as (p & q & r); destruct x as [? ? ?]; destruct a as [? ? ?]; cbn [e0 e1 e2 Tower.a0 Tower.a1 Tower.a2] in p, q, r end.
Lemma add6_rep x y a b : rep6 x a -> rep6 y b -> rep6 (fp6_add F x y) (Add6 a b).
Proof using HF. intros H G. open6. unfold fp6_add, Tower.add6. split6; go2. Qed.
Lemma sub6_rep x y a b : rep6 x a -> rep6 y b -> rep6 (fp6_sub F x y) (Sub6 a b).
Proof using HF. intros H G. open6. unfold fp6_sub, Tower.sub6. split6; go2. Qed.
Lemma double6_rep x a : rep6 x a -> rep6 (fp6_double F x) (Add6 a a).
Proof using HF. intros H. open6. unfold fp6_double, Tower.add6. split6; go2. Qed.
Lemma neg6_rep x a : rep6 x a -> rep6 (fp6_neg F x) (Opp6 a).
Proof using HF. intros H. open6. unfold fp6_neg, Tower.opp6. split6; go2. Qed.
Lemma mul6_rep x y a b : rep6 x a -> rep6 y b -> rep6 (fp6_mul F x y) (Mul6 a b).
Proof using HF. intros H G. open6. unfold fp6_mul, Tower.mul6. cbv zeta. split6; go2. Qed.
Lemma square6_rep x a : rep6 x a -> rep6 (fp6_square F x) (Mul6 a a).
Proof using HF. intros H. open6. unfold fp6_square, Tower.mul6. cbv zeta. split6; go2. Qed.
Lemma nr6_rep x a : rep6 x a -> rep6 (fp6_mulByNonResidue F x) (Mul6 (Tower.v6 Fp2 zz2 oo2) a).
Proof using HF. intros H. open6. unfold fp6_mulByNonResidue, Tower.mul6, Tower.v6. split6; go2. Qed.
Lemma by01_rep x a y z b c : rep6 x a -> rep2 y b -> rep2 z c -> rep6 (fp6_mulBy01 F x y z) (Mul6 a (Tower.T6 Fp2 b c zz2)).
Proof using HF. intros H Y Z. open6. unfold fp6_mulBy01, Tower.mul6. cbv zeta. split6; go2. Qed.
Lemma by01a_rep x a y z b c : rep6 x a -> rep2 y b -> rep2 z c -> rep6 (fp6_mulBy01Assign F x y z) (Mul6 a (Tower.T6 Fp2 b c zz2)).
Proof using HF. intros H Y Z. open6. unfold fp6_mulBy01Assign, Tower.mul6. cbv zeta. split6; go2. Qed.
Lemma by1_rep x a z c : rep6 x a -> rep2 z c -> rep6 (fp6_mulBy1 F x z) (Mul6 a (Tower.T6 Fp2 zz2 c zz2)).
Proof using HF. intros H Z. open6. unfold fp6_mulBy1, Tower.mul6. cbv zeta. split6; go2. Qed.
Lemma base_rep x a z c : rep6 x a -> rep2 z c -> rep6 (fp6_mulByBaseField F x z) (Mul6 a (Tower.T6 Fp2 c zz2 zz2)).
Proof using HF. intros H Z. open6. unfold fp6_mulByBaseField, Tower.mul6. cbv zeta. split6; go2. Qed.
(** degree 12 *)
Ltac st6 := first [eassumption | eapply nr6_rep | eapply add6_rep | eapply sub6_rep | eapply mul6_rep | eapply square6_rep | eapply double6_rep | eapply neg6_rep].
Ltac go6 := eapply rep6_conv; [repeat st6 | cbn [Tower.b0 Tower.b1]; try ring].
Ltac split12 := refine (conj _ _); cbn [d0 d1 Tower.b0 Tower.b1].
Ltac open12 := repeat match goal with H : rep12 ?x ?a |- _ => let p := fresh "P" in let q := fresh "P" in
   destruct H as (p & q); destruct x as [? ?]; destruct a as [? ?]; cbn [d0 d1 Tower.b0 Tower.b1] in p, q end.
Lemma add12_rep x y a b : rep12 x a -> rep12 y b -> rep12 (fp12_add F x y) (Add12 a b).
Proof using HF. intros H G. open12. unfold fp12_add, Tower.add12. split12; go6. Qed.
Lemma sub12_rep x y a b : rep12 x a -> rep12 y b -> rep12 (fp12_sub F x y) (Sub12 a b).
Proof using HF. intros H G. open12. unfold fp12_sub, Tower.sub12. split12; go6. Qed.
Lemma conj12_rep x a : rep12 x a -> rep12 (fp12_conjugate F x) (Conj12 a).
Proof using HF. intros H. open12. unfold fp12_conjugate, Tower.conj12. split12; go6. Qed.
Lemma mul12_rep x y a b : rep12 x a -> rep12 y b -> rep12 (fp12_mul F x y) (Mul12 a b).
Proof using HF. intros H G. open12. unfold fp12_mul, Tower.mul12. cbv zeta. split12; go6. Qed.
Lemma square12_rep x a : rep12 x a -> rep12 (fp12_square F x) (Mul12 a a).
Proof using HF. intros H. open12. unfold fp12_square, Tower.mul12. cbv zeta. split12; go6. Qed.
Lemma add6_01 b c d : Add6 (Tower.T6 Fp2 b c zz2) (Tower.T6 Fp2 zz2 d zz2) = Tower.T6 Fp2 b (q2_add c d) zz2.
Proof using. apply Tower.t6_ext; cbn [Tower.add6 Tower.a0 Tower.a1 Tower.a2]; ring. Qed.
Lemma by014_rep x a y z u b c d : rep12 x a -> rep2 y b -> rep2 z c -> rep2 u d ->
  rep12 (fp12_mulBy014Assign F x y z u) (Mul12 a (Tower.T12 Fp2 (Tower.T6 Fp2 b c zz2) (Tower.T6 Fp2 zz2 d zz2))).
Proof using HF.
  intros H Y Z U. open12. unfold fp12_mulBy014Assign, Tower.mul12. cbv zeta.
  pose proof (by01_rep _ _ _ _ _ _ P Y Z) as R0. pose proof (by1_rep _ _ _ _ P0 U) as R1.
  pose proof (by01a_rep _ _ _ _ _ _ (add6_rep _ _ _ _ P0 P) Y (add2_rep F HF _ _ _ _ Z U)) as R2. rewrite <- add6_01 in R2.
  split12; go6.
Qed.
(** powers *)
Notation pw12 := (pw F12 O12 Mul12).
Lemma exp12_rep (sq : fe12 -> fe12) (ok : F12 -> Prop) : (forall x a, ok a -> rep12 x a -> rep12 (sq x) (Mul12 a a)) ->
  (ok O12) -> (forall a b, ok a -> ok b -> ok (Mul12 a b)) ->
  forall x a, ok a -> rep12 x a -> forall s, rep12 (fp12_exp_pos F sq x s) (pw12 a (Pos.to_nat s)) /\ ok (pw12 a (Pos.to_nat s)).
Proof using HF.
  intros SQ K1 KM x a OA A. induction s as [s IH|s IH|]; cbn [fp12_exp_pos].
  - rewrite Pos2Nat.inj_xI. replace (S (2 * Pos.to_nat s)) with (Pos.to_nat s + Pos.to_nat s + 1)%nat by lia.
    rewrite !(pw_add F12 _ _ _ _ _ _ _ _ K12). cbn [pw]. replace (Mul12 a O12) with a by ring. destruct IH as [IH IO].
    split; [apply mul12_rep; [apply SQ; assumption|exact A]|]. apply KM; [apply KM|]; assumption.
  - rewrite Pos2Nat.inj_xO. replace (2 * Pos.to_nat s)%nat with (Pos.to_nat s + Pos.to_nat s)%nat by lia.
    rewrite !(pw_add F12 _ _ _ _ _ _ _ _ K12). destruct IH as [IH IO]. split; [apply SQ; assumption|]. apply KM; assumption.
  - change (Pos.to_nat 1) with 1%nat. cbn [pw]. split.
    + replace (Mul12 a O12) with (Mul12 (Mul12 O12 O12) a) by ring. apply mul12_rep; [apply SQ; [exact K1|exact one12_rep]|exact A].
    + replace (Mul12 a O12) with a by ring. exact OA.
Qed.
End Ops.

Ltac st2 F HF := first [eassumption | eapply (nr2_rep F HF) | eapply (add2_rep F HF) | eapply (sub2_rep F HF) | eapply (mul2_rep F HF)
  | eapply (square2_rep F HF) | eapply (double2_rep F HF) | eapply (neg2_rep F HF)].
Ltac st6 F HF := first [eassumption | eapply (nr6_rep F HF) | eapply (add6_rep F HF) | eapply (sub6_rep F HF) | eapply (mul6_rep F HF) | eapply (square6_rep F HF) | eapply (double6_rep F HF) | eapply (neg6_rep F HF)].
(** ** Inverses, for a build that squares correctly *)
Section Inv.
Variable F : fbuild.
Hypothesis HF : exact_but_square F.
Hypothesis HS : forall x, sq_ok F x.
Notation N6 := (Tower.n6 Fp2 oo2 q2_add q2_mul q2_sub xi).
Lemma inv6_rep x a : rep6 x a -> a <> Z6 -> rep6 (fp6_inverse F x) (Inv6 a).
Proof using HF HS.
  intros H NZ. assert (NN : N6 a <> zz2) by (intros E; apply NZ; exact (Tower.n6_0 _ _ _ _ _ _ _ _ _ Kp2 q2_dec xi xi_nocube a E)).
  unfold fp6_inverse. cbv zeta.
  match goal with |- context [fp2_inverse F ?t] => assert (I : rep2 (fp2_inverse F t) (q2_div oo2 (N6 a))) end.
  { apply (inv2_rep F HF HS); [|exact NN]. clear NZ NN. destruct H as (P & Q & R). destruct x as [x0 x1 x2], a as [a0 a1 a2]. cbn [e0 e1 e2 Tower.a0 Tower.a1 Tower.a2] in *.
    eapply rep2_conv; [repeat st2 F HF|]. unfold Tower.n6. cbn [Tower.a0 Tower.a1 Tower.a2]. ring. }
  revert I NN. set (J := fp2_inverse F _). set (nn := N6 a). intros I NN. unfold Tower.inv6. fold nn. clearbody J nn. clear NZ.
  destruct H as (P & Q & R). destruct x as [x0 x1 x2], a as [a0 a1 a2]. cbn [e0 e1 e2 Tower.a0 Tower.a1 Tower.a2] in *.
  refine (conj _ (conj _ _)); cbn [e0 e1 e2 Tower.a0 Tower.a1 Tower.a2]; (eapply rep2_conv; [repeat st2 F HF|]; field; exact NN).
Qed.
Lemma inv6_zero x : rep6 x Z6 -> rep6 (fp6_inverse F x) Z6.
Proof using HF HS.
  intros H. unfold fp6_inverse. cbv zeta. destruct H as (P & Q & R). destruct x as [x0 x1 x2]. cbn [e0 e1 e2 Tower.z6 Tower.a0 Tower.a1 Tower.a2] in *.
  match goal with |- context [fp2_inverse F ?t] => assert (I : rep2 (fp2_inverse F t) zz2) end.
  { apply (inv2_zero F HF HS). eapply rep2_conv; [repeat st2 F HF|]. ring. }
  set (J := fp2_inverse F _) in *. clearbody J.
  refine (conj _ (conj _ _)); cbn [e0 e1 e2 Tower.z6 Tower.a0 Tower.a1 Tower.a2]; (eapply rep2_conv; [repeat st2 F HF|]; ring).
Qed.
Notation N12 := (Tower.n12 Fp2 zz2 oo2 q2_add q2_mul q2_sub xi).
Lemma inv12_rep x a : rep12 x a -> a <> Z12 -> rep12 (fp12_inverse F x) (Inv12 a).
Proof using HF HS.
  intros H NZ. assert (NN : N12 a <> Z6) by (intros E; apply NZ; exact (Tower.n12_0 _ _ _ _ _ _ _ _ _ Kp2 q2_dec xi xi_nocube xi_nosq a E)).
  unfold fp12_inverse. cbv zeta.
  match goal with |- context [fp6_inverse F ?t] => assert (I : rep6 (fp6_inverse F t) (Inv6 (N12 a))) end.
  { apply inv6_rep; [|exact NN]. clear NZ NN. destruct H as (P & Q). destruct x as [x0 x1], a as [a0 a1]. cbn [d0 d1 Tower.b0 Tower.b1] in *.
    eapply rep6_conv; [repeat st6 F HF|]. unfold Tower.n12. cbn [Tower.b0 Tower.b1]. ring. }
  revert I NN. set (J := fp6_inverse F _). set (nn := N12 a). intros I NN. unfold Tower.inv12. fold nn. clearbody J nn. clear NZ.
  destruct H as (P & Q). destruct x as [x0 x1], a as [a0 a1]. cbn [d0 d1 Tower.b0 Tower.b1] in *.
  refine (conj _ _); cbn [d0 d1 Tower.b0 Tower.b1]; (eapply rep6_conv; [repeat st6 F HF|]; field; exact NN).
Qed.
Lemma inv12_zero x : rep12 x Z12 -> rep12 (fp12_inverse F x) Z12.
Proof using HF HS.
  intros H. unfold fp12_inverse. cbv zeta. destruct H as (P & Q). destruct x as [x0 x1]. cbn [d0 d1 Tower.z12 Tower.b0 Tower.b1] in *.
  match goal with |- context [fp6_inverse F ?t] => assert (I : rep6 (fp6_inverse F t) Z6) end.
  { apply inv6_zero. eapply rep6_conv; [repeat st6 F HF|]. ring. }
  set (J := fp6_inverse F _) in *. clearbody J.
  refine (conj _ _); cbn [d0 d1 Tower.z12 Tower.b0 Tower.b1]; (eapply rep6_conv; [repeat st6 F HF|]; ring).
Qed.
End Inv.
(** ** The square of Granger and Scott: what the code computes *)
Definition tri (t a : Fp2) : Fp2 := q2_sub (q2_add (q2_add t t) t) (q2_add a a).
Definition tra (t a : Fp2) : Fp2 := q2_add (q2_add (q2_add t t) t) (q2_add a a).
Definition sqa (x y : Fp2) : Fp2 := q2_add (q2_mul x x) (q2_mul xi (q2_mul y y)).
Definition sqb (x y : Fp2) : Fp2 := q2_add (q2_mul x y) (q2_mul x y).
Definition cyc (a : F12) : F12 :=
  Tower.T12 Fp2
   (Tower.T6 Fp2 (tri (sqa (A0 (B0 a)) (A1 (B1 a))) (A0 (B0 a)))
                 (tri (sqa (A0 (B1 a)) (A2 (B0 a))) (A1 (B0 a)))
                 (tri (sqa (A1 (B0 a)) (A2 (B1 a))) (A2 (B0 a))))
   (Tower.T6 Fp2 (tra (q2_mul xi (sqb (A1 (B0 a)) (A2 (B1 a)))) (A0 (B1 a)))
                 (tra (sqb (A0 (B0 a)) (A1 (B1 a))) (A1 (B1 a)))
                 (tra (sqb (A0 (B1 a)) (A2 (B0 a))) (A2 (B1 a)))).
Section Cyc.
Variable F : fbuild.
Hypothesis HF : exact_but_square F.
Lemma cyc_rep x a : rep12 x a -> rep12 (fp12_cyclotomicSquare F x) (cyc a).
Proof using HF.
  intros ((P & Q & R) & (P' & Q' & R')). destruct x as [[x0 x1 x2] [y0 y1 y2]], a as [[a0 a1 a2] [b0 b1 b2]].
  unfold fp12_cyclotomicSquare, fp4Square, cyc, tri, tra, sqa, sqb. cbn [d0 d1 e0 e1 e2 Tower.a0 Tower.a1 Tower.a2 Tower.b0 Tower.b1] in *. cbv beta zeta iota.
  refine (conj (conj _ (conj _ _)) (conj _ (conj _ _))); cbn [d0 d1 e0 e1 e2 Tower.a0 Tower.a1 Tower.a2 Tower.b0 Tower.b1];
    (eapply rep2_conv; [repeat st2 F HF|]; ring).
Qed.
End Cyc.
