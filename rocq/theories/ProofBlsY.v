(** The pairing engine computes the optimal ate pairing. *)
From Coq Require Import ZArith List Bool Lia Znumtheory Ring Field.
From Verif Require Import Base ModelBlsF SpecBls ModelBls ProofBlsF ProofBlsE SpecBlsG BlsPrime ProofBlsH Fp BlsFp2 BlsFrob ProofBlsI Weier Group SpecBlsSig ProofBlsJ ProofBlsK SpecBlsMap ProofBlsO ProofBlsT ProofBlsQ SpecBlsGT BlsTower SpecBlsAte ModelBlsGT ProofBlsU ProofBlsV ProofBlsW AteAlg ProofBlsX.
From Verif Require Tower Group.
Import ListNotations.
Local Open Scope Z_scope.
Add Field KFZ1 : Kp1.
Add Field KFZ2 : Kp2.
Add Field KFZ6 : K6.
Add Field KFZ12 : K12.
Local Infix "*'" := q2_mul (at level 40, left associativity).
Local Infix "+'" := q2_add (at level 50, left associativity).
Local Infix "-'" := q2_sub (at level 50, left associativity).
Lemma r_big : 2 ^ 64 < bls_r. Proof. reflexivity. Qed.
Local Opaque phi zp bls_p bls_r Group.zmul.
Notation t2' := (oo2 +' oo2). Notation t3' := (oo2 +' oo2 +' oo2).
Lemma three_is : q2 bls_p 3 0 = t3'. Proof. rewrite !q2_addz. reflexivity. Qed.
Lemma two_is : q2 bls_p 2 0 = t2'. Proof. rewrite !q2_addz. reflexivity. Qed.
Lemma two_nz : t2' <> zz2. Proof. exact char2_2. Qed.
Lemma em_line c a b d : Mul12 (em c) (T12 (T6 a b zz2) (T6 zz2 d zz2)) = T12 (T6 (c *' a) (c *' b) zz2) (T6 zz2 (c *' d) zz2).
Proof. unfold em. apply Tower.t12_ext; apply Tower.t6_ext; cb; ring. Qed.
Definition hom (r : mpt2) (R : g2pt) : Prop := match R with
  | Weier.Inf _ => False
  | Weier.Aff _ x y => exists Z, Z <> zz2 /\ prep r (x *' Z) (y *' Z) Z
  end.
Definition lineOK (c : line) (R S : g2pt) : Prop := exists cc u0 u1 u2, cc <> zz2 /\ lrep c u0 u1 u2 /\
  forall xP yP, LV u0 u1 u2 xP yP = Mul12 (em cc) (line_at R S (Weier.Aff _ xP yP)).
Lemma on_eq x y : g2_on (Weier.Aff _ x y) -> y *' y = x *' x *' x +' zz2 *' x +' bb.
Proof. exact (fun H => H). Qed.
Lemma div_eq (u v w : Fp2) : v <> zz2 -> q2_div u v = w -> u = w *' v.
Proof. intros N <-. field. exact N. Qed.
Section Steps.
Variable F : fbuild.
Hypothesis HF : exact_but_square F.
Lemma step_dbl r R : g2_on R -> hom r R -> hom (snd (doublingStep F r)) (g2_add R R) /\ lineOK (fst (doublingStep F r)) R R.
Proof using HF.
  intros O. destruct R as [|x y]; [intros []|]. intros (Z & HZ & PR). pose proof (g2_y x y O) as Y0. pose proof (on_eq x y O) as OE.
  destruct (dbl_rep F HF _ _ _ _ PR) as [LR RR]. destruct (doublingStep F r) as [c r']. cbn [fst snd] in *.
  pose proof hv_2 as H2. revert LR RR OE H2. generalize (of_p hv) bb. intros h b LR RR OE H2. split.
  - unfold g2_add. cbn [Weier.padd]. destruct (q2_dec x x) as [_|N]; [|congruence]. destruct (q2_dec y (q2_opp y)) as [E|_].
    { exfalso. apply Y0. assert (X : t2' *' y = zz2) by (transitivity (y +' y); [ring|rewrite E at 1; ring]).
      transitivity (q2_div (t2' *' y) t2'); [field; exact two_nz|]. rewrite X. field. exact two_nz. }
    cbv zeta. cbn [hom].
    pose proof (dZ_nz _ _ _ _ _ _ _ _ _ Kp2 two_nz y Z Y0 HZ) as NZ.
    pose proof (dbl_x _ _ _ _ _ _ _ _ _ Kp2 two_nz h b x y Z H2 OE Y0 HZ) as EX.
    pose proof (dbl_y _ _ _ _ _ _ _ _ _ Kp2 two_nz h b x y Z H2 OE Y0 HZ) as EY.
    exists (dZ Fp2 oo2 q2_add q2_mul (y *' Z) Z). split; [exact NZ|].
    rewrite <- (div_eq _ _ _ NZ EX), <- (div_eq _ _ _ NZ EY). exact RR.
  - exists (q2_opp (t2' *' (y *' Z *' Z))). do 3 eexists. split; [exact (dbl_c _ _ _ _ _ _ _ _ _ Kp2 two_nz y Z Y0 HZ)|]. split; [exact LR|].
    intros xP yP. cbn [line_at slope]. destruct (q2_dec x x) as [_|N]; [|congruence]. rewrite three_is, two_is, em_line. unfold LV.
    rewrite (dbl_l0 _ _ _ _ _ _ _ _ _ Kp2 two_nz b x y Z OE Y0), (dbl_l1 _ _ _ _ _ _ _ _ _ Kp2 two_nz x y Z Y0 (of_p xP)).
    reflexivity.
Qed.
Lemma step_add r q x y xq yq : hom r (Weier.Aff _ x y) -> prep q xq yq oo2 -> x <> xq ->
  hom (snd (additionStep F r q)) (g2_add (Weier.Aff _ x y) (Weier.Aff _ xq yq)) /\ lineOK (fst (additionStep F r q)) (Weier.Aff _ x y) (Weier.Aff _ xq yq).
Proof using HF.
  intros (Z & HZ & PR) PQ NE. destruct (adds_rep F HF _ _ _ _ _ _ _ _ PR PQ) as [LR RR]. destruct (additionStep F r q) as [c r']. cbn [fst snd] in *. split.
  - unfold g2_add. cbn [Weier.padd]. destruct (q2_dec x xq) as [E|_]; [congruence|]. cbv zeta. cbn [hom].
    pose proof (aZ_nz _ _ _ _ _ _ _ _ _ Kp2 x Z xq HZ NE) as NZ.
    pose proof (add_x _ _ _ _ _ _ _ _ _ Kp2 x y Z xq yq HZ NE) as EX.
    pose proof (add_y _ _ _ _ _ _ _ _ _ Kp2 x y Z xq yq HZ NE) as EY.
    eexists. split; [exact NZ|]. rewrite <- (div_eq _ _ _ NZ EX), <- (div_eq _ _ _ NZ EY). exact RR.
  - eexists. do 3 eexists. split; [exact (t1_nz _ _ _ _ _ _ _ _ _ Kp2 x Z xq HZ NE)|]. split; [exact LR|].
    intros xP yP. cbn [line_at slope]. destruct (q2_dec x xq) as [E|_]; [congruence|]. rewrite em_line. unfold LV.
    rewrite (add_l0 _ _ _ _ _ _ _ _ _ Kp2 x y Z xq yq NE), (add_l1 _ _ _ _ _ _ _ _ _ Kp2 x y Z xq yq NE (of_p xP)). reflexivity.
Qed.
(** *** The loop *)
Variable P : mpt1.
Variables (xP yP : fp p).
Hypothesis PX : rep1 (mpx P) xP.
Hypothesis PY : rep1 (mpy P) yP.
Variable q : mpt2.
Variables (xq yq : Fp2).
Hypothesis PQ : prep q xq yq oo2.
Notation Q := (Weier.Aff _ xq yq).
Notation PP := (Weier.Aff _ xP yP).
Hypothesis HQ : in_G2 Q.
Lemma ell1 c R S cs j f a : nth j cs zero_line = c -> lineOK c R S -> rep12 f a ->
  exists cc, cc <> zz2 /\ rep12 (ell F [(cs, P)] j f) (Mul12 a (Mul12 (em cc) (line_at R S PP))).
Proof using HF PX PY.
  intros <- (cc & u0 & u1 & u2 & NC & LR & E) A. exists cc. split; [exact NC|]. cbn [ell fold_left ell_one fst snd].
  eapply rep12_conv; [exact (line_rep F HF _ _ _ _ _ _ _ _ _ LR PX PY A)|]. rewrite E. reflexivity.
Qed.
Lemma skipn_nth {A} (d : A) j l c t : skipn j l = c :: t -> nth j l d = c /\ skipn (j + 1) l = t.
Proof using. revert l. induction j as [|j IH]; intros [|a l] E; try discriminate; cbn [skipn nth Nat.add] in *; [injection E as -> ->; auto|apply IH, E]. Qed.
Lemma q2_int (a b : Fp2) : a <> zz2 -> b <> zz2 -> a *' b <> zz2.
Proof using. exact (mul_nz _ _ _ _ _ _ _ _ _ Kp2 a b). Qed.
Lemma ord2 k (R : g2pt) : g2_on R -> g2_mul bls_r R = g2_inf -> R <> g2_inf -> g2_mul k R = g2_inf -> 0 < k -> bls_r <= k.
Proof using.
  intros O A N B K. pose proof (zmul_order _ _ _ _ _ G2 bls_r k R O r_prime A N B) as D. pose proof (proj1 r_3) as RP. revert D RP. generalize bls_r. clear - K. intros r D RP.
  apply Z.mod_divide in D; [|lia]. apply Z.divide_pos_le in D; lia.
Qed.
Lemma k_ne k : 1 <= k -> 2 * k + 1 < bls_r -> forall x y, g2_mul (2 * k) Q = Weier.Aff _ x y -> x <> xq.
Proof using HQ.
  intros K1 K2 x y E EX. subst x. destruct HQ as [ON RQ]. 
  assert (ON2 : g2_on (g2_mul (2 * k) Q)) by exact (zmul_ok _ _ _ _ _ G2 (2 * k) Q ON).
  assert (QN : Q <> g2_inf) by discriminate.
  assert (D : g2_mul (2 * k) Q = Q \/ g2_mul (2 * k) Q = g2_neg Q).
  { rewrite E in ON2 |- *. pose proof (on_eq _ _ ON2) as E1. pose proof (on_eq _ _ ON) as E2.
    assert (S : (y -' yq) *' (y +' yq) = zz2) by (transitivity (y *' y -' yq *' yq); [ring|rewrite E1, E2; ring]).
    destruct (q2_dec (y -' yq) zz2) as [A|A].
    - left. f_equal. transitivity ((y -' yq) +' yq); [ring|rewrite A; ring].
    - right. cbn [g2_neg Weier.pneg]. unfold g2_neg. cbn [Weier.pneg]. f_equal. destruct (q2_dec (y +' yq) zz2) as [B|B]; [|exfalso; exact (q2_int _ _ A B S)].
      transitivity ((y +' yq) -' yq); [ring|rewrite B; ring]. }
  destruct D as [D|D].
  - assert (Z : g2_mul (2 * k - 1) Q = g2_inf).
    { unfold g2_mul in *. rewrite (zmul_sub _ _ _ _ _ G2 _ _ Q ON), D, (zmul_1 _ _ _ _ _ G2 Q ON). apply (g_inv _ _ _ _ _ G2 Q ON). }
    apply (ord2 (2 * k - 1) Q ON RQ QN) in Z; clear - K1 K2 Z; lia.
  - assert (Z : g2_mul (2 * k + 1) Q = g2_inf).
    { unfold g2_mul in *. rewrite (zmul_add _ _ _ _ _ G2 _ _ Q ON), D, (zmul_1 _ _ _ _ _ G2 Q ON). apply (gneg_l _ _ _ _ _ G2 Q ON). }
    apply (ord2 (2 * k + 1) Q ON RQ QN) in Z; clear - K1 K2 Z; lia.
Qed.
Lemma em_em a b c d x : Mul12 (Mul12 (Mul12 (em a) b) (Mul12 (em a) b)) (Mul12 (em c) d) = x ->
  x = Mul12 (em (a *' a *' c)) (Mul12 (Mul12 b b) d).
Proof using. intros <-. rewrite !em_mul. ring. Qed.
Lemma loop_ok bits : forall first j cs r k f sp c, skipn j cs = pre_loop F bits r q -> hom r (g2_mul k Q) ->
  1 <= k -> (k + 1) * 2 ^ Z.of_nat (length bits) <= 2 ^ 64 -> c <> zz2 -> rep12 f (Mul12 (em c) sp) -> (first = true -> c = oo2 /\ sp = O12) ->
  exists c', c' <> zz2 /\ rep12 (miller_loop F bits first [(cs, P)] j f) (Mul12 (em c') (miller bits sp (g2_mul k Q) Q PP)).
Proof using HF PX PY PQ HQ.
  pose proof HQ as [ON _].
  induction bits as [|b bits IH]; intros first j cs r k f sp c SK HR K1 KB NC A FI; cbn [miller_loop miller]; [exists c; auto|].
  assert (OK : g2_on (g2_mul k Q)) by exact (zmul_ok _ _ _ _ _ G2 k Q ON).
  destruct (step_dbl r _ OK HR) as [HR2 L2]. cbn [pre_loop] in SK. destruct (doublingStep F r) as [l r2]. cbn [fst snd] in *.
  assert (DBL : g2_add (g2_mul k Q) (g2_mul k Q) = g2_mul (2 * k) Q) by (symmetry; exact (zmul_double _ _ _ _ _ G2 k Q ON)).
  rewrite DBL in HR2 |- *. cbv zeta.
  assert (S : exists d, d <> zz2 /\ rep12 (if first then f else fp12_square F f) (Mul12 (em d) (Mul12 sp sp))).
  { destruct first.
    - destruct (FI eq_refl) as [-> ->]. exists oo2. split; [exact NC|]. eapply rep12_conv; [exact A|]. ring.
    - exists (c *' c). split; [apply q2_int; exact NC|]. eapply rep12_conv; [apply (square12_rep F HF), A|]. rewrite em_mul. ring. }
  destruct S as (d & ND & SQ).
  assert (PB : 2 ^ Z.of_nat (length (b :: bits)) = 2 * 2 ^ Z.of_nat (length bits)) by (cbn [length]; rewrite Nat2Z.inj_succ, Z.pow_succ_r by lia; reflexivity).
  rewrite PB in KB. assert (PP2 : 0 < 2 ^ Z.of_nat (length bits)) by (apply Z.pow_pos_nonneg; lia).
  destruct b.
  - destruct (g2_mul (2 * k) Q) as [|x2 y2] eqn:E2; [destruct HR2|].
    assert (NE : x2 <> xq).
    { apply (k_ne k K1) with (y := y2); [|exact E2]. pose proof r_big as H. clear - K1 KB PP2 H. nia. }
    destruct (step_add _ _ _ _ _ _ HR2 PQ NE) as [HR3 L3]. destruct (additionStep F r2 q) as [l' r3]. cbn [fst snd] in *.
    destruct (skipn_nth zero_line _ _ _ _ SK) as [N1 SK1]. destruct (skipn_nth zero_line _ _ _ _ SK1) as [N2 SK2].
    destruct (ell1 _ _ _ _ _ _ _ N1 L2 SQ) as (c1 & NC1 & E1). destruct (ell1 _ _ _ _ _ _ _ N2 L3 E1) as (c2 & NC2 & E3).
    assert (TR : g2_add (Weier.Aff _ x2 y2) Q = g2_mul (2 * k + 1) Q).
    { rewrite <- E2. unfold g2_mul. rewrite (zmul_add _ _ _ _ _ G2 _ _ Q ON), (zmul_1 _ _ _ _ _ G2 Q ON). reflexivity. }
    rewrite TR in HR3 |- *. replace (j + 2)%nat with (j + 1 + 1)%nat by lia.
    apply (IH false (j + 1 + 1)%nat cs r3 (2 * k + 1) _ _ (d *' c1 *' c2) SK2 HR3); [clear - K1; lia|clear - KB; nia|repeat apply q2_int; assumption| |discriminate].
    eapply rep12_conv; [exact E3|]. rewrite !em_mul. ring.
  - destruct (skipn_nth zero_line _ _ _ _ SK) as [N1 SK1]. destruct (ell1 _ _ _ _ _ _ _ N1 L2 SQ) as (c1 & NC1 & E1).
    apply (IH false (j + 1)%nat cs r2 (2 * k) _ _ (d *' c1) SK1 HR2); [clear - K1; lia|clear - KB PP2; nia|apply q2_int; assumption| |discriminate].
    eapply rep12_conv; [exact E1|]. rewrite !em_mul. ring.
Qed.
End Steps.
