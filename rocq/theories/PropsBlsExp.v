(** Property C97: Exp of the BLS12-381 target group for any big integer. *)
From Coq Require Import ZArith List Bool Lia.
From Verif Require Import Base ModelECDSA ModelApi ModelBlsF SpecBls ModelBls SpecBlsG Fp BlsFp2 Weier Group SpecBlsSig SpecBlsPair ProofBlsI ProofBlsJ ProofBlsK ProofBlsL SpecBlsMap ProofBlsS SpecBlsGT BlsTower SpecBlsAte ModelBlsGT ProofBlsU ProofBlsV ProofBlsW ProofBlsX ProofBlsY ProofBlsZ ProofBlsAA PropsBlsSig PropsBlsGT ModelBlsExp BlsGtNontriv.
From Verif Require Tower Group.
Import ListNotations.
Local Open Scope Z_scope.
Local Opaque phi zp bls_p bls_r Group.zmul E_final cf.

Lemma mod_step s i : s mod 2 ^ Z.of_nat (S i) = s mod 2 ^ Z.of_nat i + 2 ^ Z.of_nat i * Z.b2z (Bit s i).
Proof.
  unfold Bit. rewrite Z.testbit_spec' by lia. rewrite Nat2Z.inj_succ, Z.pow_succ_r, Z.mul_comm by lia.
  assert (0 < 2 ^ Z.of_nat i) by (apply Z.pow_pos_nonneg; lia). apply Z.rem_mul_r; lia.
Qed.
Lemma zp_0' a : zp 0 a = O12. Proof. reflexivity. Qed.
Lemma cyc_zp a m : cyc_ok a -> 0 <= m -> cyc_ok (zp m a).
Proof.
  intros C. destruct m as [|m|m]; intros Hm; [exact cyc_1| |lia]. rewrite zp_pos. clear Hm.
  induction (Pos.to_nat m) as [|n IH]; [exact cyc_1|]. cbn [BlsFrob.pw]. apply cyc_mul; assumption.
Qed.
Section Code.
Variable F : fbuild.
Hypothesis HF : exact_but_square F.
Lemma loop_rep x a s : unit12 a -> cyc_ok a -> rep12 x a -> forall n m z, 0 <= m -> rep12 z (zp m a) ->
  rep12 (cyc_loop F x s n z) (zp (m * 2 ^ Z.of_nat n + s mod 2 ^ Z.of_nat n) a).
Proof using HF.
  intros U C A. induction n as [|n IH]; intros m z Hm R.
  - cbn [cyc_loop]. change (2 ^ Z.of_nat 0) with 1. rewrite Z.mod_1_r, Z.mul_1_r, Z.add_0_r. exact R.
  - cbn [cyc_loop]. cbv zeta. pose proof (cycsq_rep F HF z _ (cyc_zp a m C Hm) R) as S. rewrite (zp_mul m m a U) in S.
    rewrite mod_step. rewrite Nat2Z.inj_succ, Z.pow_succ_r by lia. destruct (Bit s n); cbn [Z.b2z].
    + pose proof (mul12_rep F HF _ _ _ _ S A) as T. rewrite <- (zp_1 a U) in T at 2. rewrite (zp_mul (m + m) 1 a U) in T.
      replace (m * (2 * 2 ^ Z.of_nat n) + (s mod 2 ^ Z.of_nat n + 2 ^ Z.of_nat n * 1)) with ((m + m + 1) * 2 ^ Z.of_nat n + s mod 2 ^ Z.of_nat n) by ring.
      apply IH; [lia | exact T].
    + replace (m * (2 * 2 ^ Z.of_nat n) + (s mod 2 ^ Z.of_nat n + 2 ^ Z.of_nat n * 0)) with ((m + m) * 2 ^ Z.of_nat n + s mod 2 ^ Z.of_nat n) by ring.
      apply IH; [lia | exact S].
Qed.
Lemma expbig_rep x a s : unit12 a -> cyc_ok a -> rep12 x a -> rep12 (gt_ExpBig F x s) (zp (s mod 2 ^ Z.of_nat (BitLen s)) a).
Proof using HF. intros U C A. exact (loop_rep x a s U C A (BitLen s) 0 fp12_one ltac:(lia) one12_rep). Qed.
End Code.
Lemma bitlen_pos s : 0 < s -> s < 2 ^ Z.of_nat (BitLen s).
Proof.
  intros H. unfold BitLen. destruct (Z.eqb_spec s 0) as [->|_]; [lia|]. rewrite Z.abs_eq by lia. pose proof (Z.log2_nonneg s).
  rewrite Z2Nat.id by lia. exact (proj2 (Z.log2_spec s H)).
Qed.

(** For every element that IsValid accepts and every integer s: the result is the power by s
    reduced modulo 2^BitLen(s).  So it is the s-th power if s is not negative, *)
Theorem C97_exp : forall F, exact_but_square F -> forall x a s, gt_of x a -> gt_IsValid F x = true ->
  gt_of (gt_ExpBig F x s) (zp (s mod 2 ^ Z.of_nat (BitLen s)) a).
Proof.
  intros F HF x a s A V. apply (valid_iff F HF x a A) in V. pose proof (valid_unit a V) as U.
  exact (expbig_rep F HF x a s U (valid_cyc a U V) A).
Qed.
Print Assumptions C97_exp.
Theorem C97_exp_partial : forall F, exact_but_square F -> forall x a s, gt_of x a -> gt_IsValid F x = true -> 0 <= s ->
  gt_of (gt_ExpBig F x s) (zp s a) /\ gt_ExpBig F x s = gt_Exp F x s.
Proof.
  intros F HF x a s A V Hs. pose proof (C97_exp F HF x a s A V) as R.
  assert (E : s mod 2 ^ Z.of_nat (BitLen s) = s).
  { destruct (Z.eq_dec s 0) as [->|N]; [reflexivity|]. apply Z.mod_small. split; [exact Hs | apply bitlen_pos; lia]. }
  rewrite E in R. split; [exact R|].
  exact (rep12_inj _ _ _ R (proj1 (proj2 (proj2 (proj2 (C92_powers F HF x x a a A A V V))) s Hs))).
Qed.
Print Assumptions C97_exp_partial.
(** and for s = -1 it is the element itself, which is not its inverse unless it is one. *)
Theorem C97_negative_partial : forall F, exact_but_square F -> forall x a, gt_of x a -> gt_IsValid F x = true ->
  gt_ExpBig F x (-1) = x /\ (a <> O12 -> Mul12 a a <> O12).
Proof.
  intros F HF x a A V. split.
  - pose proof (C97_exp F HF x a (-1) A V) as R. apply (valid_iff F HF x a A) in V. pose proof (valid_unit a V) as U.
    change (-1 mod 2 ^ Z.of_nat (BitLen (-1))) with 1 in R. rewrite (zp_1 a U) in R. exact (rep12_inj _ _ _ R A).
  - intros N E. apply (valid_iff F HF x a A) in V. pose proof (valid_unit a V) as U. apply N.
    rewrite <- (zp_1 a U) at 1. 
    assert (E2 : zp 2 a = O12). { rewrite <- E. rewrite <- (zp_1 a U) at 2 3. rewrite (zp_mul 1 1 a U). reflexivity. }
    assert (B : bls_r = 2 * (bls_r / 2) + 1) by (vm_compute; reflexivity).
    assert (E3 : zp (2 * (bls_r / 2)) a = O12).
    { rewrite (Z.mul_comm 2), <- (zp_zp _ 2 a U), E2. exact (Group.zmul_zero _ _ _ _ _ GM _). }
    transitivity (Mul12 (zp (2 * (bls_r / 2)) a) (zp 1 a)); [rewrite E3, (zp_1 a U); symmetry; exact (Group.g_0_l _ _ _ _ _ GM a U)|].
    rewrite (zp_mul _ 1 a U), <- B. exact V.
Qed.
Print Assumptions C97_negative_partial.
(** There is such an element that is not one, so the claim fails for s = -1. *)
Lemma rep12_fun' x a b : rep12 x a -> rep12 x b -> a = b.
Proof.
  destruct a as [[a0 a1 a2] [a3 a4 a5]], b as [[b0 b1 b2] [b3 b4 b5]]. intros ((H0 & H1 & H2) & (H3 & H4 & H5)) ((G0 & G1 & G2) & (G3 & G4 & G5)).
  pose proof (rep2_fun _ _ _ H0 G0) as E0. pose proof (rep2_fun _ _ _ H1 G1) as E1. pose proof (rep2_fun _ _ _ H2 G2) as E2.
  pose proof (rep2_fun _ _ _ H3 G3) as E3. pose proof (rep2_fun _ _ _ H4 G4) as E4. pose proof (rep2_fun _ _ _ H5 G5) as E5.
  cbn in E0, E1, E2, E3, E4, E5. congruence.
Qed.
Theorem C97_negative_refuted : forall F, exact_but_square F ->
  exists x a, gt_of x a /\ gt_IsValid F x = true /\ a <> O12 /\ gt_ExpBig F x (-1) = x /\ ~ gt_of (gt_ExpBig F x (-1)) (zp (-1) a).
Proof.
  intros F HF. destruct gt_nontrivial as (a & Z & N). destruct (rep12_ex a) as [x A].
  pose proof (proj2 (valid_iff F HF x a A) Z) as V. destruct (C97_negative_partial F HF x a A V) as [E M].
  exists x, a. split; [exact A|]. split; [exact V|]. split; [exact N|]. split; [exact E|]. rewrite E. intros B.
  apply (M N). pose proof (rep12_fun' x _ _ A B) as S. pose proof (valid_unit a Z) as U. rewrite S at 1. rewrite <- (zp_1 a U) at 2.
  rewrite (zp_mul (-1) 1 a U). reflexivity.
Qed.
Print Assumptions C97_negative_refuted.
(** The pairing of the generators is such an element. *)
Example C97_met : exists x a, gt_of x a /\ gt_IsValid repaired x = true /\ exact_but_square repaired /\ a = ate g1_gen g2_gen /\ gt_ExpBig repaired x (-1) = x.
Proof.
  destruct C92_met as (x & a & A & V & E & _). destruct C85_builds as [_ HE].
  exists x, a. split; [exact A|]. split; [exact V|]. split; [exact (proj1 HE)|]. split; [exact E|]. exact (proj1 (C97_negative_partial repaired (proj1 HE) x a A V)).
Qed.
